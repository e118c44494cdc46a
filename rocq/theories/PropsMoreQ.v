(** Properties of LRU_Prob, nop and FIFO_Merge. *)
From stdpp Require Import gmap list numbers fin_maps sorting.
From Verif Require Import Base Driver Abs AbsFacts Sim SpecApi ApiFacts SpecComp SpecWeak WSim ModelQueue QueueFacts
  SimSize ModelMoreQ SpecMoreQ SimMoreQ.
Open Scope Z_scope.

Definition rq (id size : Z) : req := mkReq id size 0 0 0.

(** ** C51: LRU with probabilistic promotion *)

(** C51 in full for a promotion probability of at most one and zeroed memory:
    the API properties C01-C07 and C36, with the victim never younger than the
    last use of any object; if every hit promotes it is LRU, if none does it is
    FIFO.  The generator is arbitrary. *)
Theorem C51_lru_prob : forall rnd thr cap (b : bool) adm seed (al ne : Prop), 0 < thr -> 0 <= cap ->
  (al -> forall x, (rnd x).1 mod thr = 0) -> (ne -> forall x, (rnd x).1 mod thr <> 0) ->
  let md := if b then 16 else 0 in
  spec_api (lp_ops rnd thr) (lp_init true b cap adm seed) cap md adm (req_ok md) (pol_lru_prob al ne).
Proof.
  intros rnd thr cap b adm seed al ne Ht Hcap Hal Hne md.
  assert (0 <= md) by (unfold md; destruct b; lia).
  eapply api_all; [exact (lp_sim rnd thr cap md Ht al ne Hal Hne)|by apply lp_init_rel|done|done].
Qed.

Lemma spec_policy_mono {S} (O : ops S) s0 cap md adm P (pol pol' : policy) : (forall m v, pol m v -> pol' m v) ->
  spec_policy O s0 cap md adm P pol -> spec_policy O s0 cap md adm P pol'.
Proof.
  intros Hsub H.
  assert (Hev : forall n m m', evict_to pol cap md n m m' -> evict_to pol' cap md n m m').
  { intros n m m'. induction 1; [by constructor|]. eapply ev_more; eauto. }
  assert (Hrun : forall a cs os a', abs_run pol cap md a cs os a' -> abs_run pol' cap md a cs os a').
  { intros a cs os a'. induction 1 as [|a c o a' cs os a'' Hs Hr IH]; econstructor; [|done].
    destruct Hs; solve [eapply AGetHit; eauto | eapply AGetRefused; eauto | eapply AGetTooBig; eauto
      | eapply AGetMiss; eauto | apply AFind | eapply AFindHit; eauto | eapply AFindMiss; eauto | eapply AInsert; eauto
      | eapply AInsertSkip; eauto | apply ARemove | eapply AEvict; eauto | apply AEvictEmpty | eapply AToEvict; eauto | apply AToEvictEmpty]. }
  intros cs fuel Hc Hf. destruct (H cs fuel Hc Hf) as (s & os & a & Hr & Ha & Hv).
  exists s, os, a. split_and!; [done|auto|]. intros Hne r.
  destruct (Hv Hne r) as (v & s1 & s2 & G1 & G2 & G3 & G4 & G5). exists v, s1, s2. split_and!; auto.
Qed.

(** prob = 1 is LRU: the announced victim is the least recently used. *)
Theorem C51_prob_one_is_lru : forall rnd cap (b : bool) adm seed, 0 <= cap ->
  let md := if b then 16 else 0 in lp_threshold 1 1 = 1 /\
  spec_policy (lp_ops rnd 1) (lp_init true b cap adm seed) cap md adm (req_ok md) pol_lru.
Proof.
  intros rnd cap b adm seed Hcap md. split; [done|].
  apply (spec_policy_mono _ _ _ _ _ _ (pol_lru_prob True False)).
  { intros m v Hp e id e' He He'. by apply (Hp e id e'). }
  apply (C51_lru_prob rnd 1 cap b adm seed True False); [lia|done|intros _ x; apply Z.mod_1_r|done].
Qed.
(** If the draws never hit the threshold it is FIFO. *)
Theorem C51_no_promotion_is_fifo : forall rnd thr cap (b : bool) adm seed, 0 < thr -> 0 <= cap ->
  (forall x, (rnd x).1 mod thr <> 0) ->
  let md := if b then 16 else 0 in
  spec_policy (lp_ops rnd thr) (lp_init true b cap adm seed) cap md adm (req_ok md) pol_fifo.
Proof.
  intros rnd thr cap b adm seed Ht Hcap Hn md.
  apply (spec_policy_mono _ _ _ _ _ _ (pol_lru_prob False True)).
  { intros m v Hp e id e' He He'. by apply (Hp e id e'). }
  apply (C51_lru_prob rnd thr cap b adm seed False True); done.
Qed.

(** A generator for the examples: the draws count up. *)
Definition cnt_rnd (x : Z) : Z * Z := (x, x + 1).
Definition answers {A} (x : res (A * list obs)) : res (list obs) := let! (_, os) := x in Ok os.

(** prob = 1/2: of the two hits below only the second promotes, so 1 stays
    older than 2 and goes first. *)
Example C51_ex :
  answers (run (lp_ops cnt_rnd (lp_threshold 1 2)) 10 (lp_init true false 3 AdmNone 1)
    [CGet (rq 1 1); CGet (rq 2 1); CGet (rq 1 1); CGet (rq 3 1); CGet (rq 3 1); CToEvict (rq 0 1); CGet (rq 4 1);
     CFind (rq 1 1) false; CFind (rq 2 1) false]) =
  Ok [OBool false; OBool false; OBool true; OBool false; OBool true; OVictim (Some 1); OBool false; OBool false; OBool true].
Proof. vm_compute. reflexivity. Qed.

(** As the code stands the memory is not zeroed: the first insertion reads an
    uninitialised pointer, so no program that inserts anything has a defined
    outcome. *)
Theorem C51_uninitialised_queue_refuted : exists rnd thr cap b adm seed r, 0 < thr /\ req_ok 0 r /\ r_size r <= cap /\
  forall fuel, step (lp_ops rnd thr) fuel (lp_init false b cap adm seed) (CGet r) = Err Uninit.
Proof.
  exists cnt_rnd, 2, 10, false, AdmNone, 0, (rq 1 1). split_and!; [lia|split; cbn; lia|cbn; lia|].
  intros [|fuel]; reflexivity.
Qed.

(** A promotion "probability" above one is accepted and makes the threshold
    zero: the first hit divides by zero. *)
Theorem C51_prob_above_one_refuted : exists rnd num den cap b adm seed, den < num /\
  let O := lp_ops rnd (lp_threshold num den) in
  answers (run O 5 (lp_init true b cap adm seed) [CGet (rq 1 1)]) = Ok [OBool false] /\
  answers (run O 5 (lp_init true b cap adm seed) [CGet (rq 1 1); CGet (rq 1 1)]) = Err DivByZero.
Proof. exists cnt_rnd, 2, 1, 10, false, AdmNone, 0. split; [lia|]. split; reflexivity. Qed.

(** ** C52: nop and FIFO_Merge *)

(** nop stores nothing: whatever the program (to_evict is never reached on an
    empty cache), every lookup misses, nothing is removed, the counters stay at
    zero. *)
Definition nop_answer (c : call) : obs :=
  match c with
  | CGet _ | CFind _ _ | CRemove _ => OBool false
  | CInsert _ | CEvict _ => OUnit
  | CToEvict _ => OVictim None
  end.
(** The get loop has nothing to do exactly when the request fits. *)
Lemma nop_run cap : forall cs fuel adm nr, exists s,
  run nop_ops fuel (mkCache cap 0 nr 0 0 ∅ adm) cs = Ok (s, map nop_answer cs) /\
  c_occ s = 0 /\ c_nobj s = 0.
Proof.
  induction cs as [|c cs IH]; intros fuel adm nr.
  { eexists. split_and!; done. }
  assert (Hs : exists adm' nr', step nop_ops fuel (mkCache cap 0 nr 0 0 ∅ adm) c = Ok (mkCache cap 0 nr' 0 0 ∅ adm', nop_answer c)).
  { destruct c; cbn [step nop_ops op_find op_remove op_nobj op_occupied op_md op_size op_insert op_evict op_to_evict nop_answer rbind c_nobj c_tbl].
    - unfold cache_get_base. cbn [nop_ops op_tick op_find op_can_insert rbind].
      unfold cache_can_insert_default, c_incr_nreq. cbn [c_adm c_size c_md c_occ c_nobj c_nreq c_tbl].
      destruct (admit adm r) as [a' ok]. destruct ok; cbn [andb rbind].
      + unfold c_set_adm. cbn [c_adm c_size c_md c_occ c_nobj c_nreq c_tbl].
        destruct (decide _) as [Hbig|Hfit]; cbn [rbind]; [eauto|].
        destruct fuel; cbn [evict_loop nop_ops op_occupied op_md op_size c_occ c_md c_size];
          (rewrite decide_False by lia); cbn; eauto.
      + eauto.
    - eauto.
    - destruct (decide _); eauto.
    - rewrite lookup_empty. eauto.
    - rewrite decide_True by lia. eauto.
    - rewrite decide_True by lia. eauto. }
  destruct Hs as (adm' & nr' & Hs). destruct (IH fuel adm' nr') as (s & Hr & H1 & H2).
  exists s. cbn [run]. rewrite Hs. cbn [rbind]. rewrite Hr. cbn [rbind]. done.
Qed.
Theorem C52_nop_stores_nothing : forall cs fuel cap adm, exists s,
  run nop_ops fuel (nop_init cap adm) cs = Ok (s, map nop_answer cs) /\
  op_occupied nop_ops s = 0 /\ op_nobj nop_ops s = 0 /\
  forall r u, exists s', op_find nop_ops s r u = Ok (s', false).
Proof.
  intros cs fuel cap adm. destruct (nop_run cap cs fuel adm 0) as (s & H1 & H2 & H3).
  exists s. split_and!; [done|done|done|]. cbn. eauto.
Qed.
Example C52_nop_ex :
  answers (run nop_ops 0 (nop_init 10 AdmNone) [CGet (rq 1 1); CGet (rq 1 1); CFind (rq 1 1) false]) =
  Ok [OBool false; OBool false; OBool false].
Proof. reflexivity. Qed.

Section Merge.
  Context (n_exam n_keep : Z) (rank : Z -> cache -> list Z -> list Z * Z) (cap : Z) (b : bool).
  Context (adm : admissioner) (seed : Z).
  Let md := if b then 4 else 0.
  Local Notation O := (fm_ops n_exam n_keep false rank).
  Local Notation s0 := (fm_init b cap adm seed).

  (** What is assumed of the parameters and of qsort: the ranking contains the
      examined objects, once each. *)
  Definition merge_params : Prop :=
    0 < n_exam < 2 ^ 31 - 1 /\ 0 <= n_keep <= n_exam /\ 0 <= cap /\
    forall seed c l, (rank seed c l).1 ≡ₚ l.

  Lemma md_nonneg : 0 <= md.
  Proof. unfold md. destruct b; lia. Qed.

  (** C01-C06 and termination for programs without remove and to_evict. *)
  Theorem C52_fifo_merge_api : merge_params -> weak_api O s0 cap md adm (merge_call md) pol_any.
  Proof.
    intros (H1 & H2 & H3 & H4). pose proof md_nonneg.
    eapply wapi_all; [by apply fm_sim|by apply fm_init_rel|done|done].
  Qed.

  (** A batch.  At its start, with more than [n_exam] objects in the cache, the
      [n_exam] objects from the current position on (towards newer objects,
      going round) are ranked; then max 1 (n_exam - n_keep - 1) evictions take
      the objects in the order of the ranking.  The queue lists the residents by
      insertion time. *)
  Theorem C52_fifo_merge_batch : merge_params -> forall cs fuel s os, Forall (merge_call md) cs -> (length cs <= fuel)%nat ->
    run O fuel s0 cs = Ok (s, os) -> op_nobj O s > n_exam -> n_exam <= fm_pos s ->
    exists a w, abs_run pol_any cap md (abs_init adm) cs os a /\
      NoDup (fm_q s) /\ (forall id, id ∈ fm_q s <-> is_Some (a_m a !! id)) /\
      StronglySorted (fun x y => forall ex ey, a_m a !! x = Some ex -> a_m a !! y = Some ey -> e_ins ey < e_ins ex) (fm_q s) /\
      w = take (Z.to_nat n_exam)
        (match fm_nte s with None => rev (fm_q s) | Some p => rot_to p (rev (fm_q s)) end) /\
      Z.of_nat (length w) = n_exam /\ NoDup w /\
      forall k r, (1 <= k)%nat -> Z.of_nat k <= Z.max 1 (n_exam - n_keep - 1) ->
        exists s', evict_n O k s r = Ok s' /\
          forall j, resident O s' j <-> resident O s j /\ j ∉ take k (rank (fm_seed s) (fm_c s) w).1.
  Proof.
    intros (H1 & H2 & H3 & H4) cs fuel s os Hcs Hf Hrun Hn Hpos. pose proof md_nonneg as Hmd.
    assert (HS : wsimulation pol_any O cap md (merge_call md) (fmrel n_exam n_keep cap md)) by (by apply fm_sim).
    assert (HI : fmrel n_exam n_keep cap md s0 (abs_init adm)) by (by apply fm_init_rel).
    destruct (wapi_run _ _ _ _ _ _ HS adm s0 HI H3 Hmd cs fuel Hcs Hf) as (s' & os' & a & Hr' & Har & HR & Hok).
    rewrite Hrun in Hr'. injection Hr' as <- <-. destruct a as [t m ad].
    assert (Hsz : Z.of_nat (size m) > n_exam).
    { destruct HR as (G1 & _). pose proof (sr_nobj _ _ _ _ G1) as G. cbn in G, Hn. lia. }
    destruct (fm_evict_batch n_exam n_keep rank cap md H1 H2 H4 s t m ad (rq 0 0) Hok HR Hsz Hpos) as (w & Hw & Hnd & Hlen & _).
    exists (mkAbs t m ad), w. pose proof HR as (_ & ((Q1 & Q2) & Q3) & _).
    split_and!; [done|done|done|exact Q3|done|done|done|].
    intros k r Hk1 Hk2.
    destruct (fm_evict_batch n_exam n_keep rank cap md H1 H2 H4 s t m ad r Hok HR Hsz Hpos) as (w' & Hw' & _ & _ & _ & Hb).
    rewrite <- Hw in Hw'. subst w'. destruct (Hb k Hk1 Hk2) as (s' & m' & Hev & HR' & Hj).
    exists s'. split; [done|]. intros j.
    rewrite (wresident_iff _ _ _ _ _ _ HS s' _ j HR'), (wresident_iff _ _ _ _ _ _ HS s _ j HR). apply Hj.
  Qed.
End Merge.

(** The examples rank the objects in the order examined. *)
Definition fifo_rank (seed : Z) (_ : cache) (l : list Z) : list Z * Z := (l, seed).
Example C52_params_ex : merge_params 4 1 fifo_rank 10.
Proof. split_and!; try lia. done. Qed.
(** 4 examined, 1 kept: the batch {1,2,3,4} loses 1 and 2 *)
Example C52_batch_ex :
  answers (run (fm_ops 4 1 false fifo_rank) 10 (fm_init false 6 AdmNone 0)
    [CGet (rq 1 1); CGet (rq 2 1); CGet (rq 3 1); CGet (rq 4 1); CGet (rq 5 1); CGet (rq 6 1);
     CGet (rq 7 1); CGet (rq 8 1);
     CFind (rq 1 1) false; CFind (rq 2 1) false; CFind (rq 3 1) false; CFind (rq 4 1) false; CFind (rq 5 1) false]) =
  Ok [OBool false; OBool false; OBool false; OBool false; OBool false; OBool false; OBool false; OBool false;
      OBool false; OBool false; OBool true; OBool true; OBool true].
Proof. vm_compute. reflexivity. Qed.

(** "Of the n_exam objects, keep n_keep and evict the rest" (FIFO_Merge.c:42) is
    false: with n_exam = 4 and n_keep = 2, of the objects 1-4 examined first only
    one is evicted; the next eviction takes 5. *)
Theorem C52_keeps_n_keep_refuted : exists n_exam n_keep rank cap seed,
  merge_params n_exam n_keep rank cap /\ n_exam - n_keep = 2 /\
  answers (run (fm_ops n_exam n_keep false rank) 10 (fm_init false cap AdmNone seed)
    [CGet (rq 1 1); CGet (rq 2 1); CGet (rq 3 1); CGet (rq 4 1); CGet (rq 5 1); CGet (rq 6 1);
     CEvict (rq 0 0); CEvict (rq 0 0);
     CFind (rq 1 1) false; CFind (rq 2 1) false; CFind (rq 3 1) false; CFind (rq 4 1) false; CFind (rq 5 1) false]) =
  Ok [OBool false; OBool false; OBool false; OBool false; OBool false; OBool false; OUnit; OUnit;
      OBool false; OBool true; OBool true; OBool true; OBool false].
Proof.
  exists 4, 2, fifo_rank, 10, 0. split; [split_and!; try lia; done|]. split; [lia|]. vm_compute. reflexivity.
Qed.

(** With remove the API properties fail: an object of the current batch that
    the client removed is evicted later through a dangling pointer. *)
Theorem C52_remove_refuted : exists n_exam n_keep rank cap seed cs, merge_params n_exam n_keep rank cap /\
  Forall (call_ok (req_ok 0)) cs /\
  run (fm_ops n_exam n_keep false rank) 10 (fm_init false cap AdmNone seed) cs = Err UseAfterFree.
Proof.
  exists 4, 1, fifo_rank, 10, 0,
    [CGet (rq 1 1); CGet (rq 2 1); CGet (rq 3 1); CGet (rq 4 1); CGet (rq 5 1); CEvict (rq 0 0); CRemove 2; CEvict (rq 0 0)].
  split; [split_and!; try lia; done|]. split.
  - repeat constructor; cbn; lia.
  - vm_compute. reflexivity.
Qed.

(** The documented retain policy "none" and to_evict abort. *)
Theorem C52_policy_none_refuted : exists n_exam n_keep rank cap seed cs, merge_params n_exam n_keep rank cap /\
  Forall (merge_call 0) cs /\
  run (fm_ops n_exam n_keep true rank) 10 (fm_init false cap AdmNone seed) cs = Err AssertFail.
Proof.
  exists 2, 1, fifo_rank, 3, 0, [CGet (rq 1 1); CGet (rq 2 1); CGet (rq 3 1); CGet (rq 4 1)].
  split; [split_and!; try lia; done|]. split; [repeat constructor; cbn; lia|]. vm_compute. reflexivity.
Qed.
Theorem C52_to_evict_refuted : forall n_exam n_keep p rank s r, op_to_evict (fm_ops n_exam n_keep p rank) s r = Err AssertFail.
Proof. done. Qed.
