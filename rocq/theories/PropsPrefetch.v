(** C64 and C65: the prefetchers OBL and PG. *)
From stdpp Require Import gmap list numbers fin_maps.
From Verif Require Import Base Driver Abs AbsFacts Sim ApiFacts SpecApi ModelQueue ModelLFU
  SimQueue SimClock SimSieve SimLFU PropsCore ModelPQ ModelPrefetch SpecPrefetch PrefetchFacts PGFacts.
Open Scope Z_scope.

(** A cache [O] that starts empty in [s0], with the prefetcher [F] that starts
    in [q0]: every trace of [good] requests is served without a fault, with the
    answers of the abstract cache that also loads what the prefetcher [want]s;
    what is held, counted and charged is the abstract cache's, and fits. *)
Definition spec_prefetch {S Q : Type} (O : ops S) (s0 : S) (F : prefetcher S Q) (q0 : Q) (pol : policy)
    (cap md : Z) (adm : admissioner) (want : list req -> req -> list req -> Prop) (good : req -> Prop) : Prop :=
  forall rs, Forall good rs ->
  exists s q hits a, pf_run O F (s0, q0) rs = Ok (s, q, hits) /\
    abs_prun pol cap md want [] (abs_init adm) rs hits a /\
    (forall id, resident O s id <-> is_Some (a_m a !! id)) /\
    (forall id, absent O s id <-> a_m a !! id = None) /\
    op_nobj O s = Z.of_nat (size (a_m a)) /\
    op_occupied O s = msum md (a_m a) /\ op_occupied O s <= cap.

(** ** C64: OBL *)

(** Full claim: any cache, any block size, with or without metadata. *)
Section OblAny.
  Context {S : Type} (O : ops S) (s0 : S) (pol : policy) (cap : Z) (adm : admissioner) (R : S -> abs -> Prop).
  Context (HS : simulation pol O cap 0 (req_ok 0) R) (H0 : R s0 (abs_init adm)) (Hcap : 0 <= cap).
  Context (bs : Z) (k : nat) (Hk : (0 < k)%nat) (Hk32 : Z.of_nat k < 2 ^ 32) (Hbs : 0 <= bs <= cap) (Hbs32 : bs < 2 ^ 32).

  Lemma obl_spec : spec_prefetch O s0 (OBL O) (obl_init bs k) pol cap 0 adm (obl_want k bs) (fun r => req_ok 0 r /\ id64 r).
  Proof using HS H0 Hcap Hk Hk32 Hbs Hbs32.
    intros rs Hrs.
    destruct (obl_run_ok pol O cap 0 (req_ok 0) R HS bs k Hk Hk32 eq_refl ltac:(lia)
      ltac:(intros r Er; unfold req_ok; rewrite Er; lia) rs [] s0 (obl_init bs k) (abs_init adm)) as (s & q & hits & a & E & Ha & _ & HR & Hok).
    - split; [done|]. by apply obl_init_ok.
    - done.
    - done.
    - by apply abs_init_ok.
    - exists s, q, hits, a. split; [done|]. split; [done|]. split; [intros id; by apply (resident_iff pol O cap 0 _ R HS)|].
      split; [intros id; by apply (absent_iff pol O cap 0 _ R HS)|].
      split; [exact (sim_nobj _ _ _ _ _ _ HS _ _ HR)|]. rewrite (sim_occ _ _ _ _ _ _ HS _ _ HR). split; [done|]. apply Hok.
  Qed.
End OblAny.

(** Full statement: [spec_prefetch] with [sequential] only as the trigger, and
    with metadata.  Missing: see the refutations. *)
Theorem C64_obl_partial cap adm bs k : 0 <= bs <= cap -> bs < 2 ^ 32 -> (0 < k)%nat -> Z.of_nat k < 2 ^ 32 ->
  let good := fun r => req_ok 0 r /\ id64 r in
  (* FIFO *) spec_prefetch fifo_ops (fifo_init cap adm) (OBL fifo_ops) (obl_init bs k) pol_fifo cap 0 adm (obl_want k bs) good /\
  (* LRU *) spec_prefetch lru_ops (lru_init false cap adm) (OBL lru_ops) (obl_init bs k) pol_lru cap 0 adm (obl_want k bs) good /\
  (* Clock *) (forall mf, 0 <= mf ->
    spec_prefetch (clock_ops mf) (clock_init cap adm) (OBL (clock_ops mf)) (obl_init bs k) pol_any cap 0 adm (obl_want k bs) good) /\
  (* Sieve *) spec_prefetch sieve_ops (sieve_init false cap adm) (OBL sieve_ops) (obl_init bs k) pol_any cap 0 adm (obl_want k bs) good /\
  (* LFU *) spec_prefetch lfu_ops (lfu_init false cap adm) (OBL lfu_ops) (obl_init bs k) pol_lfu cap 0 adm (obl_want k bs) good.
Proof.
  intros Hbs H32 Hk Hk32 good. assert (Hcap : 0 <= cap) by lia. split_and!.
  - eapply obl_spec; [exact (fifo_sim cap 0)|exact (q_init_rel e_ins cap 0 adm)|done..].
  - eapply obl_spec; [exact (lru_sim cap 0)|exact (q_init_rel e_last cap 0 adm)|done..].
  - intros mf Hmf. eapply obl_spec; [exact (clock_sim mf cap 0 Hmf)|exact (clock_init_rel mf cap 0 adm)|done..].
  - eapply obl_spec; [exact (sieve_sim cap 0)|exact (sieve_init_rel cap 0 adm)|done..].
  - eapply obl_spec; [exact (lfu_sim cap 0)|exact (lfu_init_rel cap 0 false adm eq_refl)|done..].
Qed.

(** In a sequential run the block after a request that was found sequential is
    there when it is asked for, whatever the policy of the cache. *)
Lemma abs_fill_there pol cap md a r a' : abs_fill pol cap md a r a' -> is_Some (a_m a' !! r_id r).
Proof. intros []; [done|]. cbn [a_m]. rewrite lookup_insert. eauto. Qed.

Lemma prun_next pol cap md k bs h a rs hits a' : abs_prun pol cap md (obl_want k bs) h a rs hits a' ->
  forall pre r r' post, rs = pre ++ r :: r' :: post -> sequential k (h ++ pre) r -> r_id r' = r_id r + 1 ->
  hits !! Datatypes.S (length pre) = Some true.
Proof.
  induction 1 as [|h a r0 b a1 l a2 rs hits a3 Hst Hw Hf Hr IH]; intros pre r r' post E Hseq Hid.
  { by destruct pre. }
  destruct pre as [|p pre]; cbn [app] in E; injection E as -> E.
  - rewrite app_nil_r in Hseq. cbn [length lookup list_lookup]. subst rs.
    destruct Hw as [[_ (q & -> & Hq & _)]|[Hn _]]; [|tauto].
    inversion Hf as [|? ? ? ? ? Hf1 Hf2]; subst. inversion Hf2; subst.
    apply abs_fill_there in Hf1. rewrite Hq, <- Hid in Hf1.
    inversion Hr as [|? ? ? b' ? ? ? ? ? ? Hs']; subst. destruct Hf1 as [e He]. cbn [list_lookup lookup].
    f_equal. inversion Hs'; subst; cbn [a_m] in *; congruence.
  - cbn [length lookup list_lookup]. apply (IH pre r r' post E); [|done]. by rewrite <- app_assoc.
Qed.

Theorem C64_next_block_hits {S Q : Type} (O : ops S) s0 (F : prefetcher S Q) q0 pol cap md adm k bs good :
  spec_prefetch O s0 F q0 pol cap md adm (obl_want k bs) good ->
  forall pre r r' post s q hits, Forall good (pre ++ r :: r' :: post) ->
  sequential k pre r -> r_id r' = r_id r + 1 ->
  pf_run O F (s0, q0) (pre ++ r :: r' :: post) = Ok (s, q, hits) -> hits !! Datatypes.S (length pre) = Some true.
Proof.
  intros HS pre r r' post s q hits Hg Hseq Hid E.
  destruct (HS _ Hg) as (s' & q' & hits' & a & E' & Ha & _). rewrite E in E'. injection E' as <- <- <-.
  exact (prun_next _ _ _ _ _ _ _ _ _ _ Ha _ _ _ _ eq_refl Hseq Hid).
Qed.

(** A trace with no sequential run is served as if there was no prefetcher;
    for any cache at all, faults included. *)
Definition no_prefetch {S} : prefetcher S unit := mkPf (fun _ _ _ => Ok tt) (fun su _ => Ok su).
Theorem C64_random_untouched {S} (O : ops S) s0 bs k rs : (0 < k)%nat -> Z.of_nat k < 2 ^ 32 -> Forall id64 rs ->
  (forall pre r post, rs = pre ++ r :: post -> ~ sequential k pre r /\ ~ from_zero k pre r) ->
  match pf_run O no_prefetch (s0, tt) rs with
  | Ok (s, _, hits) => exists p, pf_run O (OBL O) (s0, obl_init bs k) rs = Ok (s, p, hits)
  | Err e => pf_run O (OBL O) (s0, obl_init bs k) rs = Err e
  end.
Proof.
  intros Hk Hk32 Hrs Hno. refine (obl_inert O bs k rs Hk Hk32 [] s0 (obl_init bs k) _ Hrs Hno no_prefetch _ _).
  - split; [done|]. by apply obl_init_ok.
  - done.
  - by intros s [] r.
Qed.

(** Without the prefetcher, [pf_run] is the plain cache. *)
Theorem C64_no_prefetch_is_get {S} (O : ops S) s r :
  pf_get O no_prefetch (s, tt) r =
  (let s1 := op_tick O s in
   let! (s2, hit) := op_find O s1 r true in
   let! s3 := (if hit : bool then Ok s2
               else let! (s3, ok) := op_can_insert O s2 r in
                    if ok : bool then let! s4 := evict_loop O (steps_of O s3) s3 r in op_insert O s4 r else Ok s3) in
   Ok ((s3, tt), hit)).
Proof.
  unfold pf_get. cbn zeta. destruct (op_find O (op_tick O s) r true) as [[s2 hit]|]; [|done]. cbn [rbind no_prefetch pf_find].
  destruct hit; [done|]. cbn [rbind]. destruct (op_can_insert O s2 r) as [[s3 ok]|]; [|done]. cbn [rbind].
  destruct ok; [|done]. destruct (evict_loop O _ s3 r) as [s4|]; [|done]. cbn [rbind]. by destruct (op_insert O s4 r).
Qed.

Definition rq (x n : Z) : req := mkReq x n 0 0 0.
Definition ones (l : list Z) : list req := map (fun x => rq x 1) l.
Definition end_of {S Q A} (d : S) (r : res ((S * Q) * A)) : S := match r with Ok (s, _, _) => s | Err _ => d end.
Definition hits_of {SQ A} (r : res (SQ * list A)) : list A := match r with Ok (_, h) => h | Err _ => [] end.
Definition obl_fifo cap bs k rs := pf_run fifo_ops (OBL fifo_ops) (fifo_init cap AdmNone, obl_init bs k) rs.
Definition obl_lru b cap adm bs k rs := pf_run lru_ops (OBL lru_ops) (lru_init b cap adm, obl_init bs k) rs.
Ltac vmr := vm_compute; reflexivity.

(** Blocks 10 to 14 with k = 2 on a FIFO of three blocks: the hits start at 13. *)
Example C64_obl_ex : Forall (fun r => req_ok 0 r /\ id64 r) (ones [10; 11; 12; 13; 14]) /\
  sequential 2 (ones [10; 11]) (rq 12 1) /\
  hits_of (obl_fifo 3 1 2 (ones [10; 11; 12; 13; 14])) = [false; false; false; true; true] /\
  q_q (end_of (fifo_init 3 AdmNone) (obl_fifo 3 1 2 (ones [10; 11; 12; 13; 14]))) = [15; 14; 13].
Proof.
  split_and!; [|split|vmr|vmr].
  - repeat constructor; done.
  - cbn. lia.
  - intros [|[|i]] Hi; [eexists; split; [vmr|vmr]..|lia].
Qed.
Example C64_random_ex : Forall id64 (ones [5; 9; 5; 7]) /\
  (forall pre r post, ones [5; 9; 5; 7] = pre ++ r :: post -> ~ sequential 2 pre r /\ ~ from_zero 2 pre r).
Proof.
  split; [repeat constructor; done|]. intros pre r post E.
  assert (Hs : forall q r0 l, ~ (r_id q = r_id r0 - 1) -> ~ sequential 2 (l ++ [q]) r0).
  { intros q r0 l Hn [_ H]. destruct (H 0%nat ltac:(lia)) as (q' & Hq & Hid). rewrite app_length in Hq. cbn [length] in Hq.
    replace (length l + 1 - 1 - 0)%nat with (length l + 0)%nat in Hq by lia. rewrite lookup_app_r in Hq by lia.
    replace (length l + 0 - length l)%nat with 0%nat in Hq by lia. injection Hq as <-. cbn in Hid. lia. }
  split.
  - destruct pre as [|p1 [|p2 [|p3 [|p4 [|p5 pre]]]]]; cbn in E; simplify_eq.
    + intros [H _]. cbn in H. lia.
    + apply (Hs _ _ []). done.
    + apply (Hs _ _ [rq 5 1]). done.
    + apply (Hs _ _ [rq 5 1; rq 9 1]). done.
  - intros [H1 _]. destruct pre as [|p1 [|p2 [|p3 [|p4 [|p5 pre]]]]]; cbn in E; simplify_eq; cbn in H1; lia.
Qed.

(** "Prefetch only after k sequential accesses": the ring starts at UINT64_MAX,
    one before block 0, so a trace that starts at block 0 prefetches after
    k - 1 of them. *)
Theorem C64_sequential_refuted : exists rs, Forall (fun r => req_ok 0 r /\ id64 r) rs /\
  (forall pre r post, rs = pre ++ r :: post -> ~ sequential 1 pre r) /\
  q_q (end_of (fifo_init 2 AdmNone) (obl_fifo 2 1 1 rs)) = [1; 0] /\ map r_id rs = [0].
Proof.
  exists (ones [0]). split_and!; [repeat constructor; done| |vmr|vmr].
  intros pre r post E [H _]. destruct pre as [|p pre]; [cbn in H; lia|]. cbn in E. injection E as _ E. by destruct pre.
Qed.

(** With metadata the room test is wrong: the cache overflows. *)
Theorem C64_metadata_refuted : exists cap rs, Forall (fun r => req_ok 16 r /\ id64 r /\ r_size r = 4) rs /\
  op_occupied lru_ops (end_of (lru_init true cap AdmNone) (obl_lru true cap AdmNone 4 1 rs)) = 60 /\ cap = 44 /\ length rs = 2%nat.
Proof.
  exists 44, (map (fun x => rq x 4) [10; 11]). split; [repeat constructor; done|]. split; [vmr|]. split; done.
Qed.

(** The prefetched block does not pass the admission policy. *)
Theorem C64_admission_refuted : exists rs, Forall (fun r => req_ok 0 r /\ id64 r /\ (admit (AdmSize 3) r).2 = false) rs /\
  q_q (end_of (lru_init false 8 (AdmSize 3)) (obl_lru false 8 (AdmSize 3) 4 1 rs)) = [12].
Proof. exists (map (fun x => rq x 4) [10; 11]). split; [repeat constructor; done|vmr]. Qed.

(** The prefetched block can push out the block that was asked for. *)
Theorem C64_evicts_request_refuted : exists rs, Forall (fun r => req_ok 0 r /\ id64 r) rs /\
  last rs = Some (rq 11 1) /\ q_q (end_of (fifo_init 1 AdmNone) (obl_fifo 1 1 1 rs)) = [12].
Proof. exists (ones [10; 11]). split; [repeat constructor; done|]. split; [done|vmr]. Qed.

(** A block larger than the cache: the eviction loop empties the cache and
    evicts from it again. *)
Theorem C64_large_block_refuted : exists rs, Forall (fun r => req_ok 0 r /\ id64 r) rs /\
  obl_fifo 4 5 1 rs = Err NullDeref.
Proof. exists (ones [10; 11]). split; [repeat constructor; done|vmr]. Qed.

(** ** C65: PG *)
Section PgAny.
  Context {S : Type} (O : ops S) (s0 : S) (pol : policy) (cap md : Z) (adm : admissioner) (R : S -> abs -> Prop).
  Context (HS : simulation pol O cap md (req_ok md) R) (H0 : R s0 (abs_init adm)) (Hcap : 0 <= cap) (Hmd : 0 <= md).
  Context (lbl : nat -> bool) (above : Z -> Z -> bool) (L : nat) (max : Z) (HL : (0 < L)%nat) (Hmax : 0 < max).

  Lemma pg_spec : spec_prefetch O s0 (PG lbl above O) (pg_init L max) pol cap md adm (pg_want L max above)
    (fun r => req_ok md r /\ small r /\ r_size r + md <= cap).
  Proof using HS H0 Hcap Hmd HL Hmax.
    intros rs Hrs.
    destruct (pg_run_ok pol O cap md (req_ok md) R HS lbl above L max HL
      ltac:(intros r r' Er; unfold req_ok; rewrite Er; tauto) rs [] s0 (pg_init L max) (abs_init adm)) as (s & q & hits & a & E & Ha & _ & HR & Hok).
    - split; [by apply pg_init_ok|done].
    - done.
    - done.
    - by apply abs_init_ok.
    - exists s, q, hits, a. split; [done|]. split; [done|]. split; [intros id; by apply (resident_iff pol O cap md _ R HS)|].
      split; [intros id; by apply (absent_iff pol O cap md _ R HS)|].
      split; [exact (sim_nobj _ _ _ _ _ _ HS _ _ HR)|]. rewrite (sim_occ _ _ _ _ _ _ HS _ _ HR). split; [done|]. apply Hok.
  Qed.
End PgAny.

(** Full statement: [spec_prefetch] for all ids and sizes, with [pg_want] also
    saying that every object above the threshold is asked for.  Missing: ids
    and sizes of 2^31 or more, id 0, objects larger than the cache, and the
    converse; see the refutations.  [lbl] is the uninitialised byte that the
    code reads, [above] the floating-point comparison: the theorem holds for
    all of them. *)
Theorem C65_pg_partial cap adm lbl above L max : 0 <= cap -> (0 < L)%nat -> 0 < max ->
  let good md r := req_ok md r /\ small r /\ r_size r + md <= cap in
  let md16 (b : bool) := if b then 16 else 0 in
  (* FIFO *) spec_prefetch fifo_ops (fifo_init cap adm) (PG lbl above fifo_ops) (pg_init L max) pol_fifo cap 0 adm
    (pg_want L max above) (good 0) /\
  (* LRU *) (forall b, spec_prefetch lru_ops (lru_init b cap adm) (PG lbl above lru_ops) (pg_init L max) pol_lru cap (md16 b) adm
    (pg_want L max above) (good (md16 b))) /\
  (* Clock *) (forall mf, 0 <= mf -> spec_prefetch (clock_ops mf) (clock_init cap adm) (PG lbl above (clock_ops mf)) (pg_init L max)
    pol_any cap 0 adm (pg_want L max above) (good 0)) /\
  (* Sieve *) (forall b : bool, spec_prefetch sieve_ops (sieve_init b cap adm) (PG lbl above sieve_ops) (pg_init L max)
    pol_any cap (if b then 1 else 0) adm (pg_want L max above) (good (if b then 1 else 0))) /\
  (* LFU *) (forall b, spec_prefetch lfu_ops (lfu_init b cap adm) (PG lbl above lfu_ops) (pg_init L max) pol_lfu cap (md16 b) adm
    (pg_want L max above) (good (md16 b))).
Proof.
  intros Hcap HL Hmax good md16. split_and!.
  - eapply pg_spec; [exact (fifo_sim cap 0)|exact (q_init_rel e_ins cap 0 adm)|done..].
  - intros b. eapply pg_spec; [exact (lru_sim cap _)|exact (q_init_rel e_last cap _ adm)|done|by destruct b|done..].
  - intros mf Hmf. eapply pg_spec; [exact (clock_sim mf cap 0 Hmf)|exact (clock_init_rel mf cap 0 adm)|done..].
  - intros b. eapply pg_spec; [exact (sieve_sim cap _)|exact (sieve_init_rel cap _ adm)|done|by destruct b|done..].
  - intros b. eapply pg_spec; [exact (lfu_sim cap _)|exact (lfu_init_rel cap _ b adm eq_refl)|done|by destruct b|done..].
Qed.

(** Above 30 percent; the byte that is read is 0. *)
Definition ab (p t : Z) : bool := bool_decide (3 * t < 10 * p).
Definition pg_fifo cap L max rs :=
  pf_run fifo_ops (PG (fun _ => false) ab fifo_ops) (fifo_init cap AdmNone, pg_init L max) rs.

(** 2 follows 1: when 1 is asked for again, 2 comes with it. *)
Example C65_pg_ex :
  Forall (fun r => req_ok 0 r /\ small r /\ r_size r + 0 <= 2) (ones [1; 2; 1; 2; 7; 8; 9; 1]) /\
  follows 1 (ones [1; 2; 1; 2; 7; 8; 9; 1]) 1 2 = 2 /\ followers 1 (ones [1; 2; 1; 2; 7; 8; 9; 1]) 1 = 2 /\
  q_q (end_of (fifo_init 2 AdmNone) (pg_fifo 2 1 1000000 (ones [1; 2; 1; 2; 7; 8; 9; 1]))) = [2; 1].
Proof. split_and!; [|vmr|vmr|vmr]. repeat constructor; cbn; lia. Qed.

(** "Every object above the threshold is prefetched": a follower that was once
    at the top of the heap and below the threshold has been taken out of the
    heap; 5 makes up 5 of the 8 requests after 1 and is not loaded. *)
Theorem C65_complete_refuted : exists rs,
  Forall (fun r => req_ok 0 r /\ small r /\ r_size r + 0 <= 3) rs /\ last rs = Some (rq 1 1) /\
  32 * (Z.of_nat 4 + 1) * Z.of_nat (length rs) < 1000000 /\
  ab (follows 4 rs 1 5) (followers 4 rs 1) = true /\
  5 ∉ q_q (end_of (fifo_init 3 AdmNone) (pg_fifo 3 4 1000000 rs)) /\
  length (hits_of (pg_fifo 3 4 1000000 rs)) = length rs.
Proof.
  exists (ones [1; 2; 3; 4; 5; 1; 5; 5; 5; 5; 7; 8; 9; 1]).
  split; [repeat constructor; cbn; lia|]. split; [vmr|]. split; [vmr|]. split; [vmr|]. split; [|vmr].
  apply (bool_decide_eq_true_1 _). vmr.
Qed.

(** Ids go through a 32-bit int: an object that nobody ever asked for is put in
    the cache, with size 0. *)
Theorem C65_wide_id_refuted : exists rs, Forall (fun r => req_ok 0 r /\ 0 < r_id r < 2 ^ 64 /\ r_size r = 1) rs /\
  5 ∉ map r_id rs /\ 5 ∈ q_q (end_of (fifo_init 3 AdmNone) (pg_fifo 3 1 1000000 rs)).
Proof.
  exists (ones [1; 2 ^ 32 + 5; 1]). split; [repeat constructor; cbn; lia|].
  split; apply (bool_decide_eq_true_1 _); vmr.
Qed.

(** An object larger than the cache is never stored, but it is remembered: its
    prefetch evicts from an empty cache. *)
Theorem C65_large_object_refuted : exists rs, Forall (fun r => req_ok 0 r /\ small r) rs /\
  pg_fifo 2 1 1000000 rs = Err NullDeref.
Proof. exists [rq 1 1; rq 2 3; rq 1 1]. split; [repeat constructor; cbn; lia|vmr]. Qed.
