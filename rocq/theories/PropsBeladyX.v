(** Properties of the caches that consult the future: FIFO_Belady, LRU_Belady,
    Sieve_Belady and BeladySize. *)
From stdpp Require Import gmap list numbers fin_maps.
From Verif Require Import Base Driver Abs AbsFacts Sim SpecApi ModelQueue QueueFacts PSim SpecRand
  SimMoreQ ModelBeladyX SpecBeladyX XBeladyFacts SieveBeladyFacts BeladySizeFacts PropsRand PropsMoreQ.
Open Scope Z_scope.

(** The counters and the lookups of [s] agree with the ledger [a]. *)
Definition agrees {S} (O : ops S) (cap md : Z) (s : S) (a : abs) : Prop :=
  op_occupied O s = msum md (a_m a) /\ op_nobj O s = Z.of_nat (size (a_m a)) /\
  0 <= op_occupied O s <= cap /\
  (forall id, is_Some (a_m a !! id) -> resident O s id) /\
  (forall id, a_m a !! id = None -> absent O s id).

(** A request with its next access. *)
Definition rn (id size next : Z) : req := mkReq id size 0 next 0.

(** The horizon of the code (cache_size / miss ratio) with an exact quotient;
    where the double is infinite or not a number, x86 converts to -2^63. *)
Definition horizon (cap nm n : Z) : Z :=
  if decide (nm = 0) then - 2 ^ 63 else cap * n / nm.

(** ** C53: FIFO_Belady and LRU_Belady *)

Lemma xb_init_rel (b : bool) cap adm : let md := if b then 16 else 0 in
  xbrel cap md 0 0 (xb_init b cap adm) (abs_init adm).
Proof. split_and!; [apply brel_init|apply qdom_empty|done|done]. Qed.

Lemma xbrel_agrees thresh lru cap md n nm s a : abs_ok cap md a -> xbrel cap md n nm s a ->
  agrees (xb_ops thresh lru) cap md s a.
Proof.
  intros Hok (H1 & _). split_and!; cbn.
  - apply H1.
  - apply H1.
  - rewrite (br_occ _ _ _ _ H1). apply Hok.
  - rewrite (br_occ _ _ _ _ H1). apply Hok.
  - intros id Hid r <-. cbn. unfold xb_find. rewrite (brel_find_false _ _ _ _ _ H1), bool_decide_true by done. eauto.
  - intros id Hid r <-. cbn. unfold xb_find. rewrite (brel_find_false _ _ _ _ _ H1), bool_decide_false; [eauto|].
    rewrite Hid. by intros [].
Qed.

(** Every run that completes answers as an abstract cache whose victims are not
    due within the horizon; capacity, counters and lookups are exact. *)
Theorem C53_future_eviction : forall thresh lru cap (b : bool) adm, 0 <= cap ->
  let md := if b then 16 else 0 in
  forall cs fuel s os, Forall (future_call md) cs ->
    xb_run thresh lru fuel (xb_init b cap adm) cs = Ok (s, os) ->
    exists a, future_run thresh cap md 0 0 (abs_init adm) cs os a /\
      agrees (xb_ops thresh lru) cap md s a.
Proof.
  intros thresh lru cap b adm Hcap md cs fuel s os Hcs Hr.
  assert (0 <= md) by (unfold md; destruct b; lia).
  destruct (xb_run_ok thresh lru cap md fuel cs 0 0 _ (abs_init adm) _ _
    ltac:(by apply abs_init_ok) (xb_init_rel b cap adm) Hcs Hr) as (a & H1 & H2 & H3).
  exists a. split; [done|]. by eapply xbrel_agrees.
Qed.

(** When does a get return?  On a miss of an object that is admitted and fits:
    exactly when it fits beside the objects that are due within the horizon.
    Otherwise the eviction loop never ends, whatever the fuel. *)
Theorem C53_get_returns_iff : forall thresh lru cap (b : bool) adm, 0 <= cap ->
  let md := if b then 16 else 0 in
  forall cs fuel s os, Forall (future_call md) cs ->
    xb_run thresh lru fuel (xb_init b cap adm) cs = Ok (s, os) ->
    exists a, future_run thresh cap md 0 0 (abs_init adm) cs os a /\
    forall r, req_ok md r -> a_m a !! r_id r = None -> (admit (a_adm a) r).2 = true -> r_size r + md <= cap ->
      let due := staying thresh cap md (n_gets cs + 1) (n_missed cs os) (a_m a) in
      (due + (r_size r + md) <= cap -> forall fuel', op_nobj (xb_ops thresh lru) s <= Z.of_nat fuel' ->
         exists s', xb_get thresh lru fuel' s r = Ok (s', false)) /\
      (due + (r_size r + md) > cap -> forall fuel', xb_get thresh lru fuel' s r = Err OutOfFuel).
Proof.
  intros thresh lru cap b adm Hcap md cs fuel s os Hcs Hr.
  assert (0 <= md) by (unfold md; destruct b; lia).
  destruct (xb_run_ok thresh lru cap md fuel cs 0 0 _ (abs_init adm) _ _
    ltac:(by apply abs_init_ok) (xb_init_rel b cap adm) Hcs Hr) as (a & H1 & H2 & H3).
  exists a. split; [done|]. intros r Hq Hn Had Hfit due. destruct a as [t m ad]. cbn in *.
  destruct (xb_get_decided thresh lru cap md _ _ s t m ad r H3 H2 Hq Hn Had Hfit) as [G1 G2]. split.
  - intros Hd fuel' Hf. apply G1; [exact Hd|]. destruct H2 as (H2 & _).
    rewrite (br_nobj _ _ _ _ H2) in Hf. cbn in Hf. lia.
  - exact G2.
Qed.

(** capacity 3: at request 5 the horizon is 3 * 5 / 4 = 3; objects 1, 2 and 3
    are next due at 6, 100 and 7, so that 2 is evicted and 1 and 3 move to the
    head. *)
Example C53_future_ex :
  answers (xb_run horizon false 10 (xb_init false 3 AdmNone)
    [CGet (rn 1 1 6); CGet (rn 2 1 100); CGet (rn 9 1 5); CGet (rn 9 1 200); CRemove 9; CGet (rn 3 1 7); CGet (rn 4 1 50);
     CFind (rn 1 1 0) false; CFind (rn 2 1 0) false; CFind (rn 3 1 0) false; CFind (rn 4 1 0) false]) =
  Ok [OBool false; OBool false; OBool false; OBool true; OBool true; OBool false; OBool false;
      OBool true; OBool false; OBool true; OBool true].
Proof. vm_compute. reflexivity. Qed.

(** C07 fails: a trace without oracle information (next access -2) fills the
    cache with objects that always look due, and the first miss with a full
    cache never returns. *)
Theorem C53_terminates_refuted : exists cs r, Forall (future_call 0) (cs ++ [CGet r]) /\
  forall lru fuel, xb_run horizon lru fuel (xb_init false 2 AdmNone) (cs ++ [CGet r]) = Err OutOfFuel.
Proof.
  exists [CGet (rn 1 1 (-2)); CGet (rn 2 1 (-2))], (rn 3 1 (-2)). split; [repeat constructor; cbn; lia|].
  intros lru fuel0. cbn [app].
  assert (Hloop : forall fuel c q, (forall q', In q' [[2; 1]; [1; 2]] -> forall r,
      exists q'', In q'' [[2; 1]; [1; 2]] /\ xb_evict horizon (mkXb c q' 2) r = Ok (mkXb c q'' 2)) ->
    c_occ c = 2 -> c_md c = 0 -> c_size c = 2 -> In q [[2; 1]; [1; 2]] ->
    evict_loop (xb_ops horizon lru) fuel (mkXb c q 2) (rn 3 1 (-2)) = Err OutOfFuel).
  { clear. intros fuel c q He H1 H2 H3. revert q. induction fuel as [|fuel IH]; intros q Hq; cbn; rewrite H1, H2, H3.
    - done.
    - destruct (He q Hq (rn 3 1 (-2))) as (q'' & Hq'' & E). change (decide (2 + 1 + 0 > 2)) with (decide (3 > 2)).
      rewrite decide_True by lia. rewrite E. cbn [rbind]. by apply IH. }
  destruct fuel0 as [|fuel0].
  { destruct lru; vm_compute; reflexivity. }
  cbn [xb_run].
  assert (exists s1, xb_step horizon lru (S fuel0) (xb_init false 2 AdmNone) (CGet (rn 1 1 (-2))) = Ok (s1, OBool false) /\
    exists c2, xb_step horizon lru (S fuel0) s1 (CGet (rn 2 1 (-2))) = Ok (mkXb c2 [2; 1] 2, OBool false) /\
      (forall q', In q' [[2; 1]; [1; 2]] -> forall r, exists q'', In q'' [[2; 1]; [1; 2]] /\
        xb_evict horizon (mkXb (c_incr_nreq c2) q' 2) r = Ok (mkXb (c_incr_nreq c2) q'' 2)) /\
      c_occ c2 = 2 /\ c_md c2 = 0 /\ c_size c2 = 2 /\ c_tbl c2 !! 3 = None /\ c_adm c2 = AdmNone)
    as (s1 & -> & c2 & E2 & Hev & Ho & Hm & Hs & Ht & Ha).
  { destruct lru.
    all: eexists; split; [vm_compute; reflexivity|]; eexists; split; [vm_compute; reflexivity|].
    all: split; [|vm_compute; done].
    all: intros q' [<-|[<-|[]]] r; [exists [1; 2]|exists [2; 1]]; (split; [cbn; tauto|vm_compute; reflexivity]). }
  cbn [rbind]. rewrite E2. cbn [rbind xb_step]. unfold xb_get, cache_get_base.
  destruct c2 as [sz md nr no oc tb ad]. cbn in Ho, Hm, Hs, Ht, Ha. subst sz md oc ad.
  cbn [op_tick op_find op_can_insert op_insert xb_ops].
  set (s2 := xb_set_c (mkXb _ [2; 1] 2) _).
  assert (xb_find lru s2 (rn 3 1 (-2)) true = Ok (s2, false)) as ->.
  { unfold xb_find, cache_find_base. cbn. rewrite Ht. cbn. by rewrite !andb_false_r. }
  cbn [rbind].
  assert (xb_can_insert s2 (rn 3 1 (-2)) = Ok (s2, true)) as -> by done. cbn [rbind].
  unfold s2, xb_set_c. cbn [xb_q xb_miss xb_c].
  rewrite Hloop; [done|done|done|done|done|by left].
Qed.

(** to_evict is not implemented (a null function pointer). *)
Theorem C53_to_evict_refuted : forall thresh lru s r, op_to_evict (xb_ops thresh lru) s r = Err NullDeref.
Proof. done. Qed.

(** ** C53: Sieve_Belady *)

Lemma sbrel_agrees thresh cap md n nm s a : abs_ok cap md a -> sbrel cap md n nm s a ->
  agrees (sb_ops thresh) cap md s a.
Proof.
  intros Hok HR. pose proof HR as (H1 & _). split_and!; cbn.
  - apply H1.
  - apply H1.
  - rewrite (br_occ _ _ _ _ H1). apply Hok.
  - rewrite (br_occ _ _ _ _ H1). apply Hok.
  - intros id Hid r <-. cbn. rewrite (sbrel_find_false _ _ _ _ _ _ _ HR), bool_decide_true by done. eauto.
  - intros id Hid r <-. cbn. rewrite (sbrel_find_false _ _ _ _ _ _ _ HR), bool_decide_false; [eauto|].
    rewrite Hid. by intros [].
Qed.

(** Every program of get, find, insert, remove and evict either crashes on a
    null pointer or answers as an abstract cache that refuses the objects not
    due within the horizon and evicts only such objects, unless all are due;
    capacity, counters and lookups are exact. *)
Theorem C53_sieve_belady : forall thresh cap (b : bool) adm, 0 <= cap ->
  let md := if b then 1 else 0 in
  forall cs fuel, Forall (sieve_call md) cs -> (length cs <= fuel)%nat ->
    sb_run thresh fuel (sb_init b cap adm) cs = Err NullDeref \/
    exists s os a, sb_run thresh fuel (sb_init b cap adm) cs = Ok (s, os) /\
      refusing_run thresh cap md 0 0 (abs_init adm) cs os a /\
      agrees (sb_ops thresh) cap md s a /\
      (** the next eviction crashes exactly when there is no hand and every
          object is due *)
      forall r, op_evict (sb_ops thresh) s r = Err NullDeref <->
        sb_ptr s = None /\ forall id e, a_m a !! id = Some e ->
          stays thresh cap (n_gets cs) (n_missed cs os) e.
Proof.
  intros thresh cap b adm Hcap md cs fuel Hcs Hf.
  assert (0 <= md) by (unfold md; destruct b; lia).
  destruct (sb_run_facts thresh cap md fuel cs 0 0 (sb_init b cap adm) (abs_init adm)
    ltac:(by apply abs_init_ok) (sb_init_rel b cap adm) Hcs) as [->|(s & os & a & Hr & Hrun & HR & Hok)].
  - cbn. by rewrite map_size_empty.
  - by left.
  - right. exists s, os, a. split_and!; [done|done|by eapply sbrel_agrees|].
    intros r. cbn. destruct a as [t m ad]. cbn [a_m]. rewrite !Z.add_0_l in HR.
    destruct (sbrel_evict thresh cap md _ _ s t m ad r Hok HR) as [(v & s' & Hv & He & Hp & HR')|(He & Hp & Hall)]; rewrite He.
    + split; [done|]. intros [Hnp Hall]. exfalso.
      destruct Hv as [e Hv]. destruct HR' as (_ & _ & _ & _ & _).
      (* with no hand and all due, both walks end *)
      assert (Hre : forall x, x ∈ rev (sb_q s) -> is_Some (a_m (mkAbs t m ad) !! x)).
      { intros x. rewrite elem_of_list_In, <- in_rev, <- elem_of_list_In. apply HR. }
      unfold sb_evict in He. rewrite Hnp in He. cbn [rbind] in He.
      destruct (sb_walk_facts thresh cap md _ _ s _ (rev (sb_q s)) HR Hre) as [(x & ex & _ & _ & Hx & Hns)|[Hw _]].
      * apply Hns. by eapply Hall.
      * rewrite !Hw in He. done.
    + split; [done|]. done.
Qed.

(** all residents are due and the hand is unset: evict crashes *)
Example C53_sieve_ex :
  answers (sb_run horizon 10 (sb_init false 3 AdmNone)
    [CGet (rn 9 1 1); CGet (rn 1 1 6); CGet (rn 2 1 100); CGet (rn 3 1 7); CGet (rn 4 1 5);
     CFind (rn 1 1 0) false; CFind (rn 2 1 0) false; CFind (rn 3 1 0) false; CFind (rn 4 1 0) false;
     CEvict (rn 0 0 0)]) =
  Err NullDeref.
Proof. vm_compute. reflexivity. Qed.
(** 9 is refused by the empty cache, whose horizon is -2^63; 1 is no longer due
    after its hit and is the victim of 3 *)
Example C53_sieve_evict_ex :
  answers (sb_run horizon 10 (sb_init false 2 AdmNone)
    [CGet (rn 9 1 1); CGet (rn 1 1 6); CGet (rn 2 1 6); CGet (rn 1 1 30); CGet (rn 3 1 7);
     CFind (rn 1 1 0) false; CFind (rn 2 1 0) false; CFind (rn 3 1 0) false; CFind (rn 9 1 0) false]) =
  Ok [OBool false; OBool false; OBool false; OBool true; OBool false; OBool false; OBool true; OBool true; OBool false].
Proof. vm_compute. reflexivity. Qed.

(** C07 fails: a get on a full cache of objects that are all due dereferences a
    null pointer. *)
Theorem C53_sieve_crash_refuted : exists cs, Forall (sieve_call 0) cs /\
  forall fuel, (length cs <= fuel)%nat -> sb_run horizon fuel (sb_init false 2 AdmNone) cs = Err NullDeref.
Proof.
  exists [CGet (rn 9 1 1); CGet (rn 1 1 (-2)); CGet (rn 2 1 (-2)); CGet (rn 3 1 (-2))].
  split; [repeat constructor; cbn; lia|]. intros fuel Hf. cbn in Hf. do 4 (destruct fuel as [|fuel]; [lia|]).
  vm_compute. reflexivity.
Qed.

(** ** C54: BeladySize *)

Lemma bsrel_agrees draw ns pf cap n s a : abs_ok cap 0 a -> bsrel cap n s a ->
  agrees (bs_ops draw ns pf) cap 0 s a.
Proof.
  intros Hok (H1 & _). split_and!; cbn.
  - apply H1.
  - apply H1.
  - rewrite (br_occ _ _ _ _ H1). apply Hok.
  - rewrite (br_occ _ _ _ _ H1). apply Hok.
  - intros id Hid r <-. cbn. unfold bs_find. rewrite (brel_find_false _ _ _ _ _ H1), bool_decide_true by done. eauto.
  - intros id Hid r <-. cbn. unfold bs_find. rewrite (brel_find_false _ _ _ _ _ H1), bool_decide_false; [eauto|].
    rewrite Hid. by intros [].
Qed.

(** Every run that completes answers as an abstract cache in which objects leave
    at their last use and victims are never overdue; the counters and lookups
    are exact.  The generator is arbitrary. *)
Theorem C54_belady_size : forall draw ns pf cap adm seed, 0 <= cap ->
  forall cs fuel s os, Forall (call_ok (req_ok 0)) cs ->
    run (bs_ops draw ns pf) fuel (bs_init cap adm seed) cs = Ok (s, os) ->
    exists a, leaving_run cap 0 (abs_init adm) cs os a /\ agrees (bs_ops draw ns pf) cap 0 s a.
Proof.
  intros draw ns pf cap adm seed Hcap cs fuel s os Hcs Hr.
  destruct (bs_run_ok draw ns pf cap fuel cs 0 _ (abs_init adm) _ _
    ltac:(by apply abs_init_ok) (bs_init_rel cap adm seed) Hcs Hr) as (a & H1 & H2 & H3).
  exists a. split; [done|]. by eapply bsrel_agrees.
Qed.

(** The victim has the largest size times distance to its next request among
    the objects sampled. *)
Theorem C54_victim_best_of_sample : forall draw ns pf cap adm seed, 0 <= cap ->
  forall cs fuel s os, Forall (call_ok (req_ok 0)) cs ->
    run (bs_ops draw ns pf) fuel (bs_init cap adm seed) cs = Ok (s, os) ->
    exists a, leaving_run cap 0 (abs_init adm) cs os a /\
    forall r s', op_evict (bs_ops draw ns pf) s r = Ok s' ->
      exists v ev seed0, a_m a !! v = Some ev /\
        (forall j, resident (bs_ops draw ns pf) s' j <-> j <> v /\ resident (bs_ops draw ns pf) s j) /\
        v ∈ (samples draw ns seed0 (c_tbl (bs_c s))).1 /\
        forall x ex, x ∈ (samples draw ns seed0 (c_tbl (bs_c s))).1 -> a_m a !! x = Some ex ->
          e_size ex * (e_next ex - n_gets cs) <= e_size ev * (e_next ev - n_gets cs).
Proof.
  intros draw ns pf cap adm seed Hcap cs fuel s os Hcs Hr.
  destruct (bs_run_ok draw ns pf cap fuel cs 0 _ (abs_init adm) _ _
    ltac:(by apply abs_init_ok) (bs_init_rel cap adm seed) Hcs Hr) as (a & H1 & H2 & H3).
  exists a. split; [done|]. intros r s' He. cbn in He. unfold bs_evict in He.
  apply rbind_ok in He as ([v seed1] & Hp & He). apply rbind_ok in He as (c' & Hc & [= <-]).
  destruct (bs_pick_facts draw ns _ _ _ _ _ Hp) as (seed0 & ov & Hv & Hov & _ & Hb).
  destruct a as [t m ad]. pose proof H2 as (HB & Hnr & _). cbn [a_m] in *.
  assert (exists ev, m !! v = Some ev) as [ev Hev].
  { destruct (m !! v) as [ev|] eqn:E; [eauto|]. pose proof (brel_none _ _ _ _ _ HB E). congruence. }
  exists v, ev, seed0. split_and!; [done| |done|].
  - unfold cache_evict_base in Hc. destruct (brel_remove _ _ _ _ _ _ _ _ H3 HB Hev) as (c2 & Hc2 & HB2 & _).
    rewrite Hc in Hc2. injection Hc2 as <-.
    assert (Hres : forall c m seed j, brel cap 0 c (mkAbs t m ad) ->
      resident (bs_ops draw ns pf) (mkBs c seed) j <-> is_Some (m !! j)).
    { clear. intros c m seed j H. split.
      - intros Hx. destruct (Hx (mkReq j 0 0 0 0) eq_refl) as (s' & Hf). cbn in Hf. unfold bs_find in Hf.
        cbn in Hf. rewrite (brel_find_false _ _ _ _ _ H) in Hf. cbn in Hf.
        rewrite andb_false_r in Hf. injection Hf as _ Hb. by apply bool_decide_eq_true in Hb.
      - intros Hx r <-. cbn. unfold bs_find. cbn. rewrite (brel_find_false _ _ _ _ _ H), bool_decide_true by done. eauto. }
    intros j. rewrite (Hres _ _ _ _ HB2). destruct s as [cc sd]. rewrite (Hres _ _ _ _ HB).
    rewrite lookup_delete_is_Some. naive_solver.
  - intros x ex Hx Hex. destruct (brel_some _ _ _ _ _ _ HB Hex) as (ox & Hox & _).
    specialize (Hb _ _ Hx Hox). rewrite !Z.add_0_l in H2.
    rewrite (bsrel_score _ _ _ _ _ _ _ H2 Hox Hex), (bsrel_score _ _ _ _ _ _ _ H2 Hov Hev) in Hb. done.
Qed.

(** On a trace whose annotations are right every get returns, and with what the
    previous theorem says. *)
Theorem C54_truthful_returns : forall draw ns pf cap adm seed rs fuel,
  draws_residents draw -> (0 < ns)%nat -> 0 <= cap -> truthful rs -> Forall (req_ok 0) rs ->
  (length rs <= fuel)%nat ->
  exists s os, run (bs_ops draw ns pf) fuel (bs_init cap adm seed) (map CGet rs) = Ok (s, os).
Proof.
  intros draw ns pf cap adm seed rs fuel Hd Hn Hcap Ht Hq Hf.
  apply (bs_truthful_total draw ns pf cap fuel rs Hd Hn Ht Hq rs [] _ 0 ∅ adm eq_refl).
  - by apply abs_init_ok.
  - apply bs_init_rel.
  - intros id e. by rewrite lookup_empty.
  - by rewrite map_size_empty.
Qed.
Example C54_truthful_ex : truthful [rn 1 2 3; rn 2 1 4; rn 3 1 (-1); rn 1 2 (-1); rn 2 1 (2 ^ 63 - 1)].
Proof.
  intros i r Hi.
  destruct i as [|[|[|[|[|i]]]]]; cbn in Hi; [..|done]; injection Hi as <-.
  - right. exists 3%nat, (rn 1 2 (-1)). split_and!; [lia|done|done|cbn; lia].
  - right. exists 4%nat, (rn 2 1 (2 ^ 63 - 1)). split_and!; [lia|done|done|cbn; lia].
  - left. by left.
  - left. by left.
  - left. by right.
Qed.
(** of 1 (size 2, due at 9) and 2 (size 3, due at 8), 2 has the larger product
    3 * 5 > 2 * 6 at the third get *)
Example C54_victim_ex :
  answers (run (bs_ops lcg_draw 8 10) 10 (bs_init 5 AdmNone 5)
    [CGet (rn 1 2 9); CGet (rn 2 3 8); CGet (rn 3 1 7);
     CFind (rn 1 1 0) false; CFind (rn 2 1 0) false; CFind (rn 3 1 0) false]) =
  Ok [OBool false; OBool false; OBool false; OBool true; OBool false; OBool true].
Proof. vm_compute. reflexivity. Qed.

(** C07 fails: on a trace without oracle information the search for a victim
    recurses without end, whatever the generator and the fuel. *)
Theorem C54_terminates_refuted : exists cap cs, Forall (call_ok (req_ok 0)) cs /\
  forall draw ns pf seed, draws_residents draw ->
    run (bs_ops draw ns pf) 10 (bs_init cap AdmNone seed) cs = Err OutOfFuel.
Proof.
  exists 1, [CGet (rn 1 1 (-2)); CGet (rn 2 1 (-2))]. split; [repeat constructor; cbn; lia|].
  intros draw ns pf seed Hd. cbn [run].
  assert (exists s1, step (bs_ops draw ns pf) 10 (bs_init 1 AdmNone seed) (CGet (rn 1 1 (-2))) = Ok (s1, OBool false) /\
    c_tbl (bs_c s1) <> ∅ /\ c_occ (bs_c s1) = 1 /\ c_size (bs_c s1) = 1 /\ c_md (bs_c s1) = 0 /\ c_adm (bs_c s1) = AdmNone /\
    c_tbl (bs_c s1) !! 2 = None /\
    forall id o, c_tbl (bs_c s1) !! id = Some o -> bscore (c_nreq (c_incr_nreq (bs_c s1))) o < 0)
    as (s1 & -> & Hne & Ho & Hs & Hm & Ha & Ht & Hsc).
  { eexists. split; [vm_compute; reflexivity|]. split_and!; try done.
    intros id o Hx. apply elem_of_map_to_list in Hx. vm_compute in Hx.
    apply elem_of_list_singleton in Hx as [= -> ->]. done. }
  cbn [rbind step]. destruct s1 as [[sz md nr no oc tb ad] sd]. cbn in *. subst sz md oc ad.
  unfold cache_get_base. cbn [op_tick op_find op_can_insert op_insert bs_ops].
  set (s2 := bs_set_c (mkBs _ sd) _).
  assert (bs_find s2 (rn 2 1 (-2)) true = Ok (s2, false)) as ->.
  { unfold bs_find, cache_find_base. cbn. rewrite Ht. done. }
  cbn [rbind].
  assert (bs_can_insert s2 (rn 2 1 (-2)) = Ok (s2, true)) as -> by done. cbn [rbind].
  cbn [evict_loop op_occupied op_md op_size op_evict bs_ops].
  unfold s2, bs_set_c. cbn [bs_c c_incr_nreq c_occ c_size c_md r_size rn].
  rewrite (decide_True (P := 1 + 1 + 0 > 1)) by lia. unfold bs_evict. cbn [bs_c bs_seed].
  rewrite bs_pick_forever; [done|done|done|exact Hsc].
Qed.
