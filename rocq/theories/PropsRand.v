(** Properties of the sampling caches and of random draws. *)
From stdpp Require Import gmap list numbers fin_maps.
From Verif Require Import Base Driver Abs AbsFacts Sim SpecApi SpecComp SpecWeak WSim SpecRand ModelRand SimRand.
From Verif Require Import ModelHash HashFacts PropsHash RandFacts.
Open Scope Z_scope.

(** ** C45: random draws *)

(** Any 2^k consecutive values of the generator, reduced modulo 2^k, are the
    2^k residues, each exactly once. *)
Theorem C45_draws_uniform : forall k seed, (k <= 64)%nat ->
  map (fun n => rand_n n seed mod 2 ^ Z.of_nat k) (seq 1 (2 ^ k)) ≡ₚ seqZ 0 (2 ^ Z.of_nat k).
Proof. exact rand_perm. Qed.
Example C45_draws_ex : map (fun n => rand_n n 0 mod 8) (seq 1 8) = [7; 2; 1; 4; 3; 6; 5; 0].
Proof. vm_compute. reflexivity. Qed.

Lemma pow_nat k : Z.of_nat (2 ^ k) = 2 ^ Z.of_nat k.
Proof.
  induction k as [|k IH]; [done|].
  replace (Z.of_nat (Datatypes.S k)) with (Z.of_nat k + 1) by lia. rewrite Z.pow_add_r by lia.
  rewrite <- IH. cbn. lia.
Qed.

(** hashtable_rand_obj on a table with at least one object returns a stored
    object after at most as many draws as there are buckets. *)
Theorem C45_rand_obj_total : forall hash t m seed fuel, repr hash t m -> m <> ∅ ->
  ht_pow t <= 64 -> 2 ^ ht_pow t <= Z.of_nat fuel ->
  exists id a k, ht_rand_obj fuel t seed = Ok (a, rand_n k seed) /\ m !! id = Some a /\
    1 <= Z.of_nat k <= 2 ^ ht_pow t.
Proof.
  intros hash t m seed fuel Hrep Hne Hp Hfuel.
  assert (exists id a, m !! id = Some a) as (id0 & a0 & Hm).
  { destruct (map_choose m Hne) as (id & a & ?). eauto. }
  pose proof Hrep as (Hok & _). pose proof Hok as (P0 & (ch & Hch) & _).
  destruct (tab_ok_bucket hash _ _ _ _ id0 Hok) as (l & Hc & _ & _ & Hin & _).
  assert (Ha : a0 ∈ l) by (apply Hin; eauto). destruct l as [|b l]; [by apply elem_of_nil in Ha|].
  cbn [chain] in Hc. destruct Hc as (Hd & _).
  set (y := bucket hash (ht_pow t) id0) in *.
  assert (Hy : 0 <= y < 2 ^ ht_pow t) by (by apply bk_range).
  destruct (rand_covers (Z.to_nat (ht_pow t)) seed y) as (n & Hn & He); [lia|].
  assert (Hn' : Z.of_nat n <= 2 ^ ht_pow t).
  { transitivity (Z.of_nat (2 ^ Z.to_nat (ht_pow t))); [lia|]. rewrite pow_nat, Z2Nat.id by done. done. }
  rewrite Z2Nat.id in He by done. apply eqm_mod in He; [|done]. rewrite (Z.mod_small y) in He by done.
  destruct (rand_obj_found t n seed) as (a & k & Hr & Hk); [lia| |].
  { replace (2 ^ ht_pow t - 1) with (Z.ones (ht_pow t)) by (rewrite Z.ones_equiv; lia).
    rewrite Z.land_ones by done. rewrite He, Hd. eauto. }
  apply (rand_obj_more _ _ fuel) in Hr; [|lia].
  destruct (C22_random_object hash t m fuel seed a _ Hrep Hr) as (id & Hid).
  exists id, a, k. split_and!; [done|done|lia|lia].
Qed.

(** "Every stored object can be drawn" is false: only the first object of each
    bucket is ever returned.  Whatever the hash function, if two ids fall in one
    bucket, then after inserting both the first one is in the table and no
    generator state makes hashtable_rand_obj return it. *)
Theorem C45_every_object_drawn_refuted : forall hash pow i j a b, 0 <= pow -> i <> j -> a <> b ->
  bucket hash pow i = bucket hash pow j ->
  exists t1 t, ht_insert hash (ht_create pow false) a i = Ok t1 /\ ht_insert hash t1 b j = Ok t /\
    ht_find hash t i = Ok (Some a) /\
    forall fuel seed x, ht_rand_obj fuel t seed = Ok x -> x.1 <> a.
Proof.
  intros hash pow i j a b Hp Hij Hab Hb.
  assert (H2 : 0 < 2 ^ pow) by (apply Z.pow_pos_nonneg; lia).
  unfold ht_insert, ht_maybe_expand, ht_create, ht_add, add_to_bucket, rd_obj.
  cbn [ht_n ht_pow rbind ht_heap ht_tab ht_ext ht_max].
  rewrite decide_False by lia. cbn [rbind ht_n ht_pow ht_heap ht_tab ht_ext ht_max].
  rewrite lookup_insert. cbn [rbind ho_id]. rewrite lookup_empty. cbn [rbind].
  eexists _, _. split; [reflexivity|]. cbn [ht_n ht_pow ht_heap ht_tab ht_ext ht_max].
  rewrite decide_False by lia. cbn [rbind ht_n ht_pow ht_heap ht_tab ht_ext ht_max].
  rewrite lookup_insert. cbn [rbind ho_id]. rewrite <- Hb, lookup_insert. cbn [rbind].
  split; [reflexivity|]. split.
  - unfold ht_find. cbn [ht_n ht_pow ht_heap ht_tab ht_ext ht_max]. rewrite lookup_insert.
    assert (Hsz : exists k, size (<[b:=mkHo j (Some a)]> (<[b:=mkHo j None]> (<[a:=mkHo i None]> (∅ : gmap Z hobj)))) = Datatypes.S k).
    { rewrite insert_insert. destruct (size _) eqn:E; [|eauto].
      apply map_size_empty_inv in E. by apply insert_non_empty in E. }
    destruct Hsz as [k ->]. cbn [ht_find_loop]. unfold rd_obj. rewrite lookup_insert. cbn [rbind ho_id ho_next].
    rewrite decide_False by done.
    destruct k; cbn [ht_find_loop]; unfold rd_obj;
      rewrite !lookup_insert_ne, lookup_insert by congruence; cbn [rbind ho_id];
      by rewrite decide_True.
  - intros fuel. cbn [ht_n ht_pow ht_heap ht_tab ht_ext ht_max]. induction fuel as [|fuel IH]; intros seed x; [done|].
    cbn [ht_rand_obj ht_tab ht_pow].
    destruct (decide (Z.land (next_rand seed) (2 ^ pow - 1) = bucket hash pow i)) as [->|Hne].
    + rewrite lookup_insert. intros [= <-]. cbn. congruence.
    + rewrite !lookup_insert_ne, lookup_empty by congruence. apply IH.
Qed.
Example C45_hidden_ex : bucket (fun x => x) 4 1 = bucket (fun x => x) 4 17.
Proof. reflexivity. Qed.

(** ** A concrete generator for the examples: ids below 2^p hash to
    themselves, so that there are no collisions; then hashtable_rand_obj is the
    loop below. *)
Fixpoint lcg_loop (fuel : nat) (p : Z) (seed : Z) (T : gmap Z cobj) : Z * Z :=
  match fuel with
  | O => (default 0 (head (map_to_list T).*1), seed)
  | Datatypes.S k =>
      let seed := next_rand seed in
      let x := Z.land seed (2 ^ p - 1) in
      match T !! x with Some _ => (x, seed) | None => lcg_loop k p seed T end
  end.
Definition lcg_draw (seed : Z) (T : gmap Z cobj) : Z * Z := lcg_loop 8 3 seed T.
Lemma lcg_draw_residents : draws_residents lcg_draw.
Proof.
  intros seed T Hne. unfold lcg_draw. generalize 8%nat. intros fuel. revert seed.
  induction fuel as [|fuel IH]; intros seed; cbn.
  - destruct (map_to_list T) as [|[i o] l] eqn:E.
    + by apply map_to_list_empty_iff in E.
    + cbn. exists o. apply elem_of_map_to_list. rewrite E. by left.
  - destruct (T !! Z.land (next_rand seed) (2 ^ 3 - 1)) eqn:E; cbn; [by rewrite E|apply IH].
Qed.
(** 1e8 * freq / age in units of 1e-6; infinite (above 1e16) at age 0. *)
Definition score_ex (f a : Z) : Z := if decide (a <= 0) then 10 ^ 23 else f * 10 ^ 14 / a.
Lemma score_ex_ok f a : 1 <= f <= a -> score_ex f a < 10 ^ 22.
Proof.
  intros H. unfold score_ex. rewrite decide_False by lia. apply Z.div_lt_upper_bound; lia.
Qed.

(** ** C01 - C07 for the sampling caches.  [draw] is any function that returns
    a resident object; for Hyperbolic [score] is any function that stays below
    the initial bound when an object was used at most once per unit of age. *)
Section Api.
  Context (draw : Z -> gmap Z cobj -> Z * Z) (Hd : draws_residents draw).
  Context (score : Z -> Z -> Z) (smax : Z) (n_sample : nat).
  Context (Hsc : forall f a, 1 <= f <= a -> score f a < smax) (Hns : (1 <= n_sample)%nat).
  Context (cap : Z) (Hcap : 0 <= cap) (adm : admissioner) (seed : Z).

  Lemma random_api : weak_api (random_ops draw) (random_init cap adm seed) cap 0 adm (call_ok (req_ok 0)) pol_any.
  Proof using Hd Hcap.
    eapply wapi_all; [by apply random_wsim|by apply rn_init_rel|done|done].
  Qed.
  Lemma two_api : weak_api (two_ops draw) (random_init cap adm seed) cap 0 adm (call_ok (req_ok 0)) pol_any.
  Proof using Hd Hcap.
    eapply wapi_all; [by apply two_wsim|by apply rn_init_rel|done|done].
  Qed.
  Lemma rlru_api : weak_api (rlru_ops draw) (random_init cap adm seed) cap 0 adm (no_to_evict 0) pol_any.
  Proof using Hd Hcap.
    eapply wapi_all; [by apply rlru_wsim|by apply rn_init_rel|done|done].
  Qed.
  Lemma hyp_api b : let md := if b : bool then 16 else 0 in
    weak_api (hyp_ops draw score smax n_sample) (hyp_init b cap adm seed) cap md adm (get_evicts md) pol_any.
  Proof using Hd Hcap Hsc Hns.
    intros md. assert (0 <= md) by (unfold md; by destruct b).
    eapply wapi_all; [by apply hyp_wsim| |done|done].
    apply rn_init_rel. intros id o. by rewrite lookup_empty.
  Qed.

  (** [F O s0 cap md adm Q] for the four caches, each with the calls it supports *)
  Definition sampling (F : ops rstate -> rstate -> Z -> Z -> admissioner -> (call -> Prop) -> Prop) : Prop :=
    F (random_ops draw) (random_init cap adm seed) cap 0 adm (call_ok (req_ok 0)) /\
    F (two_ops draw) (random_init cap adm seed) cap 0 adm (call_ok (req_ok 0)) /\
    F (rlru_ops draw) (random_init cap adm seed) cap 0 adm (no_to_evict 0) /\
    (forall b : bool, let md := if b then 16 else 0 in
       F (hyp_ops draw score smax n_sample) (hyp_init b cap adm seed) cap md adm (get_evicts md)).

  Lemma sampling_all (F : ops rstate -> rstate -> Z -> Z -> admissioner -> (call -> Prop) -> Prop) :
    (forall O s0 cap md adm Q, weak_api O s0 cap md adm Q pol_any -> F O s0 cap md adm Q) -> sampling F.
  Proof using Hd Hcap Hsc Hns.
    intros H. split_and!; [apply H, random_api|apply H, two_api|apply H, rlru_api|].
    intros b md. apply H, hyp_api.
  Qed.

  Theorem C01_sampling : sampling (fun O s0 cap md adm Q => weak_capacity O s0 cap Q).
  Proof using Hd Hcap Hsc Hns. apply sampling_all. by intros O s0 c md a Q (H & _). Qed.
  Theorem C02_sampling : sampling (fun O s0 cap md adm Q => weak_accounting O s0 cap md adm Q pol_any).
  Proof using Hd Hcap Hsc Hns. apply sampling_all. by intros O s0 c md a Q (_ & H & _). Qed.
  Theorem C03_sampling : sampling (fun O s0 cap md adm Q => weak_hit_iff_resident O s0 Q).
  Proof using Hd Hcap Hsc Hns. apply sampling_all. by intros O s0 c md a Q (_ & _ & H & _). Qed.
  Theorem C04_sampling : sampling (fun O s0 cap md adm Q => weak_find_pure O s0 Q).
  Proof using Hd Hcap Hsc Hns. apply sampling_all. by intros O s0 c md a Q (_ & _ & _ & H & _). Qed.
  Theorem C05_sampling : sampling (fun O s0 cap md adm Q => weak_remove_exact O s0 Q).
  Proof using Hd Hcap Hsc Hns. apply sampling_all. by intros O s0 c md a Q (_ & _ & _ & _ & H & _). Qed.
  Theorem C06_sampling : sampling (fun O s0 cap md adm Q => weak_admit_on_miss O s0 cap md adm Q).
  Proof using Hd Hcap Hsc Hns. apply sampling_all. by intros O s0 c md a Q (_ & _ & _ & _ & _ & H & _). Qed.
  (** every program with these calls completes, so get ends and no NULL or freed
      object is read *)
  Theorem C07_sampling : sampling (fun O s0 cap md adm Q =>
    forall cs fuel, Forall Q cs -> (length cs <= fuel)%nat -> exists s os, run O fuel s0 cs = Ok (s, os)).
  Proof using Hd Hcap Hsc Hns.
    apply sampling_all. intros O s0 c md a Q (_ & H & _) cs fuel Hc Hf.
    destruct (H cs fuel Hc Hf) as (s & os & ab & Hr & _). eauto.
  Qed.

  (** ** C44: which object is evicted *)

  (** Random: the object drawn. *)
  Theorem C44_random : forall cs fuel, Forall (call_ok (req_ok 0)) cs -> (length cs <= fuel)%nat ->
    exists s os a, run (random_ops draw) fuel (random_init cap adm seed) cs = Ok (s, os) /\
      abs_run pol_any cap 0 (abs_init adm) cs os a /\
      (a_m a <> ∅ -> forall r, exists s2, op_evict (random_ops draw) s r = Ok s2 /\
        let v := (draw (rn_seed s) (c_tbl (rn_c s))).1 in
        is_Some (a_m a !! v) /\
        forall j, resident (random_ops draw) s2 j <-> is_Some (a_m a !! j) /\ j <> v).
  Proof using Hd Hcap.
    intros cs fuel Hc Hf.
    pose proof (random_wsim draw Hd cap 0 (Z.le_refl 0)) as HS.
    destruct (wapi_run _ _ _ _ _ _ HS adm (random_init cap adm seed)) with (cs := cs) (fuel := fuel)
      as (s & os & a & Hr & Ha & HR & Hok); auto; [by apply rn_init_rel|done|].
    exists s, os, a. split_and!; auto. intros Hne r. destruct a as [t m ad]. cbn in Hne.
    pose proof HR as (HB & Hg & Hn & _). pose proof (tbl_ne _ _ _ _ _ _ HB Hne) as Hne'.
    destruct (rand_obj_ok draw Hd s Hne') as (Ho & Hs). destruct (evict_base_ok s _ Hs) as (c' & Hev).
    cbn [op_evict random_ops]. unfold random_evict. rewrite Ho. cbn [rbind]. cbn [rn_set_seed rn_c]. rewrite Hev. cbn [rbind].
    eexists. split; [done|].
    assert (Hs' : is_Some (m !! (draw (rn_seed s) (c_tbl (rn_c s))).1)) by (by apply (brel_is_Some _ _ _ _ _ HB)).
    split; [done|]. intros j.
    erewrite (wresident_iff _ _ _ _ _ _ HS _ (mkAbs t (delete (draw (rn_seed s) (c_tbl (rn_c s))).1 m) ad));
      [|by eapply (gen_evict cap 0 X_any s)].
    cbn. destruct (decide (j = (draw (rn_seed s) (c_tbl (rn_c s))).1)) as [->|Hj].
    - rewrite lookup_delete. split; [by intros []|by intros [_ ?]].
    - rewrite lookup_delete_ne by congruence. tauto.
  Qed.

  (** the objects drawn by [n] successive draws in state [s] *)
  Definition drawn (n : nat) (s : rstate) : list Z := (samples draw n (rn_seed s) (c_tbl (rn_c s))).1.

  Definition evicts_oldest_of (O : ops rstate) (n : nat) : Prop :=
    forall cs fuel, Forall (get_uses 0) cs -> (length cs <= fuel)%nat ->
    exists s os a, run O fuel (random_init cap adm seed) cs = Ok (s, os) /\
      abs_run pol_any cap 0 (abs_init adm) cs os a /\
      (a_m a <> ∅ -> forall r, exists v ev s2, op_evict O s r = Ok s2 /\
        v ∈ drawn n s /\ a_m a !! v = Some ev /\
        (forall u, u ∈ drawn n s -> exists eu, a_m a !! u = Some eu /\ e_last ev <= e_last eu) /\
        forall j, resident O s2 j <-> is_Some (a_m a !! j) /\ j <> v).

  (** RandomTwo: of the two objects drawn, the less recently used one. *)
  Theorem C44_random_two : evicts_oldest_of (two_ops draw) 2.
  Proof using Hd Hcap.
    intros cs fuel Hc Hf.
    pose proof (two_wsim_ord draw Hd cap 0 (Z.le_refl 0)) as HS.
    destruct (wapi_run _ _ _ _ _ _ HS adm (random_init cap adm seed)) with (cs := cs) (fuel := fuel)
      as (s & os & a & Hr & Ha & HR & Hok); auto.
    { apply rn_init_rel. split; intros *; by rewrite lookup_empty. } { done. }
    exists s, os, a. split_and!; auto. intros Hne r. destruct a as [t m ad]. cbn in Hne.
    pose proof HR as (HB & Hg & Hn & _). pose proof (tbl_ne _ _ _ _ _ _ HB Hne) as Hne'.
    destruct (two_ev_ok draw Hd s r Hne') as (v & s2 & c' & Hv & Hold & He & Hev & H2 & H3).
    assert (Hs' : is_Some (m !! v)) by (by apply (brel_is_Some _ _ _ _ _ HB)).
    pose proof Hs' as [ev Hm].
    exists v, ev, s2. split_and!; [done|apply Hold|done| |].
    - intros u Hu. by eapply oldest_last.
    - intros j. erewrite (wresident_iff _ _ _ _ _ _ HS _ (mkAbs t (delete v m) ad)).
      + cbn. destruct (decide (j = v)) as [->|Hj].
        * rewrite lookup_delete. split; [by intros []|by intros [_ ?]].
        * rewrite lookup_delete_ne by congruence. tauto.
      + eapply (gen_evict cap 0 X_ord s); eauto; [apply X_ord_del|congruence].
  Qed.

  (** RandomLRU: of the 64 objects drawn, the least recently used one. *)
  Theorem C44_random_lru : evicts_oldest_of (rlru_ops draw) 64.
  Proof using Hd Hcap.
    intros cs fuel Hc Hf.
    pose proof (rlru_wsim_ord draw Hd cap 0 (Z.le_refl 0)) as HS.
    destruct (wapi_run _ _ _ _ _ _ HS adm (random_init cap adm seed)) with (cs := cs) (fuel := fuel)
      as (s & os & a & Hr & Ha & HR & Hok); auto.
    { apply rn_init_rel. split; intros *; by rewrite lookup_empty. } { done. }
    exists s, os, a. split_and!; auto. intros Hne r. destruct a as [t m ad]. cbn in Hne.
    pose proof HR as (HB & Hg & Hn & _). pose proof (tbl_ne _ _ _ _ _ _ HB Hne) as Hne'.
    destruct (rlru_ev_ok draw Hd s r Hne') as (v & s2 & c' & Hv & Hold & He & Hev & H2 & H3).
    assert (Hs' : is_Some (m !! v)) by (by apply (brel_is_Some _ _ _ _ _ HB)).
    pose proof Hs' as [ev Hm].
    exists v, ev, s2. split_and!; [done|apply Hold|done| |].
    - intros u Hu. by eapply oldest_last.
    - intros j. erewrite (wresident_iff _ _ _ _ _ _ HS _ (mkAbs t (delete v m) ad)).
      + cbn. destruct (decide (j = v)) as [->|Hj].
        * rewrite lookup_delete. split; [by intros []|by intros [_ ?]].
        * rewrite lookup_delete_ne by congruence. tauto.
      + eapply (gen_evict cap 0 X_ord s); eauto; [apply X_ord_del|congruence].
  Qed.

  (** Hyperbolic, on a trace: when the next get evicts, the victim is the drawn
      object with the least score of its number of uses and its age, where an
      object inserted by get number i has age t - i during get number t. *)
  Theorem C44_hyperbolic : forall (b : bool) cs fuel, let md := if b then 16 else 0 in
    let O := hyp_ops draw score smax n_sample in
    Forall (gets_only md) cs -> (length cs <= fuel)%nat ->
    exists s os a, run O fuel (hyp_init b cap adm seed) cs = Ok (s, os) /\
      abs_run pol_any cap md (abs_init adm) cs os a /\ a_t a = Z.of_nat (length cs) /\
      (a_m a <> ∅ -> forall r, exists v ev s2, op_evict O (op_tick O s) r = Ok s2 /\
        v ∈ drawn n_sample s /\ a_m a !! v = Some ev /\
        (forall u, u ∈ drawn n_sample s -> exists eu, a_m a !! u = Some eu /\
           score (e_cnt ev) (a_t a - e_ins ev) <= score (e_cnt eu) (a_t a - e_ins eu)) /\
        forall j, resident O s2 j <-> is_Some (a_m a !! j) /\ j <> v).
  Proof using Hd Hcap Hsc Hns.
    intros b cs fuel md O Hc Hf. assert (Hmd : 0 <= md) by (unfold md; by destruct b).
    pose proof (hyp_wsim_tr draw Hd score smax n_sample Hsc Hns cap md Hmd) as HS.
    destruct (wapi_run _ _ _ _ _ _ HS adm (hyp_init b cap adm seed)) with (cs := cs) (fuel := fuel)
      as (s & os & a & Hr & Ha & HR & Hok); auto.
    { apply rn_init_rel. split; [done|]. intros id o e. by rewrite lookup_empty. }
    exists s, os, a. split; [done|]. split; [done|]. split.
    { clear -Ha. assert (H : a_t (abs_init adm) = 0) by done. revert H Ha.
      generalize (abs_init adm) at 1 2. intros a0 H Ha.
      replace (Z.of_nat (length cs)) with (a_t a0 + Z.of_nat (length cs)) by lia. clear H.
      induction Ha as [|a1 c o a1' cs os a'' Hs Hr IH]; cbn; [lia|].
      rewrite IH. destruct Hs; cbn; lia. }
    intros Hne r. destruct a as [t m ad]. cbn in Hne.
    assert (HR1 : rrel cap md X_tr1 (rn_tick s) (mkAbs t m ad)).
    { destruct HR as (HB & Hg & Hn & Hnt & HX). split_and!; cbn; [by apply brel_tick|done|lia|].
      split; [cbn in *; lia|done]. }
    destruct (hyp_ev_tr draw Hd score smax n_sample Hsc Hns _ _ _ _ _ _ r HR1 Hne)
      as (v & s2 & c' & Hv & Hl & He & Hev & H2 & H3).
    pose proof Hv as [ev Hm]. exists v, ev, s2. split_and!; [done|apply Hl|done| |].
    - intros u Hu. destruct HR1 as (HB & Hg & Hn & Hnt & HX).
      pose proof (tbl_ne _ _ _ _ _ _ HB Hne) as Hne'.
      pose proof (samples_resident draw Hd _ _ _ _ Hne' Hu) as [ou Hou].
      destruct (brel_some_inv _ _ _ _ _ _ HB Hou) as (eu & Heu & _). exists eu. split; [done|].
      destruct (brel_some _ _ _ _ _ _ HB Hm) as (ov & Hov & _).
      destruct Hl as (_ & Hmin). specialize (Hmin u ov ou Hu Hov Hou).
      destruct (HX _ _ _ Hou Heu) as (E1 & E2 & _). destruct (HX _ _ _ Hov Hm) as (E3 & E4 & _).
      rewrite Hnt, E1, E2, E3, E4 in Hmin. cbn in Hmin |- *.
      by replace (t + 1 - (e_ins ev + 1)) with (t - e_ins ev) in Hmin by lia;
        replace (t + 1 - (e_ins eu + 1)) with (t - e_ins eu) in Hmin by lia.
    - intros j.
      assert (HB2 : brel cap md (rn_c s2) (mkAbs t (delete v m) ad)).
      { assert (HR2 : rrel cap md X_any s2 (mkAbs t (delete v m) ad)); [|apply HR2].
        eapply (gen_evict cap md X_any (rn_tick s)); [done|exact Hok| |exact Hv|exact Hev|exact H2|exact H3].
        by destruct HR1 as (HB & Hg & Hn & _). }
      unfold resident. cbn. unfold hyp_find. setoid_rewrite (brel_find_false _ _ _ _ _ HB2). cbn.
      split.
      + intros H. destruct (H (mkReq j 0 0 0 0) eq_refl) as (s' & Hf'). cbn in Hf'.
        rewrite andb_false_r in Hf'. injection Hf' as _ Hb. apply bool_decide_eq_true in Hb.
        destruct Hb as [e He']. apply lookup_delete_Some in He' as [? ?]. split; eauto.
      + intros [[e He'] Hj] q <-. rewrite andb_false_r. eexists. rewrite bool_decide_true; [done|].
        rewrite lookup_delete_ne by congruence. eauto.
  Qed.
End Api.

(** ** Examples, with the generator of the code *)
Definition rg (id : Z) : call := CGet (mkReq id 1 0 0 0).
Definition ev0 : call := CEvict (mkReq 0 1 0 0 0).
Definition look (id : Z) : call := CFind (mkReq id 1 0 0 0) false.

Example C44_calls_ex : Forall (get_uses 0) [rg 1; rg 2; rg 3; rg 1; ev0; look 2; CRemove 3] /\
  Forall (gets_only 16) [rg 1; rg 2; rg 3; rg 1] /\ Forall (get_evicts 16) [rg 1; rg 2; look 2; CRemove 1].
Proof.
  split_and!; repeat (apply Forall_cons; split; [cbn; unfold req_ok; cbn; lia || done|]); apply Forall_nil_2.
Qed.
Definition answers {S} (x : res (S * list obs)) : res (list obs) := let! (_, os) := x in Ok os.
(** with seed 5, RandomTwo draws 2 and 1 of the resident 1..4; 1 was used last, so 2 goes *)
Example C44_two_drawn_ex :
  (let! (s, _) := run (two_ops lcg_draw) 10 (random_init 4 AdmNone 5) [rg 4; rg 2; rg 3; rg 1] in
   Ok (drawn lcg_draw 2 s)) = Ok [2; 1].
Proof. vm_compute. reflexivity. Qed.
Example C44_two_ex :
  answers (run (two_ops lcg_draw) 10 (random_init 4 AdmNone 5)
    [rg 4; rg 2; rg 3; rg 1; ev0; look 1; look 2; look 3; look 4]) =
  Ok [OBool false; OBool false; OBool false; OBool false; OUnit; OBool true; OBool false; OBool true; OBool true].
Proof. vm_compute. reflexivity. Qed.
(** three objects, all of them among the 64 drawn: 2 is the least recently used *)
Example C44_rlru_ex :
  answers (run (rlru_ops lcg_draw) 10 (random_init 3 AdmNone 5)
    [rg 4; rg 2; rg 3; rg 4; rg 5; look 5; look 2; look 3; look 4]) =
  Ok [OBool false; OBool false; OBool false; OBool true; OBool false; OBool true; OBool false; OBool true; OBool true].
Proof. vm_compute. reflexivity. Qed.
(** get number 4 evicts: 4 has 2 uses in 4, 2 has 1 in 3, 3 has 1 in 1; 2 goes *)
Example C44_hyp_ex :
  answers (run (hyp_ops lcg_draw score_ex (10 ^ 22) 64) 10 (hyp_init false 3 AdmNone 5)
    [rg 4; rg 2; rg 4; rg 3; rg 5; look 5; look 2; look 3; look 4]) =
  Ok [OBool false; OBool false; OBool true; OBool false; OBool false; OBool true; OBool false; OBool true; OBool true].
Proof. vm_compute. reflexivity. Qed.
(** the hypotheses of the section hold together *)
Example C01_sampling_ex :
  weak_capacity (hyp_ops lcg_draw score_ex (10 ^ 22) 64) (hyp_init true 100 AdmNone 5) 100 (get_evicts 16).
Proof.
  apply (C01_sampling lcg_draw lcg_draw_residents score_ex (10 ^ 22) 64 score_ex_ok
    ltac:(lia) 100 ltac:(lia) AdmNone 5).
Qed.

(** ** What fails *)

(** C36: Random and RandomTwo draw again, so the victim announced by to_evict
    is not the one that evict takes. *)
Theorem C36_random_refuted : exists (draw : Z -> gmap Z cobj -> Z * Z), draws_residents draw /\
  answers (run (random_ops draw) 10 (random_init 4 AdmNone 5)
    [rg 4; rg 2; rg 3; rg 1; CToEvict (mkReq 0 1 0 0 0); ev0; look 2]) =
  Ok [OBool false; OBool false; OBool false; OBool false; OVictim (Some 2); OUnit; OBool true].
Proof. exists lcg_draw. split; [apply lcg_draw_residents|]. vm_compute. reflexivity. Qed.
Theorem C36_random_two_refuted : exists (draw : Z -> gmap Z cobj -> Z * Z), draws_residents draw /\
  answers (run (two_ops draw) 10 (random_init 4 AdmNone 5)
    [rg 1; rg 2; rg 3; rg 4; CToEvict (mkReq 0 1 0 0 0); ev0; look 1]) =
  Ok [OBool false; OBool false; OBool false; OBool false; OVictim (Some 1); OUnit; OBool true].
Proof. exists lcg_draw. split; [apply lcg_draw_residents|]. vm_compute. reflexivity. Qed.
(** RandomLRU does not implement to_evict: any program that asks a non-empty
    cache for a victim aborts. *)
Theorem C36_random_lru_refuted : exists (draw : Z -> gmap Z cobj -> Z * Z), draws_residents draw /\
  run (rlru_ops draw) 10 (random_init 4 AdmNone 5) [rg 1; CToEvict (mkReq 0 1 0 0 0)] = Err AssertFail.
Proof. exists lcg_draw. split; [apply lcg_draw_residents|]. vm_compute. reflexivity. Qed.

(** Hyperbolic: every cache that holds only objects inserted by the last get
    has no candidate (their age is 0 and their score infinite): evict crashes. *)
Theorem C07_hyperbolic_evict_refuted : exists (draw : Z -> gmap Z cobj -> Z * Z), draws_residents draw /\
  run (hyp_ops draw score_ex (10 ^ 22) 64) 10 (hyp_init false 4 AdmNone 5) [rg 4; ev0] = Err NullDeref.
Proof. exists lcg_draw. split; [apply lcg_draw_residents|]. vm_compute. reflexivity. Qed.
(** Hyperbolic: the candidate remembered by to_evict is freed by remove and
    then evicted again. *)
Theorem C36_hyperbolic_stale_refuted : exists (draw : Z -> gmap Z cobj -> Z * Z), draws_residents draw /\
  run (hyp_ops draw score_ex (10 ^ 22) 64) 10 (hyp_init false 4 AdmNone 5)
    [rg 4; rg 2; CToEvict (mkReq 0 1 0 0 0); CRemove 4; ev0] = Err UseAfterFree.
Proof. exists lcg_draw. split; [apply lcg_draw_residents|]. vm_compute. reflexivity. Qed.
