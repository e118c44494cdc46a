(** Clock and Sieve: simulations. *)
From stdpp Require Import gmap list numbers fin_maps sorting.
From Verif Require Import Base Driver Abs AbsFacts Sim ModelQueue QueueFacts SimQueue ClockFacts.
Open Scope Z_scope.

Lemma brel_dec cap md c a d : brel cap md c a -> brel cap md (c_dec c d) a.
Proof.
  intros []; constructor; try done. intros id. rewrite c_dec_lookup. specialize (br_tbl id).
  inversion br_tbl; cbn; constructor. done.
Qed.

Lemma brel_upd cap md c a id f :
  (forall o, o_size (f o) = o_size o /\ o_next (f o) = o_next o /\ o_freq (f o) = o_freq o) ->
  brel cap md c a -> brel cap md (c_upd c id f) a.
Proof.
  intros Hf []; constructor; try done. intros i. cbn. specialize (br_tbl i).
  destruct (decide (i = id)) as [->|Hne].
  - rewrite lookup_alter. inversion br_tbl; cbn; constructor.
    destruct (Hf x) as (E1 & E2 & E3). unfold orel in *. by rewrite E1, E2, E3.
  - by rewrite lookup_alter_ne.
Qed.

Definition crel (mf cap md : Z) (s : qstate) (a : abs) : Prop :=
  brel cap md (q_c s) a /\ qdom (q_q s) (a_m a) /\
  forall id o, c_tbl (q_c s) !! id = Some o -> 0 <= o_p1 o <= mf.

Section Clock.
  Context (mf cap md : Z).

  (** What the scan does to a related state, in closed form. *)
  Lemma crel_scan s t m a : abs_ok cap md (mkAbs t m a) -> crel mf cap md s (mkAbs t m a) ->
    m <> ∅ ->
    exists l1 x l2 k,
      rev (q_q s) = l1 ++ x :: l2 /\ cnt (q_c s) x = Z.of_nat k /\
      (forall y, y ∈ l1 -> Z.of_nat k < cnt (q_c s) y) /\
      (forall y, y ∈ l2 -> Z.of_nat k <= cnt (q_c s) y) /\
      is_Some (m !! x) /\
      clock_scan (clock_bound (q_c s) (q_q s)) (q_c s) (q_q s)
      = Ok (c_dec (q_c s) (fun y => if decide (y ∈ l1 ++ x :: l2) then Z.of_nat k + one_in l1 y else 0),
            rev l1 ++ rev l2 ++ [x], x) /\
      (forall r, clock_to_evict s r = Ok (s, Some x)).
  Proof.
    intros Hok (H1 & H2 & H3) Hne. destruct s as [c q]. cbn in *.
    pose proof (qdom_nonempty _ _ H2 Hne) as Hq.
    destruct (first_min (cnt c) (rev q)) as (l1 & x & l2 & Hrq & Hl1 & Hl2).
    { intros Hr. apply Hq. rewrite <- (rev_involutive q), Hr. done. }
    assert (Hin : forall y, y ∈ l1 ++ x :: l2 -> is_Some (c_tbl c !! y)).
    { intros y Hy. rewrite <- Hrq, rev_elem in Hy. apply H2 in Hy.
      eapply brel_is_Some; eauto. }
    assert (Hx : 0 <= cnt c x).
    { destruct (Hin x) as [o Ho]; [set_solver|]. unfold cnt. rewrite Ho. apply H3 in Ho. lia. }
    assert (Hqe : q = rev (l1 ++ x :: l2)) by (by rewrite <- Hrq, rev_involutive).
    exists l1, x, l2, (Z.to_nat (cnt c x)). rewrite Z2Nat.id by done.
    assert (Hb : (Z.to_nat (cnt c x) * length (l1 ++ x :: l2) + length l1 <= clock_bound c q)%nat).
    { rewrite Hqe. apply clock_bound_suffices; [done|by rewrite Z2Nat.id| |].
      - intros y Hy. rewrite Z2Nat.id by done. auto.
      - intros y Hy. rewrite Z2Nat.id by done. auto. }
    split_and!; auto.
    - apply H2. rewrite Hqe, rev_elem. set_solver.
    - rewrite Hqe at 2. rewrite (clock_scan_closed (Z.to_nat (cnt c x))); try done.
      + rewrite Z2Nat.id by done. done.
      + rewrite <- Hrq. apply NoDup_rev'. apply H2.
      + by rewrite Z2Nat.id.
      + intros y Hy. rewrite Z2Nat.id by done. auto.
      + intros y Hy. rewrite Z2Nat.id by done. auto.
    - intros r. unfold clock_to_evict. cbn. rewrite Hrq.
      destruct (l1 ++ x :: l2) eqn:E; [by destruct l1|]. rewrite <- E in *. clear E.
      rewrite (clock_scan_pure_closed c l1 x l2 (Z.to_nat (cnt c x))); try done.
      + rewrite Z2Nat.id by done. lia.
      + intros y Hy. rewrite Z2Nat.id by done. rewrite Z.add_0_l. auto.
      + intros y Hy. rewrite Z2Nat.id by done. rewrite Z.add_0_l. auto.
      + rewrite app_length in *. cbn [length] in *. nia.
  Qed.

  Lemma clock_sim (Hmf : 0 <= mf) : simulation pol_any (clock_ops mf) cap md (req_ok md) (crel mf cap md).
  Proof.
    constructor; cbn.
    - done.
    - intros s a (H & _). apply H.
    - intros s a (H & _). apply H.
    - intros s a (H & _). apply H.
    - intros s a (H & _). apply H.
    - intros s a (H1 & H2 & H3). split_and!; [by apply brel_tick|done|done].
    - intros s t m a (H1 & H2 & H3). split_and!; [by eapply brel_clock|done|done].
    - intros s a r (H & _). unfold clock_find. rewrite (brel_find_false _ _ _ _ _ H).
      rewrite andb_false_r. by destruct s.
    - intros s t m a r e Hok (H1 & H2 & H3) He. unfold clock_find.
      destruct (brel_find_hit _ _ _ _ _ _ _ _ H1 He) as (c' & -> & Hb & o & Ho & Hc').
      eexists. split; [done|]. cbn in *. split_and!; cbn.
      + apply brel_upd; [|done]. intros o'. by destruct (decide _).
      + apply qdom_upd; eauto.
      + intros id o'. subst c'. cbn.
        destruct (decide (id = r_id r)) as [->|Hne].
        * rewrite lookup_alter, lookup_insert. cbn.
          specialize (H3 _ _ Ho). destruct (decide _); intros [= <-]; cbn in *; lia.
        * rewrite lookup_alter_ne, lookup_insert_ne by done. apply H3.
    - intros s a r (H1 & H2 & H3) Hn. unfold clock_find.
      rewrite (brel_find_miss _ _ _ _ _ _ H1 Hn). cbn. eexists. split; [done|]. done.
    - intros s t m a r (H1 & H2 & H3). destruct (brel_can _ _ _ _ _ _ r H1) as (c' & Hc & Hb & Hc').
      unfold q_can_insert. rewrite Hc. eexists. split; [done|]. split_and!; [done|done|]. by subst c'.
    - intros s t m a r Hok (H1 & H2 & H3) Hn Hr Hfit. unfold clock_insert.
      destruct (brel_insert _ _ _ _ _ _ r H1 Hn Hr) as (c' & -> & Hb & Ht); [apply Hok|].
      cbn in *. eexists. split; [done|]. split_and!; cbn.
      + by apply brel_upd.
      + by apply qdom_cons.
      + intros id o. rewrite Ht. destruct (decide (id = r_id r)) as [->|Hne].
        * rewrite lookup_alter, lookup_insert. cbn. intros [= <-]. cbn. lia.
        * rewrite lookup_alter_ne, lookup_insert_ne by done. apply H3.
    - intros s t m a r Hok HR Hne.
      destruct (crel_scan s t m a Hok HR Hne) as (l1 & x & l2 & k & Hrq & Hx & Hl1 & Hl2 & [e He] & Hscan & Hte).
      destruct HR as (H1 & H2 & H3). cbn in *.
      set (d := fun y => _) in Hscan.
      destruct (brel_remove _ _ _ _ _ _ _ _ Hok (brel_dec _ _ _ _ d H1) He) as (c' & Hc & Hb & Ht).
      assert (Hev : forall r', clock_evict s r' = Ok (mkQ c' (rev l1 ++ rev l2))).
      { intros r'. unfold clock_evict. rewrite Hscan. cbn. unfold cache_evict_base. rewrite Hc. cbn.
        by rewrite app_assoc, removelast_last. }
      assert (Hq : q_q s ≡ₚ rev l1 ++ rev l2 ++ [x]).
      { rewrite <- (rev_involutive (q_q s)), Hrq, rev_app_distr. cbn.
        rewrite Permutation_app_comm. done. }
      assert (HR' : crel mf cap md (mkQ c' (rev l1 ++ rev l2)) (mkAbs t (delete x m) a)).
      { split_and!; cbn; [done| |].
        - apply qdom_snoc_del. rewrite <- app_assoc. by eapply qdom_perm.
        - intros id o. rewrite Ht. intros [Hid Ho]%lookup_delete_Some.
          rewrite c_dec_lookup in Ho. apply fmap_Some in Ho as (o0 & Ho0 & ->). cbn.
          pose proof (H3 _ _ Ho0) as Hb0.
          assert (Hi : id ∈ q_q s) by (destruct (brel_some_inv _ _ _ _ _ _ H1 Ho0) as (e0 & He0 & _); apply H2; eauto).
          assert (Hi' : id ∈ l1 ++ x :: l2) by (by rewrite <- Hrq, rev_elem).
          assert (Hcid : cnt (q_c s) id = o_p1 o0) by (unfold cnt; by rewrite Ho0).
          unfold d. rewrite decide_True by done. unfold one_in.
          destruct (decide (id ∈ l1)) as [Hl|Hl].
          + specialize (Hl1 _ Hl). lia.
          + assert (id ∈ l2) as Hl' by set_solver. specialize (Hl2 _ Hl'). lia. }
      exists s, x, (mkQ c' (rev l1 ++ rev l2)). 
      split; [apply Hte|]. split; [by split_and!|]. split; [by eexists|]. split; [done|].
      split; [apply Hev|]. split; [done|]. intros r'; eexists; split; [apply Hev|done].
    - intros s t m a id Hok (H1 & H2 & H3). unfold q_remove. cbn in *.
      destruct (m !! id) as [e|] eqn:E.
      + destruct (brel_some _ _ _ _ _ _ H1 E) as (o & -> & _).
        destruct (brel_remove _ _ _ _ _ _ _ _ Hok H1 E) as (c' & -> & Hb & Ht).
        cbn. eexists. split; [done|]. split_and!; cbn; [done|by apply qdom_del|].
        intros id' o'. rewrite Ht. intros [_ Ho]%lookup_delete_Some. by eapply H3.
      + rewrite (brel_none _ _ _ _ _ H1 E). cbn. eexists. split; [done|].
        rewrite delete_notin by done. done.
  Qed.

  Lemma clock_init_rel adm : crel mf cap md (q_init cap md adm) (abs_init adm).
  Proof. split_and!; cbn; [apply brel_init|apply qdom_empty|]. intros id o. by rewrite lookup_empty. Qed.
End Clock.
