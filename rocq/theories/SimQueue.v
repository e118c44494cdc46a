(** FIFO and LRU simulate the abstract FIFO / LRU cache. *)
From stdpp Require Import gmap list numbers fin_maps sorting.
From Verif Require Import Base Driver Abs AbsFacts Sim ModelQueue QueueFacts.
Open Scope Z_scope.

Definition qrel (key : entry -> Z) (cap md : Z) (s : qstate) (a : abs) : Prop :=
  brel cap md (q_c s) a /\ qdom (q_q s) (a_m a) /\ qsorted key (q_q s) (a_m a).

Section Common.
  Context (key : entry -> Z) (cap md : Z).

  Lemma qrel_tick s a : qrel key cap md s a -> qrel key cap md (q_tick s) a.
  Proof. intros (H1 & H2 & H3). split_and!; [by apply brel_tick|done|done]. Qed.

  Lemma qrel_clock s t m a : qrel key cap md s (mkAbs t m a) -> qrel key cap md s (mkAbs (t + 1) m a).
  Proof. intros (H1 & H2 & H3). split_and!; [by eapply brel_clock|done|done]. Qed.

  Lemma qrel_can s t m a r : qrel key cap md s (mkAbs t m a) ->
    exists s', q_can_insert s r =
                 Ok (s', (admit a r).2 && bool_decide (r_size r + md <= cap)) /\
      qrel key cap md s' (mkAbs t m (admit a r).1).
  Proof.
    intros (H1 & H2 & H3). destruct (brel_can _ _ _ _ _ _ r H1) as (c' & Hc & Hb & _).
    unfold q_can_insert. rewrite Hc. eexists. split; [done|]. done.
  Qed.

  Lemma qrel_remove s t m a id : abs_ok cap md (mkAbs t m a) -> qrel key cap md s (mkAbs t m a) ->
    exists s', q_remove s id = Ok (s', bool_decide (is_Some (m !! id))) /\
      qrel key cap md s' (mkAbs t (delete id m) a).
  Proof.
    intros Hok (H1 & H2 & H3). unfold q_remove. cbn in *.
    destruct (m !! id) as [e|] eqn:E.
    - destruct (brel_some _ _ _ _ _ _ H1 E) as (o & -> & _).
      destruct (brel_remove _ _ _ _ _ _ _ _ Hok H1 E) as (c' & -> & Hb & _).
      cbn. eexists. split; [done|]. split_and!; cbn; [done|by apply qdom_del|by apply qsorted_del].
    - rewrite (brel_none _ _ _ _ _ H1 E). cbn. eexists. split; [done|].
      rewrite delete_notin by done. done.
  Qed.

  Lemma qrel_insert s t m a r :
    (forall i e', m !! i = Some e' -> key e' < key (fresh t r)) ->
    abs_ok cap md (mkAbs t m a) -> qrel key cap md s (mkAbs t m a) ->
    m !! r_id r = None -> req_ok md r ->
    exists s', q_insert s r = Ok s' /\
      qrel key cap md s' (mkAbs (t + 1) (<[r_id r := fresh t r]> m) a).
  Proof.
    intros Hkey Hok (H1 & H2 & H3) Hn Hr. unfold q_insert.
    destruct (brel_insert _ _ _ _ _ _ r H1 Hn Hr) as (c' & -> & Hb & _); [apply Hok|].
    cbn in *. eexists. split; [done|]. split_and!; cbn; [done|by apply qdom_cons|].
    apply qsorted_cons; [|done|done]. destruct H2 as [_ H2]. rewrite H2, Hn. by intros [].
  Qed.

  Lemma qrel_evict_tail s t m a r : abs_ok cap md (mkAbs t m a) ->
    qrel key cap md s (mkAbs t m a) -> m <> ∅ ->
    exists v s2,
      q_to_evict_tail s r = Ok (s, Some v) /\ is_Some (m !! v) /\
      (forall e id e', m !! v = Some e -> m !! id = Some e' -> key e <= key e') /\
      (forall r', q_evict_tail s r' = Ok s2) /\ qrel key cap md s2 (mkAbs t (delete v m) a).
  Proof.
    intros Hok (H1 & H2 & H3) Hne. cbn in *.
    pose proof (qdom_nonempty _ _ H2 Hne) as Hq.
    destruct s as [c q]. cbn in *. destruct q as [|v q _] using rev_ind; [done|]. clear Hq.
    assert (is_Some (m !! v)) as [e He].
    { apply H2. apply elem_of_app. right. by left. }
    destruct (brel_remove _ _ _ _ _ _ _ _ Hok H1 He) as (c' & Hc & Hb & _).
    exists v, (mkQ c' q). unfold q_to_evict_tail, q_evict_tail. cbn.
    rewrite !last_snoc. split_and!; [done|eauto| | |].
    - by eapply qsorted_last_min.
    - intros _. unfold cache_evict_base. rewrite Hc. cbn. by rewrite removelast_last.
    - split_and!; cbn; [done|by apply qdom_snoc_del|by apply qsorted_snoc_del].
  Qed.
End Common.

Lemma fifo_sim cap md : simulation pol_fifo fifo_ops cap md (req_ok md) (qrel e_ins cap md).
Proof.
  constructor; cbn.
  - done.
  - intros s a (H & _). apply H.
  - intros s a (H & _). apply H.
  - intros s a (H & _). apply H.
  - intros s a (H & _). apply H.
  - apply qrel_tick.
  - apply qrel_clock.
  - intros s a r (H & _). unfold fifo_find. rewrite (brel_find_false _ _ _ _ _ H). by destruct s.
  - intros s t m a r e Hok (H1 & H2 & H3) He. unfold fifo_find.
    destruct (brel_find_hit _ _ _ _ _ _ _ _ H1 He) as (c' & -> & Hb & _).
    eexists. split; [done|]. split_and!; cbn; [done|apply qdom_upd; eauto|].
    eapply qsorted_same_key; eauto.
  - intros s a r (H1 & H2 & H3) Hn. unfold fifo_find.
    rewrite (brel_find_miss _ _ _ _ _ _ H1 Hn). eexists. split; [done|]. done.
  - apply qrel_can.
  - intros. eapply qrel_insert; eauto. intros i e' Hi. cbn.
    destruct H as (_ & H & _). specialize (H _ _ Hi). cbn in H. lia.
  - intros s t m a r Hok HR Hne.
    destruct (qrel_evict_tail _ _ _ _ _ _ _ r Hok HR Hne) as (v & s2 & Ht & Hv & Hmin & Hev & HR2).
    exists s, v, s2. split_and!; auto. intros r'. exists s2. auto.
  - apply qrel_remove.
Qed.

Lemma lru_sim cap md : simulation pol_lru lru_ops cap md (req_ok md) (qrel e_last cap md).
Proof.
  constructor; cbn.
  - done.
  - intros s a (H & _). apply H.
  - intros s a (H & _). apply H.
  - intros s a (H & _). apply H.
  - intros s a (H & _). apply H.
  - apply qrel_tick.
  - apply qrel_clock.
  - intros s a r (H & _). unfold lru_find. rewrite (brel_find_false _ _ _ _ _ H).
    rewrite andb_false_r. by destruct s.
  - intros s t m a r e Hok (H1 & H2 & H3) He. unfold lru_find.
    destruct (brel_find_hit _ _ _ _ _ _ _ _ H1 He) as (c' & -> & Hb & _).
    eexists. split; [done|]. cbn in *. split_and!; cbn; [done| |].
    + apply qdom_upd; eauto. apply qdom_to_head; eauto.
    + unfold q_to_head. rewrite <- (insert_delete_insert m). apply qsorted_cons.
      * rewrite elem_q_del. naive_solver.
      * intros i e' Hi. apply lookup_delete_Some in Hi as [_ Hi]. cbn.
        destruct Hok as (_ & Hok & _). specialize (Hok _ _ Hi). cbn in Hok. lia.
      * by apply qsorted_del.
  - intros s a r (H1 & H2 & H3) Hn. unfold lru_find.
    rewrite (brel_find_miss _ _ _ _ _ _ H1 Hn). eexists. split; [done|]. done.
  - apply qrel_can.
  - intros. eapply qrel_insert; eauto. intros i e' Hi. cbn.
    destruct H as (_ & H & _). specialize (H _ _ Hi). cbn in H. lia.
  - intros s t m a r Hok HR Hne.
    destruct (qrel_evict_tail _ _ _ _ _ _ _ r Hok HR Hne) as (v & s2 & Ht & Hv & Hmin & Hev & HR2).
    exists s, v, s2. split_and!; auto. intros r'. exists s2. auto.
  - apply qrel_remove.
Qed.

Lemma q_init_rel key cap md adm : qrel key cap md (q_init cap md adm) (abs_init adm).
Proof. split_and!; cbn; [apply brel_init|apply qdom_empty|constructor]. Qed.
