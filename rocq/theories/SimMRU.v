(** MRU: what holds of the runs that do not crash, and when they crash. *)
From stdpp Require Import gmap list numbers fin_maps.
From Verif Require Import Base Driver Abs AbsFacts Sim PSim ModelQueue QueueFacts SimQueue.
Open Scope Z_scope.

Lemma mru_psim cap md : psimulation pol_mru mru_ops cap md (qrel e_last cap md).
Proof.
  pose proof (lru_sim cap md) as HL.
  constructor; cbn.
  - intros s a (H & _). apply H.
  - intros s a (H & _). apply H.
  - intros s a (H & _). apply H.
  - intros s a (H & _). apply H.
  - apply qrel_tick.
  - apply qrel_clock.
  - intros s a r s' b HR Hf. pose proof (sim_find_false _ _ _ _ _ _ HL _ _ r HR) as Hf'. cbn in Hf'.
    rewrite Hf in Hf'. by injection Hf' as -> ->.
  - intros s t m a r e s' b Hok HR He Hf.
    destruct (sim_find_hit _ _ _ _ _ _ HL _ _ _ _ r e Hok HR He) as (s2 & Hf' & HR2). cbn in Hf'.
    rewrite Hf in Hf'. by injection Hf' as -> ->.
  - intros s a r s' b HR Hn Hf. destruct (sim_find_miss _ _ _ _ _ _ HL _ _ r HR Hn) as (s2 & Hf' & HR2).
    cbn in Hf'. rewrite Hf in Hf'. by injection Hf' as -> ->.
  - intros s t m a r s' b HR Hc. destruct (qrel_can _ _ _ _ _ _ _ r HR) as (s2 & Hc' & HR2).
    rewrite Hc in Hc'. by injection Hc' as -> ->.
  - intros s t m a r s' Hok HR Hn Hr Hfit Hi.
    destruct (sim_insert _ _ _ _ _ _ HL s t m a r Hok HR Hn Hr Hfit) as (s2 & Hi' & HR2). cbn in Hi'.
    rewrite Hi in Hi'. by injection Hi' as ->.
  - intros s t m a r s' Hok (H1 & H2 & H3) Hne. destruct s as [c q]. unfold mru_evict. cbn in *.
    destruct q as [|v [|w q]]; [done|done|].
    assert (is_Some (m !! v)) as [e He] by (apply H2; left).
    destruct (brel_remove _ _ _ _ _ _ _ _ Hok H1 He) as (c' & Hc & Hb & _).
    unfold cache_evict_base. rewrite Hc. cbn. intros [= <-].
    exists v. split; [eauto|]. split.
    + intros e0 id e' Hv Hid. by eapply (qsorted_head_max e_last).
    + split_and!; cbn; [done|by apply qdom_cons_del|]. apply qsorted_delete. by inversion H3.
  - intros s t m a r s' o Hok HR Hne. unfold mru_to_evict. intros [= <- <-].
    pose proof HR as (H1 & H2 & H3). destruct s as [c q]. cbn in *.
    destruct q as [|v q]. { by destruct (qdom_nonempty _ _ H2 Hne). }
    exists v. split_and!; [done|apply H2; left| |done].
    intros e0 id e' Hv Hid. by eapply (qsorted_head_max e_last).
  - intros s t m a id s' b Hok HR Hr.
    destruct (qrel_remove _ _ _ _ _ _ _ id Hok HR) as (s2 & Hr' & HR2).
    rewrite Hr in Hr'. by injection Hr' as -> ->.
Qed.

(** The eviction crashes exactly when at most one object is cached. *)
Lemma mru_evict_crash cap md s t m a r : abs_ok cap md (mkAbs t m a) -> qrel e_last cap md s (mkAbs t m a) ->
  ((size m <= 1)%nat <-> op_evict mru_ops s r = Err NullDeref) /\
  ((2 <= size m)%nat <-> exists s', op_evict mru_ops s r = Ok s').
Proof.
  intros Hok (H1 & H2 & H3). cbn in *. destruct s as [c q]. unfold mru_evict. cbn in *.
  assert (Hsz : size m = length q).
  { destruct H2 as [Hn Hd]. rewrite <- (size_list_to_set (C := gset Z) q Hn).
    rewrite <- (size_dom m). f_equal. apply set_eq. intros x.
    rewrite elem_of_list_to_set, Hd. apply elem_of_dom. }
  destruct q as [|v [|w q]]; cbn in *.
  - split; split; try done; try lia. by intros [].
  - split; split; try done; try lia. by intros [].
  - assert (is_Some (m !! v)) as [e He] by (apply H2; left).
    destruct (brel_remove _ _ _ _ _ _ _ _ Hok H1 He) as (c' & Hc & _).
    unfold cache_evict_base. rewrite Hc. cbn. split; split; try done; try lia. eauto.
Qed.
