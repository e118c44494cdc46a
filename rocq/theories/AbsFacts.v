(** Facts about the abstract cache of Abs.v. *)
From stdpp Require Import gmap list numbers fin_maps.
From Verif Require Import Base Driver Abs.
Open Scope Z_scope.

Lemma msum_empty md : msum md ∅ = 0.
Proof. unfold msum. apply map_fold_empty. Qed.

Lemma msum_insert md m id e :
  m !! id = None -> msum md (<[id := e]> m) = e_size e + md + msum md m.
Proof.
  intros H. unfold msum. rewrite map_fold_insert_L; [done| |done].
  intros; lia.
Qed.

Lemma msum_delete md m id e :
  m !! id = Some e -> msum md (delete id m) = msum md m - (e_size e + md).
Proof.
  intros H. pose proof (msum_insert md (delete id m) id e (lookup_delete _ _)) as H1.
  rewrite insert_delete in H1 by done. lia.
Qed.

Lemma msum_update md m id e e' :
  m !! id = Some e -> e_size e' = e_size e -> msum md (<[id := e']> m) = msum md m.
Proof.
  intros H He.
  rewrite <- (insert_delete_insert m).
  rewrite msum_insert by apply lookup_delete.
  rewrite (msum_delete _ _ _ e) by done. lia.
Qed.

Lemma msum_nonneg md m :
  0 <= md -> (forall id e, m !! id = Some e -> 0 <= e_size e) -> 0 <= msum md m.
Proof.
  intros Hmd. induction m as [|id e m Hn IH] using map_ind; intros Hs.
  - rewrite msum_empty. lia.
  - rewrite msum_insert by done.
    assert (0 <= e_size e) by (apply (Hs id); apply lookup_insert).
    assert (0 <= msum md m).
    { apply IH. intros id' e' H'. apply (Hs id'). rewrite lookup_insert_ne; [done|congruence]. }
    lia.
Qed.

(** Well-formed abstract states: what every client-reachable state satisfies. *)
Definition abs_ok (cap md : Z) (a : abs) : Prop :=
  0 <= msum md (a_m a) <= cap /\
  (forall id e, a_m a !! id = Some e ->
     0 <= e_size e /\ e_size e + md < 2 ^ 32 /\
     0 <= e_ins e /\ e_ins e <= e_last e /\ e_last e < a_t a /\ 1 <= e_cnt e) /\
  (forall i j ei ej, a_m a !! i = Some ei -> a_m a !! j = Some ej ->
     e_ins ei = e_ins ej \/ e_last ei = e_last ej -> i = j) /\
  0 <= a_t a /\ 0 <= md.

Lemma abs_ok_later cap md t m a : abs_ok cap md (mkAbs t m a) -> forall a', abs_ok cap md (mkAbs (t + 1) m a').
Proof.
  intros (H1 & H2 & H3 & H4 & H5) a'. unfold abs_ok in *; cbn in *.
  split_and!; try done; try lia; try apply H1.
  intros id e He. specialize (H2 id e He). lia.
Qed.

Lemma abs_ok_adm cap md t m a a' : abs_ok cap md (mkAbs t m a) -> abs_ok cap md (mkAbs t m a').
Proof. intros H. exact H. Qed.

Lemma abs_ok_delete cap md t m a v :
  abs_ok cap md (mkAbs t m a) -> abs_ok cap md (mkAbs t (delete v m) a).
Proof.
  intros (H1 & H2 & H3 & H4 & H5). unfold abs_ok in *; cbn in *.
  assert (H2' : forall id e, delete v m !! id = Some e -> m !! id = Some e).
  { intros id e He. apply lookup_delete_Some in He. tauto. }
  split_and!; try done; try lia.
  - apply msum_nonneg; [done|]. intros id e He. apply H2' in He. apply H2 in He. lia.
  - destruct (m !! v) as [e|] eqn:E.
    + rewrite (msum_delete _ _ _ e) by done. specialize (H2 _ _ E). lia.
    + rewrite delete_notin by done. lia.
  - intros id e He. apply H2' in He. exact (H2 _ _ He).
  - intros i j ei ej Hi Hj. apply H2' in Hi, Hj. by eapply H3.
Qed.

Lemma abs_ok_fresh cap md t m a a' r :
  abs_ok cap md (mkAbs t m a) -> m !! r_id r = None -> req_ok md r ->
  msum md m + (r_size r + md) <= cap ->
  abs_ok cap md (mkAbs (t + 1) (<[r_id r := fresh t r]> m) a').
Proof.
  intros (H1 & H2 & H3 & H4 & H5) Hn [Hr1 Hr2] Hfit. unfold abs_ok in *; cbn in *.
  split_and!; try done; try lia.
  - rewrite msum_insert by done. cbn. lia.
  - rewrite msum_insert by done. cbn. lia.
  - intros id e He. apply lookup_insert_Some in He as [[<- <-]|[Hne He]]; cbn; [lia|].
    specialize (H2 _ _ He). lia.
  - intros i j ei ej Hi Hj Heq.
    apply lookup_insert_Some in Hi as [[<- <-]|[Hine Hi]];
    apply lookup_insert_Some in Hj as [[<- <-]|[Hjne Hj]]; cbn in *.
    + done.
    + specialize (H2 _ _ Hj). lia.
    + specialize (H2 _ _ Hi). lia.
    + eauto.
Qed.

Lemma abs_ok_touch cap md t m a r e :
  abs_ok cap md (mkAbs t m a) -> m !! r_id r = Some e ->
  abs_ok cap md (mkAbs (t + 1) (<[r_id r := touch t r e]> m) a).
Proof.
  intros (H1 & H2 & H3 & H4 & H5) Hs. unfold abs_ok in *; cbn in *.
  split_and!; try done; try lia.
  - rewrite (msum_update _ _ _ e) by done. lia.
  - rewrite (msum_update _ _ _ e) by done. lia.
  - intros id e' He. apply lookup_insert_Some in He as [[<- <-]|[Hne He]]; cbn.
    + specialize (H2 _ _ Hs). lia.
    + specialize (H2 _ _ He). lia.
  - intros i j ei ej Hi Hj Heq.
    apply lookup_insert_Some in Hi as [[<- <-]|[Hine Hi]];
    apply lookup_insert_Some in Hj as [[<- <-]|[Hjne Hj]]; cbn in *.
    + done.
    + pose proof (H2 _ _ Hj). destruct Heq as [Heq|Heq]; [|lia]. eauto.
    + pose proof (H2 _ _ Hi). destruct Heq as [Heq|Heq]; [|lia].
      symmetry. eapply H3; eauto.
    + eauto.
Qed.

Lemma evict_to_ok pol cap md n t m m' a :
  evict_to pol cap md n m m' -> abs_ok cap md (mkAbs t m a) ->
  abs_ok cap md (mkAbs t m' a) /\ msum md m' + n <= cap /\ m' ⊆ m /\ (size m' <= size m)%nat.
Proof.
  induction 1 as [m Hfit|m v m' Hno [e He] Hpol Hev IH]; intros Hok.
  - split_and!; auto.
  - destruct IH as (IH1 & IH2 & IH3 & IH4); [by apply abs_ok_delete|].
    split_and!; auto.
    + etrans; [exact IH3|]. apply delete_subseteq.
    + rewrite map_size_delete_Some in IH4 by eauto. lia.
Qed.

Lemma abs_step_ok pol cap md a c o a' :
  abs_step pol cap md a c o a' -> call_ok (req_ok md) c -> abs_ok cap md a -> abs_ok cap md a'.
Proof.
  intros Hs Hc Hok. destruct Hs; cbn in Hc.
  - by eapply abs_ok_touch.
  - by eapply abs_ok_later.
  - by eapply abs_ok_later.
  - destruct (evict_to_ok _ _ _ _ _ _ _ a H2 Hok) as (H3 & H4 & H5 & H6).
    eapply abs_ok_fresh; eauto.
    destruct (m' !! r_id r) eqn:E; [|done].
    rewrite (lookup_weaken _ _ _ _ E H5) in H. done.
  - by eapply abs_ok_later.
  - by eapply abs_ok_touch.
  - by eapply abs_ok_later.
  - by eapply abs_ok_fresh.
  - by eapply abs_ok_later.
  - eapply abs_ok_later, abs_ok_delete; eauto.
  - eapply abs_ok_later, abs_ok_delete; eauto.
  - by eapply abs_ok_later.
  - by eapply abs_ok_later.
  - by eapply abs_ok_later.
Qed.

Lemma abs_run_ok pol cap md a cs os a' :
  abs_run pol cap md a cs os a' -> Forall (call_ok (req_ok md)) cs -> abs_ok cap md a -> abs_ok cap md a'.
Proof.
  induction 1; intros Hc Hok; [done|].
  inversion Hc; subst. apply IHabs_run; [done|]. by eapply abs_step_ok.
Qed.

Lemma size_insert_le {A} (m : gmap Z A) i x : (size (<[i := x]> m) <= size m + 1)%nat.
Proof.
  destruct (m !! i) eqn:E.
  - rewrite map_size_insert_Some by eauto. lia.
  - rewrite map_size_insert_None by done. lia.
Qed.

Lemma size_delete_le {A} (m : gmap Z A) i : (size (delete i m) <= size m)%nat.
Proof.
  destruct (m !! i) eqn:E.
  - rewrite map_size_delete_Some by eauto. lia.
  - rewrite delete_notin by done. lia.
Qed.

Lemma abs_step_size pol cap md a c o a' :
  abs_step pol cap md a c o a' -> (size (a_m a') <= size (a_m a) + 1)%nat.
Proof.
  destruct 1; cbn; try lia; try apply size_insert_le.
  - assert (size m' <= size m)%nat.
    { clear -H2. induction H2; [done|]. pose proof (size_delete_le m v). lia. }
    pose proof (size_insert_le m' (r_id r) (fresh t r)). lia.
  - pose proof (size_delete_le m id). lia.
  - pose proof (size_delete_le m v). lia.
Qed.

Lemma abs_init_ok cap md adm : 0 <= cap -> 0 <= md -> abs_ok cap md (abs_init adm).
Proof.
  intros. unfold abs_ok; cbn. rewrite msum_empty. split_and!; try lia; try set_solver.
Qed.

Lemma abs_run_app pol cap md a cs1 os1 a1 cs2 os2 a2 :
  abs_run pol cap md a cs1 os1 a1 -> abs_run pol cap md a1 cs2 os2 a2 ->
  abs_run pol cap md a (cs1 ++ cs2) (os1 ++ os2) a2.
Proof. induction 1; intros; cbn; [done|]. econstructor; eauto. Qed.
