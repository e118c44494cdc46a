(** Queues as lists of ids against the abstract map. *)
From stdpp Require Import gmap list numbers fin_maps sorting.
From Verif Require Import Base Driver Abs AbsFacts Sim ModelQueue.
Open Scope Z_scope.

Lemma elem_q_del x y q : y ∈ q_del x q <-> y ∈ q /\ y <> x.
Proof. unfold q_del. rewrite elem_of_list_filter. tauto. Qed.

Lemma NoDup_q_del x q : NoDup q -> NoDup (q_del x q).
Proof. apply NoDup_filter. Qed.

Lemma q_del_notin x q : x ∉ q -> q_del x q = q.
Proof.
  unfold q_del. induction q as [|y q IH]; intros H; [done|].
  rewrite filter_cons. apply not_elem_of_cons in H as [H1 H2].
  rewrite decide_True by congruence. by rewrite IH.
Qed.

Lemma q_del_cons x q : q_del x (x :: q) = q_del x q.
Proof. unfold q_del. rewrite filter_cons. rewrite decide_False; [done|]. naive_solver. Qed.

Lemma q_del_cons_ne x y q : y <> x -> q_del x (y :: q) = y :: q_del x q.
Proof. intros. unfold q_del. rewrite filter_cons. by rewrite decide_True. Qed.

Lemma q_del_app x q1 q2 : q_del x (q1 ++ q2) = q_del x q1 ++ q_del x q2.
Proof. apply filter_app. Qed.

Lemma q_del_mid x q1 q2 : NoDup (q1 ++ x :: q2) -> q_del x (q1 ++ x :: q2) = q1 ++ q2.
Proof.
  intros H. rewrite q_del_app, q_del_cons.
  apply NoDup_app in H as (H1 & H2 & H3). apply NoDup_cons in H3 as [H3 _].
  rewrite !q_del_notin; [done|done|]. intros Hx. apply (H2 x Hx). constructor.
Qed.

Lemma StronglySorted_impl {A} (R1 R2 : A -> A -> Prop) l :
  (forall x y, x ∈ l -> y ∈ l -> R1 x y -> R2 x y) ->
  StronglySorted R1 l -> StronglySorted R2 l.
Proof.
  induction l as [|x l IH]; intros H HS; constructor; inversion HS; subst.
  - apply IH; [|done]. intros. apply H; [by right|by right|done].
  - apply Forall_forall. intros y Hy. apply H; [left|by right|].
    rewrite Forall_forall in H3. auto.
Qed.

Lemma StronglySorted_filter {A} (R : A -> A -> Prop) (P : A -> Prop) `{forall x, Decision (P x)} l :
  StronglySorted R l -> StronglySorted R (filter P l).
Proof.
  induction 1 as [|x l HS IH HF]; [constructor|].
  rewrite filter_cons. destruct (decide (P x)); [|done].
  constructor; [done|]. rewrite Forall_forall in *. intros y Hy.
  apply elem_of_list_filter in Hy as [_ Hy]. auto.
Qed.

Lemma StronglySorted_snoc_inv {A} (R : A -> A -> Prop) l x y :
  StronglySorted R (l ++ [x]) -> y ∈ l -> R y x.
Proof.
  induction l as [|z l IH]; intros HS Hy; [by inversion Hy|].
  cbn in HS. inversion HS as [|? ? HS' HF]; subst.
  inversion Hy; subst.
  - rewrite Forall_forall in HF. apply HF. apply elem_of_app. right. by left.
  - auto.
Qed.

(** The queue holds exactly the cached ids, once each. *)
Definition qdom {A} (q : list Z) (m : gmap Z A) : Prop :=
  NoDup q /\ forall id, id ∈ q <-> is_Some (m !! id).

(** ... and is ordered by [key], largest first. *)
Definition ord (key : entry -> Z) (m : gmap Z entry) (x y : Z) : Prop :=
  forall ex ey, m !! x = Some ex -> m !! y = Some ey -> key ey < key ex.
Definition qsorted (key : entry -> Z) (q : list Z) (m : gmap Z entry) : Prop :=
  StronglySorted (ord key m) q.

Section Qdom.
  Context {A : Type}.
  Implicit Types (m : gmap Z A) (q : list Z).

  Lemma qdom_empty : qdom [] (∅ : gmap Z A).
  Proof. split; [constructor|]. intros id. rewrite lookup_empty. split; [by inversion 1|by intros []]. Qed.

  Lemma qdom_upd q m id x : is_Some (m !! id) -> qdom q m -> qdom q (<[id := x]> m).
  Proof.
    intros Hs [H1 H2]. split; [done|]. intros i. rewrite H2.
    destruct (decide (i = id)) as [->|Hne].
    - rewrite lookup_insert. split; eauto.
    - by rewrite lookup_insert_ne.
  Qed.

  Lemma qdom_cons q m id x : m !! id = None -> qdom q m -> qdom (id :: q) (<[id := x]> m).
  Proof.
    intros Hn [H1 H2]. split.
    - constructor; [|done]. rewrite H2, Hn. by intros [].
    - intros i. rewrite elem_of_cons, H2.
      destruct (decide (i = id)) as [->|Hne].
      + rewrite lookup_insert. split; eauto.
      + rewrite lookup_insert_ne by done. naive_solver.
  Qed.

  Lemma qdom_del q m id : qdom q m -> qdom (q_del id q) (delete id m).
  Proof.
    intros [H1 H2]. split; [by apply NoDup_q_del|]. intros i. rewrite elem_q_del, H2.
    destruct (decide (i = id)) as [->|Hne].
    - rewrite lookup_delete. split; [naive_solver|by intros []].
    - rewrite lookup_delete_ne by done. naive_solver.
  Qed.

  Lemma qdom_to_head q m id : is_Some (m !! id) -> qdom q m -> qdom (q_to_head id q) m.
  Proof.
    intros Hs [H1 H2]. unfold q_to_head. split.
    - constructor; [|by apply NoDup_q_del]. rewrite elem_q_del. naive_solver.
    - intros i. rewrite elem_of_cons, elem_q_del, H2.
      destruct (decide (i = id)) as [->|Hne]; naive_solver.
  Qed.

  Lemma qdom_nonempty q m : qdom q m -> m <> ∅ -> q <> [].
  Proof.
    intros [_ H] Hne ->. apply Hne. apply map_eq. intros i. rewrite lookup_empty.
    destruct (m !! i) eqn:E; [|done].
    assert (i ∈ @nil Z) as Hi by (apply H; eauto). by inversion Hi.
  Qed.

  Lemma qdom_perm q q' m : q ≡ₚ q' -> qdom q m -> qdom q' m.
  Proof.
    intros Hp [H1 H2]. split; [by rewrite <- Hp|]. intros id. by rewrite <- Hp.
  Qed.

  Lemma qdom_snoc_del q m v : qdom (q ++ [v]) m -> qdom q (delete v m).
  Proof.
    intros H. apply (qdom_del _ _ v) in H as H'. destruct H as [H _].
    by rewrite q_del_mid, app_nil_r in H'.
  Qed.

  Lemma qdom_cons_del q m v : qdom (v :: q) m -> qdom q (delete v m).
  Proof.
    intros H. apply (qdom_del _ _ v) in H as H'. destruct H as [H _].
    apply NoDup_cons in H as [H _].
    by rewrite q_del_cons, q_del_notin in H'.
  Qed.
End Qdom.

Lemma qsorted_del key q m id : qsorted key q m -> qsorted key (q_del id q) (delete id m).
Proof.
  intros H. unfold qsorted. eapply StronglySorted_impl; [|by apply StronglySorted_filter].
  intros x y _ _ Hxy ex ey Hx Hy.
  apply lookup_delete_Some in Hx as [_ Hx], Hy as [_ Hy]. eauto.
Qed.

Lemma qsorted_delete key q m id : qsorted key q m -> qsorted key q (delete id m).
Proof.
  intros H. unfold qsorted. eapply StronglySorted_impl; [|done].
  intros x y _ _ Hxy ex ey Hx Hy.
  apply lookup_delete_Some in Hx as [_ Hx], Hy as [_ Hy]. eauto.
Qed.

Lemma StronglySorted_app_l {A} (R : A -> A -> Prop) l1 l2 :
  StronglySorted R (l1 ++ l2) -> StronglySorted R l1.
Proof.
  induction l1 as [|x l1 IH]; intros H; [constructor|]. cbn in H.
  inversion H; subst. constructor; [auto|]. by apply Forall_app in H3 as [? _].
Qed.

Lemma qsorted_snoc_del key q m v : qsorted key (q ++ [v]) m -> qsorted key q (delete v m).
Proof.
  intros H. apply qsorted_delete. by eapply StronglySorted_app_l.
Qed.

Lemma qsorted_cons key q m id e :
  id ∉ q -> (forall i e', m !! i = Some e' -> key e' < key e) ->
  qsorted key q m -> qsorted key (id :: q) (<[id := e]> m).
Proof.
  intros Hq Hmax HS. constructor.
  - eapply StronglySorted_impl; [|exact HS].
    intros x y Hx Hy Hxy ex ey Hmx Hmy.
    rewrite lookup_insert_ne in Hmx by congruence.
    rewrite lookup_insert_ne in Hmy by congruence. eauto.
  - apply Forall_forall. intros y Hy ex ey Hmx Hmy.
    rewrite lookup_insert in Hmx. injection Hmx as <-.
    rewrite lookup_insert_ne in Hmy by congruence. eauto.
Qed.

Lemma qsorted_same_key key q m id e e' :
  m !! id = Some e -> key e' = key e -> qsorted key q m -> qsorted key q (<[id := e']> m).
Proof.
  intros He Hk HS. eapply StronglySorted_impl; [|exact HS].
  intros x y Hx Hy Hxy ex ey Hmx Hmy.
  apply lookup_insert_Some in Hmx as [[<- <-]|[? Hmx]];
  apply lookup_insert_Some in Hmy as [[<- <-]|[? Hmy]]; eauto.
  - pose proof (Hxy _ _ He He). lia.
  - rewrite Hk. eauto.
  - rewrite Hk. eauto.
Qed.

Lemma qsorted_last_min key q m v :
  qdom (q ++ [v]) m -> qsorted key (q ++ [v]) m ->
  forall e id e', m !! v = Some e -> m !! id = Some e' -> key e <= key e'.
Proof.
  intros [Hn Hd] HS e id e' Hv Hid.
  assert (id ∈ q ++ [v]) as Hin by (apply Hd; eauto).
  apply elem_of_app in Hin as [Hin|Hin].
  - pose proof (StronglySorted_snoc_inv _ _ _ _ HS Hin e' e Hid Hv). lia.
  - apply elem_of_list_singleton in Hin as ->. rewrite Hv in Hid. injection Hid as ->. lia.
Qed.

Lemma qsorted_head_max key q m v :
  qdom (v :: q) m -> qsorted key (v :: q) m ->
  forall e id e', m !! v = Some e -> m !! id = Some e' -> key e' <= key e.
Proof.
  intros [Hn Hd] HS e id e' Hv Hid.
  assert (id ∈ v :: q) as Hin by (apply Hd; eauto).
  apply elem_of_cons in Hin as [->|Hin].
  - rewrite Hv in Hid. injection Hid as ->. lia.
  - inversion HS; subst. rewrite Forall_forall in H2.
    pose proof (H2 _ Hin e e' Hv Hid). lia.
Qed.
