(** Facts about the lists of SpecLIRS.v and the invariant of its states. *)
From stdpp Require Import gmap list numbers fin_maps.
From Verif Require Import Base Driver SpecLIRS.
Open Scope Z_scope.

Lemma stat_elem S x t : NoDup S.*1 -> stat_of S x = Some t <-> (x, t) ∈ S.
Proof. intros H. unfold stat_of. symmetry. by apply elem_of_list_to_map. Qed.
Lemma stat_none S x : stat_of S x = None <-> x ∉ S.*1.
Proof. unfold stat_of. symmetry. apply not_elem_of_list_to_map. Qed.
Lemma elem_fst {B} (S : list (Z * B)) x t : (x, t) ∈ S -> x ∈ S.*1.
Proof. intros H. apply elem_of_list_fmap. by exists (x, t). Qed.
Lemma fst_elem {B} (S : list (Z * B)) x : x ∈ S.*1 -> exists t, (x, t) ∈ S.
Proof. intros ([y t] & -> & H)%elem_of_list_fmap. by exists t. Qed.
Lemma nd_fun {B} (S : list (Z * B)) x t u : NoDup S.*1 -> (x, t) ∈ S -> (x, u) ∈ S -> t = u.
Proof.
  induction S as [|[y v] S IH]; cbn; [by intros _ ?%elem_of_nil|].
  intros [Hn Hnd]%NoDup_cons [E1|H1]%elem_of_cons [E2|H2]%elem_of_cons; try congruence.
  - injection E1 as -> ->. by apply elem_fst in H2.
  - injection E2 as -> ->. by apply elem_fst in H1.
  - by apply IH.
Qed.

Lemma i_drop_elem x y l : y ∈ i_drop x l <-> y ∈ l /\ y <> x.
Proof. unfold i_drop. rewrite elem_of_list_filter. tauto. Qed.
Lemma i_drop_nd x l : NoDup l -> NoDup (i_drop x l).
Proof. apply NoDup_filter. Qed.
Lemma i_drop_absent x l : x ∉ l -> i_drop x l = l.
Proof.
  unfold i_drop. induction l as [|y l IH]; [done|]. intros [? ?]%not_elem_of_cons.
  rewrite filter_cons_True by done. by rewrite IH.
Qed.
Lemma s_drop_elem x p S : p ∈ s_drop x S <-> p ∈ S /\ p.1 <> x.
Proof. unfold s_drop. rewrite elem_of_list_filter. tauto. Qed.
Lemma s_drop_ids x S : (s_drop x S).*1 = i_drop x S.*1.
Proof.
  unfold s_drop, i_drop. induction S as [|[y t] S IH]; [done|]. rewrite fmap_cons, !filter_cons. cbn [fst].
  destruct (decide (y <> x)); rewrite ?fmap_cons; cbn [fst]; by rewrite IH.
Qed.
Lemma s_drop_nd x S : NoDup S.*1 -> NoDup (s_drop x S).*1.
Proof. rewrite s_drop_ids. apply i_drop_nd. Qed.
Lemma s_drop_absent x S : x ∉ S.*1 -> s_drop x S = S.
Proof.
  unfold s_drop. induction S as [|[y t] S IH]; [done|]. rewrite fmap_cons. intros [? ?]%not_elem_of_cons.
  rewrite filter_cons_True by (cbn in *; congruence). by rewrite IH.
Qed.
Lemma s_drop_app x S1 S2 : s_drop x (S1 ++ S2) = s_drop x S1 ++ s_drop x S2.
Proof. apply filter_app. Qed.
Lemma s_mark_ids x t S : (s_mark x t S).*1 = S.*1.
Proof.
  unfold s_mark. rewrite <- list_fmap_compose. apply list_fmap_ext. intros i [y u] _. cbn. by destruct (decide (y = x)) as [->|].
Qed.
Lemma s_mark_elem x t S y u : (y, u) ∈ s_mark x t S <-> (y = x /\ u = t /\ x ∈ S.*1) \/ (y <> x /\ (y, u) ∈ S).
Proof.
  unfold s_mark. rewrite elem_of_list_fmap. split.
  - intros ([z v] & E & H). cbn in E. destruct (decide (z = x)) as [->|].
    + injection E as -> ->. left. split; [done|]. split; [done|]. by apply elem_fst in H.
    + injection E as -> ->. by right.
  - intros [(-> & -> & H)|[Hne H]].
    + apply fst_elem in H as [v H]. exists (x, v). cbn. by rewrite decide_True.
    + exists (y, u). cbn. by rewrite decide_False.
Qed.
Lemma s_mark_absent x t S : x ∉ S.*1 -> s_mark x t S = S.
Proof.
  intros H. unfold s_mark. rewrite <- (list_fmap_id S) at 2. apply list_fmap_ext. intros i [y u] Hi. cbn.
  destruct (decide (y = x)) as [->|]; [|done]. exfalso. apply H. apply elem_of_list_lookup_2 in Hi. by apply elem_fst in Hi.
Qed.
Lemma s_mark_app x t S1 S2 : s_mark x t (S1 ++ S2) = s_mark x t S1 ++ s_mark x t S2.
Proof. apply fmap_app. Qed.

Lemma lirs_elem S x : x ∈ lirs_of S <-> (x, LIR) ∈ S.
Proof.
  unfold lirs_of. rewrite elem_of_list_fmap. split.
  - intros ([y t] & -> & [E H]%elem_of_list_filter). cbn in *. by subst.
  - intros H. exists (x, LIR). split; [done|]. by apply elem_of_list_filter.
Qed.
Lemma lirs_app S1 S2 : lirs_of (S1 ++ S2) = lirs_of S1 ++ lirs_of S2.
Proof. unfold lirs_of. by rewrite filter_app, fmap_app. Qed.
Lemma lirs_cons_lir x S : lirs_of ((x, LIR) :: S) = x :: lirs_of S.
Proof. unfold lirs_of. by rewrite filter_cons_True. Qed.
Lemma lirs_cons_other x t S : t <> LIR -> lirs_of ((x, t) :: S) = lirs_of S.
Proof. intros H. unfold lirs_of. by rewrite filter_cons_False. Qed.
Lemma lirs_none S : (forall x, (x, LIR) ∉ S) -> lirs_of S = [].
Proof.
  intros H. destruct (lirs_of S) as [|y l] eqn:E; [done|]. exfalso. apply (H y). apply lirs_elem. rewrite E. by left.
Qed.
Lemma lirs_sub S x : x ∈ lirs_of S -> x ∈ S.*1.
Proof. rewrite lirs_elem. apply elem_fst. Qed.
(** A status change between HIR and NR. *)
Lemma lirs_mark x t S : t <> LIR -> (x, LIR) ∉ S -> lirs_of (s_mark x t S) = lirs_of S.
Proof.
  intros Ht. induction S as [|[y u] S IH]; [done|]. intros [H1 H2]%not_elem_of_cons. cbn [s_mark fmap list_fmap fst].
  fold (s_mark x t S). destruct (decide (y = x)) as [->|].
  - rewrite !lirs_cons_other; [by apply IH|congruence|done].
  - destruct (decide (u = LIR)) as [->|]; [rewrite !lirs_cons_lir|rewrite !lirs_cons_other by done]; by rewrite IH.
Qed.
Lemma lirs_drop x S : (x, LIR) ∉ S -> lirs_of (s_drop x S) = lirs_of S.
Proof.
  unfold s_drop. induction S as [|[y u] S IH]; [done|]. intros [H1 H2]%not_elem_of_cons. rewrite filter_cons. cbn [fst].
  destruct (decide (y <> x)) as [Hy|Hy].
  - destruct (decide (u = LIR)) as [->|]; [rewrite !lirs_cons_lir|rewrite !lirs_cons_other by done]; by rewrite IH.
  - rewrite lirs_cons_other; [by apply IH|]. intros ->. apply H1. f_equal. symmetry. by apply dec_stable.
Qed.

Lemma pruned_nil : pruned [] = [].
Proof. done. Qed.
Lemma pruned_lir S x : pruned (S ++ [(x, LIR)]) = S ++ [(x, LIR)].
Proof. unfold pruned. rewrite reverse_app. change (reverse [(x, LIR)]) with [(x, LIR)]. cbn [app strip].
  rewrite decide_True by done. by rewrite reverse_cons, reverse_involutive. Qed.
Lemma pruned_other S x t : t <> LIR -> pruned (S ++ [(x, t)]) = pruned S.
Proof. intros H. unfold pruned. rewrite reverse_app. change (reverse [(x, t)]) with [(x, t)]. cbn [app strip]. by rewrite decide_False. Qed.
Lemma pruned_split S : exists S2, S = pruned S ++ S2 /\ (forall x, (x, LIR) ∉ S2) /\
  (pruned S = [] \/ exists S1 y, pruned S = S1 ++ [(y, LIR)]).
Proof.
  induction S as [|[x t] S IH] using rev_ind.
  - exists []. split; [done|]. split; [|by left]. intros x. apply not_elem_of_nil.
  - destruct (decide (t = LIR)) as [->|Ht].
    + exists []. rewrite pruned_lir, app_nil_r. split; [done|]. split; [intros y; apply not_elem_of_nil|]. right. by exists S, x.
    + rewrite pruned_other by done. destruct IH as (S2 & E & H1 & H2). exists (S2 ++ [(x, t)]).
      split; [by rewrite app_assoc, <- E|]. split; [|done]. intros y [H|H]%elem_of_app; [by apply H1 in H|].
      apply elem_of_list_singleton in H. congruence.
Qed.
Lemma pruned_elem S p : p ∈ pruned S -> p ∈ S.
Proof. destruct (pruned_split S) as (S2 & E & _). intros H. rewrite E. apply elem_of_app. by left. Qed.
Lemma pruned_ids S x : x ∈ (pruned S).*1 -> x ∈ S.*1.
Proof. intros [t H]%fst_elem. apply pruned_elem in H. by apply elem_fst in H. Qed.
Lemma pruned_lirs S : lirs_of (pruned S) = lirs_of S.
Proof.
  destruct (pruned_split S) as (S2 & E & H1 & _). rewrite E at 2. rewrite lirs_app, (lirs_none S2 H1). by rewrite app_nil_r.
Qed.
Lemma pruned_nd S : NoDup S.*1 -> NoDup (pruned S).*1.
Proof.
  destruct (pruned_split S) as (S2 & E & _). rewrite E at 1. rewrite fmap_app. by intros [? _]%NoDup_app.
Qed.
Lemma pruned_cons p S y : (y, LIR) ∈ S -> pruned (p :: S) = p :: pruned S.
Proof.
  induction S as [|[x t] S IH] using rev_ind; [by intros ?%elem_of_nil|]. intros [H|H]%elem_of_app.
  - destruct (decide (t = LIR)) as [->|Ht].
    + rewrite app_comm_cons, !pruned_lir. done.
    + rewrite app_comm_cons, !pruned_other by done. by apply IH.
  - apply elem_of_list_singleton in H. injection H as <- <-. by rewrite app_comm_cons, !pruned_lir.
Qed.

Section Facts.
  Context (sz : Z -> Z) (cap h : Z).
  Notation sum := (sum sz).
  Notation lir_bytes := (lir_bytes sz).
  Notation hir_bytes := (hir_bytes sz).

  Definition good (x : Z) : Prop := 0 <= sz x <= h.

  Lemma sum_app l1 l2 : sum (l1 ++ l2) = sum l1 + sum l2.
  Proof. unfold sum, SpecLIRS.sum. induction l1 as [|x l1 IH]; cbn in *; lia. Qed.
  Lemma sum_cons x l : sum (x :: l) = sz x + sum l.
  Proof. done. Qed.
  Lemma sum_nonneg l : Forall good l -> 0 <= sum l.
  Proof. unfold sum, SpecLIRS.sum. induction 1 as [|x l [? _] _ IH]; cbn; lia. Qed.
  Lemma sum_drop x l : NoDup l -> x ∈ l -> sum (i_drop x l) = sum l - sz x.
  Proof.
    unfold i_drop. induction l as [|y l IH]; [by intros _ ?%elem_of_nil|]. intros [Hy Hnd]%NoDup_cons [->|H]%elem_of_cons.
    - rewrite filter_cons_False by tauto. fold (i_drop y l). rewrite (i_drop_absent y l Hy), sum_cons. lia.
    - rewrite filter_cons_True by congruence. rewrite !sum_cons, IH by done. lia.
  Qed.

  (** [e]: an object on top of S between two states, not LIR and not in Q. *)
  Record iinv (e : option (Z * stat)) (a : ispec) : Prop := {
    ii_s : NoDup (is_s a).*1;
    ii_q : NoDup (is_q a);
    ii_nh : NoDup (is_nh a);
    ii_hir : forall x, (x, HIR) ∈ is_s a -> x ∈ is_q a \/ e = Some (x, HIR);
    ii_e : forall x t, e = Some (x, t) -> t <> LIR /\ x ∉ is_q a /\ exists S, is_s a = (x, t) :: S;
    ii_stat : forall x t, x ∈ is_q a -> (x, t) ∈ is_s a -> t = HIR;
    ii_nr : forall x, x ∈ is_nh a <-> (x, NR) ∈ is_s a;
    ii_good : Forall good ((is_s a).*1 ++ is_q a);
    ii_lb : lir_bytes a <= cap - h;
    ii_hb : hir_bytes a <= h }.

  (** The bottom of S is LIR; S is empty only when Q is. *)
  Definition bottom (a : ispec) : Prop := (is_s a = [] /\ is_q a = []) \/ exists S y, is_s a = S ++ [(y, LIR)].

  Lemma good_s e a x t : iinv e a -> (x, t) ∈ is_s a -> good x.
  Proof. intros H Hx. pose proof (ii_good _ _ H) as G. rewrite Forall_app, !Forall_forall in G. apply (proj1 G). by apply elem_fst in Hx. Qed.
  Lemma good_q e a x : iinv e a -> x ∈ is_q a -> good x.
  Proof. intros H Hx. pose proof (ii_good _ _ H) as G. rewrite Forall_app, !Forall_forall in G. by apply (proj2 G). Qed.

  Lemma push_out_inv e a : iinv e a -> iinv e (push_out a).
  Proof.
    intros H. unfold push_out. destruct (is_q a) as [|v0 q0] eqn:Eq0; [done|].
    assert (exists q v, is_q a = q ++ [v]) as (q & v & Eq).
    { rewrite Eq0. destruct (exists_last (l := v0 :: q0)) as (q & v & ->); [done|]. eauto. }
    rewrite <- Eq0, Eq, last_snoc, removelast_last.
    destruct H as [Hs Hq Hnh Hhir He Hst Hnr Hg Hlb Hhb]. rewrite Eq in *.
    apply NoDup_app in Hq as (Hq1 & Hq2 & _).
    assert (Hvq : v ∉ q) by (intros Hv; apply (Hq2 v Hv); by left).
    assert (Hv : v ∈ q ++ [v]) by (apply elem_of_app; right; by left).
    assert (Hsub : forall x, x ∈ q -> x ∈ q ++ [v]) by (intros; apply elem_of_app; by left).
    assert (Hg' : Forall good ((is_s a).*1 ++ q)).
    { rewrite Forall_app in *. destruct Hg as [G1 G2]. split; [done|]. apply Forall_app in G2. tauto. }
    assert (Hhb' : sum q <= h).
    { unfold SpecLIRS.hir_bytes in Hhb. rewrite Eq, sum_app, sum_cons in Hhb.
      rewrite !Forall_app, Forall_singleton in Hg. destruct Hg as (_ & _ & [? _]). change (sum []) with 0 in Hhb. lia. }
    destruct (stat_of (is_s a) v) as [t|] eqn:Et.
    - apply stat_elem in Et; [|done]. assert (t = HIR) as -> by (by apply (Hst v)).
      assert (Hnl : (v, LIR) ∉ is_s a) by (intros C; by apply (Hst v) in C).
      split; cbn [is_s is_q is_nh].
      + by rewrite s_mark_ids.
      + done.
      + apply NoDup_cons. split; [|done]. intros C. apply Hnr in C. by apply (Hst v) in C.
      + intros x [(_ & ? & _)|[Hne Hx]]%s_mark_elem; [done|]. destruct (Hhir x Hx) as [Hi|]; [|by right]. left.
        apply elem_of_app in Hi as [|Hi]; [done|]. by apply elem_of_list_singleton in Hi.
      + intros x t Ex. destruct (He x t Ex) as (Ht & Hx & S & ES). split; [done|]. split; [auto|].
        exists (s_mark v NR S). rewrite ES. cbn. rewrite decide_False; [done|]. by intros ->.
      + intros x t Hx [(-> & _)|[_ Hx2]]%s_mark_elem; [done|]. apply (Hst x t); auto.
      + intros x. rewrite elem_of_cons, s_mark_elem, Hnr. split.
        * intros [->|Hx]; [left; split; [done|]; split; [done|]; by apply elem_fst in Et|].
          destruct (decide (x = v)) as [->|]; [|by right]. by apply (Hst v) in Hx.
        * intros [(-> & _)|[_ Hx]]; [by left|by right].
      + by rewrite s_mark_ids.
      + unfold SpecLIRS.lir_bytes. cbn [is_s]. by rewrite lirs_mark.
      + exact Hhb'.
    - apply stat_none in Et. split; cbn [is_s is_q is_nh]; try done.
      + intros x Hx. destruct (Hhir x Hx) as [Hi|]; [|by right]. left.
        apply elem_of_app in Hi as [|Hi]; [done|]. apply elem_of_list_singleton in Hi as ->. by apply elem_fst in Hx.
      + intros x t Ex. destruct (He x t Ex) as (Ht & Hx & S & ES). split; [done|]. split; [auto|]. by exists S.
      + intros x t Hx. apply Hst. auto.
  Qed.

  Lemma push_out_keep a : (push_out a).(is_s).*1 = (is_s a).*1 /\ is_adm (push_out a) = is_adm a /\
    is_q (push_out a) = removelast (is_q a).
  Proof.
    unfold push_out. destruct (last (is_q a)) as [v|] eqn:E; [destruct (stat_of _ _); cbn [is_s is_q is_adm]; by rewrite ?s_mark_ids|].
    apply last_None in E. by rewrite E.
  Qed.

  Lemma push_out_lirs e a : iinv e a -> lirs_of (is_s (push_out a)) = lirs_of (is_s a).
  Proof.
    intros H. unfold push_out. destruct (last (is_q a)) as [v|] eqn:E; [|done].
    destruct (stat_of (is_s a) v); [|done]. cbn [is_s]. apply lirs_mark; [done|]. intros C.
    apply (ii_stat _ _ H) in C; [done|]. rewrite last_Some in E. destruct E as [q ->]. apply elem_of_app. right. by left.
  Qed.

  Lemma room_q_inv e n : forall need a, iinv e a -> iinv e (room_q sz h n need a).
  Proof.
    induction n as [|n IH]; intros need a H; cbn; destruct (decide _); try done. apply IH. by apply push_out_inv.
  Qed.
  Lemma room_q_keep n : forall need a, (is_s (room_q sz h n need a)).*1 = (is_s a).*1 /\ is_adm (room_q sz h n need a) = is_adm a /\
    exists q, is_q a = is_q (room_q sz h n need a) ++ q.
  Proof.
    induction n as [|n IH]; intros need a; cbn; destruct (decide _).
    1,2,4: split; [done|]; split; [done|]; exists []; by rewrite app_nil_r.
    destruct (IH need (push_out a)) as (E1 & E2 & q & E3). destruct (push_out_keep a) as (F1 & F2 & F3).
    rewrite E1, E2, F1, F2. split; [done|]. split; [done|]. rewrite F3 in E3.
    destruct (is_q a) as [|v0 q0] eqn:Eq0; [exists []; by destruct (is_q (room_q _ _ _ _ _)), q|].
    destruct (exists_last (l := v0 :: q0)) as (q1 & v & E); [done|]. rewrite E in *. rewrite removelast_last in E3.
    exists (q ++ [v]). by rewrite E3, app_assoc.
  Qed.
  Lemma room_q_lirs e n : forall need a, iinv e a -> lirs_of (is_s (room_q sz h n need a)) = lirs_of (is_s a).
  Proof.
    induction n as [|n IH]; intros need a H; cbn; destruct (decide _); try done.
    rewrite IH by (by apply push_out_inv). by apply (push_out_lirs e).
  Qed.
  Lemma room_q_fits n : forall need a, (length (is_q a) <= n)%nat -> need <= h -> hir_bytes (room_q sz h n need a) + need <= h.
  Proof.
    induction n as [|n IH]; intros need a Hn Hd; cbn; destruct (decide _) as [Hgt|]; try lia.
    - destruct (is_q a) as [|v q] eqn:E; [|cbn in Hn; lia]. unfold SpecLIRS.hir_bytes in *. rewrite E in *. cbn in *. lia.
    - apply IH; [|done]. rewrite (proj2 (proj2 (push_out_keep a))).
      destruct (is_q a) as [|v0 q0] eqn:Eq0; [cbn; lia|].
      destruct (exists_last (l := v0 :: q0)) as (q1 & v & E); [done|]. rewrite E in *. rewrite removelast_last. rewrite app_length in Hn. cbn in Hn. lia.
  Qed.

  Lemma prune_inv e a y : iinv e a -> (y, LIR) ∈ is_s a ->
    iinv e (i_prune a) /\ bottom (i_prune a).
  Proof.
    intros H Hy. destruct H as [Hs Hq Hnh Hhir He Hst Hnr Hg Hlb Hhb].
    unfold i_prune. split.
    - split; cbn [is_s is_q is_nh]; try done.
      + by apply pruned_nd.
      + by apply NoDup_filter.
      + intros x Hx. apply Hhir. by apply pruned_elem.
      + intros x t Ex. destruct (He x t Ex) as (Ht & Hx & S & ES). split; [done|]. split; [done|].
        rewrite ES in *. exists (pruned S). apply (pruned_cons _ _ y).
        apply elem_of_cons in Hy as [Hy|]; [|done]. congruence.
      + intros x t Hx Ht. apply (Hst x t); [done|]. by apply pruned_elem.
      + intros x. rewrite elem_of_list_filter, Hnr. split.
        * intros [[t Ht]%fst_elem Hx]. assert (t = NR) as ->; [|done]. apply (nd_fun (is_s a) x); [done| |done]. by apply pruned_elem.
        * intros Hx. split; [by apply elem_fst in Hx|by apply pruned_elem].
      + rewrite !Forall_app, !Forall_forall in *. destruct Hg as [G1 G2]. split; [|done]. intros x Hx. by apply G1, pruned_ids.
      + unfold SpecLIRS.lir_bytes. cbn [is_s]. by rewrite pruned_lirs.
    - destruct (pruned_split (is_s a)) as (S2 & E & N2 & [B|B]); [|by right]. exfalso.
      rewrite B in E. rewrite E in Hy. by apply N2 in Hy.
  Qed.

  Lemma iinv_prune_nil a x : iinv None (mkIS (s_drop x (is_s a)) (is_q a) (is_nh a) (is_adm a)) -> is_s a = [(x, LIR)] ->
    iinv None (i_prune (mkIS (s_drop x (is_s a)) (is_q a) (is_nh a) (is_adm a))) /\ is_nh a = [].
  Proof.
    intros H E. rewrite E in *. unfold s_drop in *. rewrite filter_cons_False in * by (cbn; tauto).
    change (filter (fun p : Z * stat => p.1 <> x) []) with (@nil (Z * stat)) in *.
    assert (En : is_nh a = []).
    { pose proof (ii_nr _ _ H) as Hn. cbn [is_nh is_s] in Hn. destruct (is_nh a) as [|v l]; [done|].
      assert (C : (v, NR) ∈ @nil (Z * stat)) by (apply Hn; by left). by apply elem_of_nil in C. }
    split; [|done]. unfold i_prune. cbn [is_s is_q is_nh is_adm]. rewrite En in *. done.
  Qed.

  (** S without its bottom. *)
  Lemma cut_inv e a S y : is_s a = S ++ [(y, LIR)] -> iinv e a ->
    iinv e (mkIS S (is_q a) (is_nh a) (is_adm a)) /\ y ∉ S.*1 /\ y ∉ is_q a /\ good y.
  Proof.
    intros E H. assert (Hy : (y, LIR) ∈ is_s a) by (rewrite E; apply elem_of_app; right; by left).
    pose proof (good_s _ _ _ _ H Hy) as Gy.
    destruct H as [Hs Hq Hnh Hhir He Hst Hnr Hg Hlb Hhb]. rewrite E in *.
    assert (Hsub : forall p, p ∈ S -> p ∈ S ++ [(y, LIR)]) by (intros; apply elem_of_app; by left).
    rewrite fmap_app in Hs, Hg. apply NoDup_app in Hs as (Hs1 & Hs2 & _).
    assert (HyS : y ∉ S.*1) by (intros C; apply (Hs2 y C); by left).
    assert (HyQ : y ∉ is_q a) by (intros C; by apply (Hst y _ C) in Hy).
    split; [|done]. split; cbn [is_s is_q is_nh]; try done; auto.
    - intros x t Ex. destruct (He x t Ex) as (Ht & Hx & S' & ES). split; [done|]. split; [done|].
      destruct S as [|p S0]; cbn in ES; [congruence|]. injection ES as -> _. by exists S0.
    - intros x t Hx Ht. by apply (Hst x t), Hsub.
    - intros x. rewrite Hnr, elem_of_app, elem_of_list_singleton. split; [intros [?|?]; congruence|tauto].
    - rewrite !Forall_app in *. tauto.
    - unfold SpecLIRS.lir_bytes in *. cbn [is_s]. rewrite E, lirs_app, sum_app in Hlb.
      change (lirs_of [(y, LIR)]) with [y] in Hlb. rewrite sum_cons in Hlb. change (sum []) with 0 in Hlb. destruct Gy. lia.
  Qed.

  Lemma demote_inv e a S y : is_s a = S ++ [(y, LIR)] -> iinv e a -> lirs_of S <> [] ->
    iinv e (demote sz h a) /\ bottom (demote sz h a) /\
    lir_bytes (demote sz h a) = lir_bytes a - sz y /\ is_adm (demote sz h a) = is_adm a /\
    (length (is_s (demote sz h a)) < length (is_s a))%nat.
  Proof.
    intros E H Hne. destruct (cut_inv e a S y E H) as (H1 & HyS & HyQ & Gy).
    unfold demote. rewrite E, last_snoc, removelast_last. cbn [is_q].
    set (a1 := mkIS S (is_q a) (is_nh a) (is_adm a)) in *.
    set (a2 := room_q sz h (length (is_q a)) (sz y) a1).
    assert (H2 : iinv e a2) by (by apply room_q_inv).
    destruct (room_q_keep (length (is_q a)) (sz y) a1) as (K1 & K2 & q & K3). fold a2 in K1, K2, K3. cbn [a1 is_s is_adm is_q] in K1, K2, K3.
    assert (K4 : lirs_of (is_s a2) = lirs_of S) by (by apply (room_q_lirs e)).
    assert (K5 : hir_bytes a2 + sz y <= h) by (apply room_q_fits; [done|by destruct Gy]).
    assert (HyQ2 : y ∉ is_q a2) by (intros C; apply HyQ; rewrite K3; apply elem_of_app; by left).
    set (a3 := mkIS (is_s a2) (y :: is_q a2) (is_nh a2) (is_adm a2)).
    assert (H3 : iinv e a3).
    { destruct H2 as [Hs Hq Hnh Hhir He Hst Hnr Hg Hlb Hhb]. unfold a3. split; cbn [is_s is_q is_nh]; try done.
      - by apply NoDup_cons.
      - intros x Hx. destruct (Hhir x Hx); [left; by right|by right].
      - intros x t Ex. destruct (He x t Ex) as (Ht & Hx & S' & ES). split; [done|]. split; [|by exists S'].
        apply not_elem_of_cons. split; [|done]. intros ->. apply HyS. rewrite <- K1, ES. by left.
      - intros x t [->|Hx]%elem_of_cons Ht; [|by apply (Hst x t)]. exfalso. apply HyS. rewrite <- K1. by apply elem_fst in Ht.
      - rewrite !Forall_app, Forall_cons in *. tauto.
      - unfold SpecLIRS.hir_bytes in *. cbn [is_q]. rewrite sum_cons. lia. }
    destruct (lirs_of S) as [|z l] eqn:El; [done|].
    destruct (prune_inv e a3 z H3) as [H4 B4].
    { cbn [a3 is_s]. apply lirs_elem. rewrite K4. by left. }
    split; [exact H4|]. split; [exact B4|]. split; [|split].
    - unfold SpecLIRS.lir_bytes, i_prune. cbn [is_s a3]. rewrite pruned_lirs, K4, E, lirs_app, El, sum_app.
      change (lirs_of [(y, LIR)]) with [y]. rewrite !sum_cons. change (sum []) with 0. lia.
    - done.
    - unfold i_prune. cbn [is_s a3]. destruct (pruned_split (is_s a2)) as (S2 & ES & _).
      assert (length (is_s a2) = length S) as EL by (rewrite <- (fmap_length fst), K1; by rewrite fmap_length).
      rewrite ES, app_length in EL. rewrite app_length. cbn. lia.
  Qed.

  Context (Hh : 2 * h <= cap) (Hr : roomy sz h).

  Lemma two_fit x y : good x -> good y -> sz x + sz y <= cap - h.
  Proof using Hh Hr.
    intros Gx Gy. destruct (decide (0 < sz x)) as [Hx|].
    - pose proof (Hr x y [] Gx Gy (Forall_nil_2 _)) as Q. change (sum []) with 0 in Q. lia.
    - destruct Gx, Gy. lia.
  Qed.

  Lemma room_step e a x : iinv e a -> bottom a -> good x -> lir_bytes a + sz x > cap - h ->
    exists S y, is_s a = S ++ [(y, LIR)] /\ good y /\ lirs_of S <> [].
  Proof using Hh Hr.
    intros H B Gx Hgt. assert (0 < lir_bytes a) by (pose proof (two_fit x x Gx Gx); destruct Gx; lia).
    destruct B as [[E _]|(S & y & E)].
    - unfold SpecLIRS.lir_bytes in *. rewrite E in *. change (sum (lirs_of [])) with 0 in *. lia.
    - exists S, y. split; [done|]. destruct (cut_inv e a S y E H) as (_ & _ & _ & Gy). split; [done|].
      intros El. unfold SpecLIRS.lir_bytes in Hgt. rewrite E, lirs_app, El in Hgt.
      change (sum ([] ++ lirs_of [(y, LIR)])) with (sz y + 0) in Hgt. pose proof (two_fit x y Gx Gy). lia.
  Qed.

  Lemma room_l_inv e x n : forall a, iinv e a -> bottom a -> good x ->
    iinv e (room_l sz cap h n (sz x) a) /\ bottom (room_l sz cap h n (sz x) a) /\
    is_adm (room_l sz cap h n (sz x) a) = is_adm a /\
    ((length (is_s a) <= n)%nat -> lir_bytes (room_l sz cap h n (sz x) a) + sz x <= cap - h).
  Proof using Hh Hr.
    induction n as [|n IH]; intros a H B Gx; cbn; destruct (decide _) as [Hgt|Hle].
    - split; [done|]. split; [done|]. split; [done|]. intros Hl.
      destruct (room_step e a x H B Gx Hgt) as (S & y & E & _). rewrite E, app_length in Hl. cbn in Hl. lia.
    - split; [done|]. split; [done|]. split; [done|]. lia.
    - destruct (room_step e a x H B Gx Hgt) as (S & y & E & Gy & Hne).
      destruct (demote_inv e a S y E H Hne) as (H1 & B1 & _ & A1 & L1).
      destruct (IH _ H1 B1 Gx) as (H2 & B2 & A2 & L2). split; [done|]. split; [done|]. split; [congruence|]. intros ?. apply L2. lia.
    - split; [done|]. split; [done|]. split; [done|]. lia.
  Qed.

  (** The object that was hit in Q stays there. *)
  Lemma room_q_held need ys x n : forall a rest, is_q a = ys ++ x :: rest -> sum ys + sz x + need <= h ->
    exists rest', is_q (room_q sz h n need a) = ys ++ x :: rest'.
  Proof.
    induction n as [|n IH]; intros a rest E Hf; cbn; destruct (decide _) as [Hgt|]; try by exists rest.
    destruct rest as [|v0 r0].
    { unfold SpecLIRS.hir_bytes in Hgt. rewrite E, sum_app, sum_cons in Hgt. change (sum []) with 0 in Hgt. lia. }
    destruct (exists_last (l := v0 :: r0)) as (r1 & v & Er); [done|].
    apply (IH _ r1); [|done]. rewrite (proj2 (proj2 (push_out_keep a))), E, Er, app_comm_cons, app_assoc, removelast_last.
    done.
  Qed.

  Definition held (x L : Z) (a : ispec) : Prop :=
    x ∉ (is_s a).*1 /\ exists ys rest, is_q a = ys ++ x :: rest /\ sum ys + lir_bytes a = L.

  Lemma demote_held e a S y x L : is_s a = S ++ [(y, LIR)] -> iinv e a -> lirs_of S <> [] -> good x ->
    held x L a -> L <= cap - h -> lir_bytes a + sz x > cap - h -> held x L (demote sz h a).
  Proof using Hh Hr.
    intros E H Hne Gx (Hx & ys & rest & EQ & EL) HL Hgt.
    destruct (cut_inv e a S y E H) as (H1 & HyS & HyQ & Gy).
    destruct (demote_inv e a S y E H Hne) as (_ & _ & Elb & _ & _).
    assert (Gys : Forall good ys).
    { pose proof (ii_good _ _ H) as G. rewrite EQ, !Forall_app in G. tauto. }
    assert (Hf : sum ys + sz x + sz y <= h) by (pose proof (Hr x y ys Gx Gy Gys); lia).
    unfold demote in *. rewrite E, last_snoc, removelast_last in *. cbn [is_q] in *.
    set (a1 := mkIS S (is_q a) (is_nh a) (is_adm a)) in *.
    set (a2 := room_q sz h (length (is_q a)) (sz y) a1) in *.
    destruct (room_q_keep (length (is_q a)) (sz y) a1) as (K1 & _). fold a2 in K1. cbn [a1 is_s] in K1.
    destruct (room_q_held (sz y) ys x (length (is_q a)) a1 rest EQ Hf) as [rest' ER]. fold a2 in ER.
    split.
    - unfold i_prune. cbn [is_s]. intros C. apply pruned_ids in C. rewrite K1 in C. apply Hx. rewrite fmap_app. apply elem_of_app. by left.
    - exists (y :: ys), rest'. unfold i_prune at 1. cbn [is_q]. split; [by rewrite ER|]. rewrite Elb, sum_cons. lia.
  Qed.

  Lemma room_l_held e x L n : forall a, iinv e a -> bottom a -> good x -> held x L a -> L <= cap - h ->
    held x L (room_l sz cap h n (sz x) a).
  Proof using Hh Hr.
    induction n as [|n IH]; intros a H B Gx Hd HL; cbn; destruct (decide _) as [Hgt|Hle]; try done.
    destruct (room_step e a x H B Gx Hgt) as (S & y & E & Gy & Hne).
    destruct (demote_inv e a S y E H Hne) as (H1 & B1 & _). apply IH; try done.
    apply (demote_held e a S y); auto.
  Qed.

  (** An object moves to the top of S. *)
  Lemma lirs_drop_lir x S : NoDup S.*1 -> lirs_of (s_drop x S) = i_drop x (lirs_of S).
  Proof.
    induction S as [|[y u] S IH]; [done|]. rewrite fmap_cons. intros [Hy Hnd]%NoDup_cons. cbn [fst] in Hy. unfold s_drop in *. rewrite filter_cons. cbn [fst].
    unfold i_drop in *. destruct (decide (y <> x)) as [Hne|He].
    - destruct (decide (u = LIR)) as [->|]; [rewrite !lirs_cons_lir, filter_cons_True by done|rewrite !lirs_cons_other by done]; by rewrite IH.
    - destruct (decide (u = LIR)) as [->|]; [rewrite !lirs_cons_lir, filter_cons_False by done|rewrite !lirs_cons_other by done]; by rewrite IH.
  Qed.
  Lemma lirs_nd S : NoDup S.*1 -> NoDup (lirs_of S).
  Proof. intros H. unfold lirs_of. induction S as [|[y u] S IH]; [constructor|]. rewrite fmap_cons in H. apply NoDup_cons in H as [Hy Hnd]. cbn [fst] in Hy.
    rewrite filter_cons. cbn [snd]. destruct (decide (u = LIR)); [|by apply IH]. rewrite fmap_cons. apply NoDup_cons. split; [|by apply IH].
    intros C. apply Hy. change (y ∈ lirs_of S) in C. by apply lirs_sub. Qed.
  Lemma bump_elem x t S p : NoDup S.*1 -> (x, t) ∈ S -> p ∈ (x, t) :: s_drop x S <-> p ∈ S.
  Proof.
    intros Hnd Hx. rewrite elem_of_cons, s_drop_elem. split.
    - intros [->|[? _]]; done.
    - intros Hp. destruct p as [y u]. destruct (decide (y = x)) as [->|]; [left|by right]. f_equal. by apply (nd_fun S x).
  Qed.
  Lemma bump_nd x t S : NoDup S.*1 -> NoDup ((x, t) :: s_drop x S).*1.
  Proof.
    intros H. rewrite fmap_cons. cbn [fst]. apply NoDup_cons. split; [|by apply s_drop_nd]. rewrite s_drop_ids, i_drop_elem. tauto.
  Qed.
  Lemma bump_lb x t S : NoDup S.*1 -> (x, t) ∈ S -> sum (lirs_of ((x, t) :: s_drop x S)) = sum (lirs_of S).
  Proof.
    intros H Hx. destruct (decide (t = LIR)) as [->|Ht].
    - rewrite lirs_cons_lir, lirs_drop_lir by done. rewrite sum_cons, sum_drop; [lia|by apply lirs_nd|by apply lirs_elem].
    - rewrite lirs_cons_other by done. f_equal. apply lirs_drop. intros C. apply Ht. by apply (nd_fun S x).
  Qed.
  Lemma bump_inv x t a : iinv None a -> (x, t) ∈ is_s a ->
    iinv None (mkIS ((x, t) :: s_drop x (is_s a)) (is_q a) (is_nh a) (is_adm a)).
  Proof.
    intros [Hs Hq Hnh Hhir He Hst Hnr Hg Hlb Hhb] Hx.
    split; cbn [is_s is_q is_nh]; try done.
    - by apply bump_nd.
    - intros y Hy. apply Hhir. by apply bump_elem in Hy.
    - intros y u Hy Hu. apply (Hst y u); [done|]. by apply bump_elem in Hu.
    - intros y. rewrite Hnr. symmetry. by apply bump_elem.
    - rewrite Forall_app, !Forall_forall in *. destruct Hg as [G1 G2]. split; [|done]. intros y [u Hu]%fst_elem.
      apply bump_elem in Hu; [|done|done]. apply elem_fst in Hu. by apply G1.
    - unfold SpecLIRS.lir_bytes. cbn [is_s]. by rewrite bump_lb.
  Qed.
  Lemma bump_bottom x t a q nh adm : t <> LIR -> (x, t) ∈ is_s a -> NoDup (is_s a).*1 -> bottom a ->
    bottom (mkIS ((x, t) :: s_drop x (is_s a)) q nh adm).
  Proof.
    intros Ht Hx Hnd [[E _]|(S & y & E)]; rewrite E in *; [by apply elem_of_nil in Hx|]. right. cbn [is_s].
    exists ((x, t) :: s_drop x S), y. rewrite s_drop_app, <- app_comm_cons. f_equal. f_equal. unfold s_drop. rewrite filter_cons_True; [done|]. cbn. intros ->.
    apply Ht. apply (nd_fun (S ++ [(x, LIR)]) x); [done|done|]. apply elem_of_app. right. by left.
  Qed.

  (** The object on top of S becomes LIR. *)
  Lemma mark_inv x t a : iinv (Some (x, t)) a -> bottom a -> lir_bytes a + sz x <= cap - h ->
    iinv None (mkIS (s_mark x LIR (is_s a)) (is_q a) (i_drop x (is_nh a)) (is_adm a)) /\
    bottom (mkIS (s_mark x LIR (is_s a)) (is_q a) (i_drop x (is_nh a)) (is_adm a)) /\
    exists S, is_s a = (x, t) :: S /\ s_mark x LIR (is_s a) = (x, LIR) :: S.
  Proof.
    intros [Hs Hq Hnh Hhir He Hst Hnr Hg Hlb Hhb] B Hr1.
    destruct (He x t eq_refl) as (Ht & HxQ & S & ES).
    assert (EM : s_mark x LIR (is_s a) = (x, LIR) :: S).
    { rewrite ES. cbn [s_mark fmap list_fmap fst]. rewrite decide_True by done. f_equal. apply s_mark_absent.
      rewrite ES in Hs. apply NoDup_cons in Hs. tauto. }
    split; [|split; [|by exists S]].
    - split; cbn [is_s is_q is_nh]; try done.
      + by rewrite s_mark_ids.
      + by apply i_drop_nd.
      + intros y [(_ & ? & _)|[Hne Hy]]%s_mark_elem; [done|]. destruct (Hhir y Hy) as [|Ey]; [by left|congruence].
      + intros y u Hy [(-> & _)|[_ Hu]]%s_mark_elem; [done|]. by apply (Hst y u).
      + intros y. rewrite i_drop_elem, s_mark_elem, Hnr. split; [intros [? ?]; by right|]. intros [(_ & ? & _)|[? ?]]; done.
      + by rewrite s_mark_ids.
      + unfold SpecLIRS.lir_bytes in *. cbn [is_s]. rewrite EM, lirs_cons_lir, sum_cons. rewrite ES, lirs_cons_other in Hr1 by done. lia.
    - destruct B as [[E _]|(S' & y & E)]; [congruence|]. right. cbn [is_s]. rewrite EM.
      rewrite ES in E. destruct S' as [|p S']; cbn in E; [congruence|]. injection E as _ E2. rewrite E2. by exists ((x, LIR) :: S'), y.
  Qed.

  Lemma nr_top x t a : iinv None a -> t <> LIR -> x ∉ is_q a -> (exists S, is_s a = (x, t) :: S) -> iinv (Some (x, t)) a.
  Proof.
    intros [Hs Hq Hnh Hhir He Hst Hnr Hg Hlb Hhb] Ht Hx HS. split; try done.
    - intros y Hy. left. by destruct (Hhir y Hy).
    - intros y u [= <- <-]. done.
  Qed.

  Lemma add_inv x a : iinv None a -> bottom a -> good x -> x ∉ is_q a ->
    (stat_of (is_s a) x = None \/ exists S, is_s a = (x, NR) :: S) ->
    iinv None (i_add sz cap h a x) /\ bottom (i_add sz cap h a x) /\ is_adm (i_add sz cap h a x) = is_adm a.
  Proof using Hh Hr.
    intros H B Gx HxQ HS. unfold i_add. destruct HS as [En|[S ES]].
    - rewrite En. apply stat_none in En. destruct (decide _) as [Hle|Hgt].
      + split; [|split; [|done]].
        * destruct H as [Hs Hq Hnh Hhir He Hst Hnr Hg Hlb Hhb]. split; cbn [is_s is_q is_nh]; try done.
          -- rewrite fmap_cons. by apply NoDup_cons.
          -- intros y [?|Hy]%elem_of_cons; [done|by apply Hhir].
          -- intros y u Hy [E|Hu]%elem_of_cons; [congruence|by apply (Hst y)].
          -- intros y. rewrite Hnr, elem_of_cons. split; [by right|]. by intros [?|?].
          -- rewrite fmap_cons. cbn [app]. by apply Forall_cons.
          -- unfold SpecLIRS.lir_bytes in *. cbn [is_s]. rewrite lirs_cons_lir, sum_cons. lia.
        * right. cbn [is_s]. destruct B as [[E _]|(S & y & E)]; rewrite E; [by exists [], x|by exists ((x, LIR) :: S), y].
      + set (a2 := room_q sz h (length (is_q a)) (sz x) a).
        assert (H2 : iinv None a2) by (by apply room_q_inv).
        destruct (room_q_keep (length (is_q a)) (sz x) a) as (K1 & K2 & q & K3). fold a2 in K1, K2, K3.
        assert (K4 : lirs_of (is_s a2) = lirs_of (is_s a)) by (by apply (room_q_lirs None)).
        assert (K5 : hir_bytes a2 + sz x <= h) by (apply room_q_fits; [done|by destruct Gx]).
        assert (HxQ2 : x ∉ is_q a2) by (intros C; apply HxQ; rewrite K3; apply elem_of_app; by left).
        assert (HxS2 : x ∉ (is_s a2).*1) by (by rewrite K1).
        split; [|split; [|done]].
        * destruct H2 as [Hs Hq Hnh Hhir He Hst Hnr Hg Hlb Hhb]. split; cbn [is_s is_q is_nh]; try done.
          -- rewrite fmap_cons. by apply NoDup_cons.
          -- by apply NoDup_cons.
          -- intros y [E|Hy]%elem_of_cons; left; [injection E as ->; by left|]. destruct (Hhir y Hy); [by right|done].
          -- intros y u [->|Hy]%elem_of_cons [E|Hu]%elem_of_cons; [congruence|by apply elem_fst in Hu|congruence|by apply (Hst y)].
          -- intros y. rewrite Hnr, elem_of_cons. split; [by right|]. by intros [?|?].
          -- rewrite fmap_cons, !Forall_app, !Forall_cons in *. cbn [fst]. tauto.
          -- unfold SpecLIRS.hir_bytes in *. cbn [is_q]. rewrite sum_cons. lia.
        * right. cbn [is_s]. destruct B as [[E _]|(S & y & E)].
          -- exfalso. unfold SpecLIRS.lir_bytes in Hgt. rewrite E in Hgt. change (sum (lirs_of [])) with 0 in Hgt. destruct Gx. lia.
          -- assert (Hy : (y, LIR) ∈ is_s a2).
             { apply lirs_elem. rewrite K4, E, lirs_app. apply elem_of_app. right. by left. }
             rewrite E, fmap_app in K1. destruct (is_s a2) as [|p0 S0] eqn:E2; [by destruct (S.*1)|].
             destruct (exists_last (l := p0 :: S0)) as (S1 & [z u] & E3); [done|]. rewrite E3, fmap_app in K1.
             apply app_inj_tail in K1 as [K1 K6]. cbn in K6. subst z. exists ((x, HIR) :: S1), y. rewrite E3 in *. cbn. do 3 f_equal.
             f_equal. apply (nd_fun (S1 ++ [(y, u)]) y); [rewrite <- E2; apply H2| |done]. apply elem_of_app. right. by left.
    - assert (En : stat_of (is_s a) x = Some NR). { apply stat_elem; [apply H|]. rewrite ES. by left. }
      rewrite En. unfold room_for.
      assert (H1 : iinv (Some (x, NR)) a) by (apply nr_top; eauto).
      destruct (room_l_inv _ x (length (is_s a)) a H1 B Gx) as (H2 & B2 & A2 & L2).
      destruct (mark_inv x NR _ H2 B2) as (H3 & B3 & _); [by apply L2|]. done.
  Qed.

  Lemma access_inv a x a' b : iinv None a -> bottom a -> i_access sz cap h a x = (a', b) ->
    iinv None a' /\ bottom a' /\ is_adm a' = is_adm a /\
    (b = false -> x ∉ is_q a' /\ (stat_of (is_s a') x = None \/ exists S, is_s a' = (x, NR) :: S)).
  Proof using Hh Hr.
    intros H B. unfold i_access. destruct (stat_of (is_s a) x) as [[]|] eqn:Es.
    - intros [= <- <-]. apply stat_elem in Es; [|apply H].
      destruct (prune_inv None (mkIS ((x, LIR) :: s_drop x (is_s a)) (is_q a) (is_nh a) (is_adm a)) x) as [H1 B1];
        [by apply bump_inv|by left|]. done.
    - apply stat_elem in Es; [|apply H]. pose proof (bump_inv x HIR a H Es) as H1.
      set (a1 := mkIS ((x, HIR) :: s_drop x (is_s a)) (i_drop x (is_q a)) (is_nh a) (is_adm a)).
      assert (Gx : good x) by (by apply (good_s None a x HIR)).
      assert (H2 : iinv (Some (x, HIR)) a1).
      { destruct H1 as [Hs Hq Hnh Hhir He Hst Hnr Hg Hlb Hhb]. unfold a1. cbn [is_s is_q is_nh] in *.
        split; cbn [is_s is_q is_nh]; try done.
        - by apply i_drop_nd.
        - intros y Hy. destruct (decide (y = x)) as [->|]; [by right|]. left. apply i_drop_elem. by destruct (Hhir y Hy).
        - intros y u [= <- <-]. split; [done|]. split; [|eauto]. rewrite i_drop_elem. tauto.
        - intros y u [Hy _]%i_drop_elem. by apply Hst.
        - rewrite Forall_app in *. destruct Hg as [G1 G2]. split; [done|]. rewrite Forall_forall in *. intros y [Hy _]%i_drop_elem. by apply G2.
        - unfold SpecLIRS.hir_bytes in *. cbn [is_q] in *. destruct (Hhir x (elem_of_list_here _ _)) as [Hi|]; [|done].
          rewrite sum_drop by done. destruct Gx. lia. }
      assert (B2 : bottom a1) by (apply bump_bottom; [done|done|apply H|done]).
      unfold room_for. destruct (room_l_inv _ x (length (is_s a1)) a1 H2 B2 Gx) as (H3 & B3 & A3 & L3).
      intros [= <- <-]. fold a1.
      destruct (mark_inv x HIR _ H3 B3) as (H4 & B4 & _); [by apply L3|].
      rewrite (i_drop_absent x) in H4, B4; [done| |].
      1,2: intros C; apply (ii_nr _ _ H3) in C; destruct (ii_e _ _ H3 x HIR eq_refl) as (_ & _ & S & ES);
        assert (NR = HIR); [|done]; apply (nd_fun _ x _ _ (ii_s _ _ H3) C); rewrite ES; by left.
    - intros [= <- <-]. apply stat_elem in Es; [|apply H].
      split; [by apply bump_inv|]. split; [apply bump_bottom; [done|done|apply H|done]|]. split; [done|]. intros _. split; [|eauto].
      cbn [is_q]. intros C. by apply (ii_stat _ _ H x NR) in C.
    - destruct (decide (x ∈ is_q a)) as [Hx|Hx].
      + assert (Gx : good x) by (by apply (good_q None a)).
        set (a1 := mkIS (is_s a) (x :: i_drop x (is_q a)) (is_nh a) (is_adm a)).
        apply stat_none in Es.
        assert (H1 : iinv None a1).
        { destruct H as [Hs Hq Hnh Hhir He Hst Hnr Hg Hlb Hhb]. unfold a1. split; cbn [is_s is_q is_nh]; try done.
          - apply NoDup_cons. split; [rewrite i_drop_elem; tauto|by apply i_drop_nd].
          - intros y Hy. left. destruct (Hhir y Hy) as [Hi|]; [|done]. apply elem_of_cons. rewrite i_drop_elem.
            destruct (decide (y = x)); [by left|by right].
          - intros y u [->|[Hy _]%i_drop_elem]%elem_of_cons Hu; [by apply elem_fst in Hu|by apply (Hst y)].
          - rewrite Forall_app in *. destruct Hg as [G1 G2]. split; [done|]. apply Forall_cons. split; [done|].
            rewrite Forall_forall in *. intros y [Hy _]%i_drop_elem. by apply G2.
          - unfold SpecLIRS.hir_bytes in *. cbn [is_q]. rewrite sum_cons, sum_drop by done. lia. }
        assert (B1 : bottom a1). { destruct B as [[_ E]|B]; [rewrite E in Hx; by apply elem_of_nil in Hx|by right]. }
        assert (D1 : held x (lir_bytes a) a1).
        { split; [done|]. exists [], (i_drop x (is_q a)). split; [done|]. done. }
        unfold room_for. destruct (room_l_inv None x (length (is_s a)) a1 H1 B1 Gx) as (H3 & B3 & A3 & L3).
        pose proof (room_l_held None x _ (length (is_s a)) a1 H1 B1 Gx D1 (ii_lb _ _ H)) as (HS & ys & rest & EQ & _).
        intros [= <- <-]. fold a1. set (a2 := room_l sz cap h (length (is_s a)) (sz x) a1) in *.
        assert (HxQ : x ∈ is_q a2) by (rewrite EQ; apply elem_of_app; right; by left).
        split; [|split; [|done]].
        * destruct H3 as [Hs Hq Hnh Hhir He Hst Hnr Hg Hlb Hhb]. split; cbn [is_s is_q is_nh]; try done.
          -- rewrite fmap_cons. by apply NoDup_cons.
          -- intros y [E|Hy]%elem_of_cons; left; [congruence|]. by destruct (Hhir y Hy).
          -- intros y u Hy [E|Hu]%elem_of_cons; [congruence|by apply (Hst y)].
          -- intros y. rewrite Hnr, elem_of_cons. split; [by right|]. by intros [?|?].
          -- rewrite fmap_cons. cbn [app]. by apply Forall_cons.
        * destruct B3 as [[_ E]|(S & y & E)]; [rewrite E in HxQ; by apply elem_of_nil in HxQ|]. right. cbn [is_s]. rewrite E. by exists ((x, HIR) :: S), y.
      + intros [= <- <-]. split; [done|]. split; [done|]. split; [done|]. intros _. split; [done|by left].
  Qed.

  Lemma drop_inv v a : iinv None a -> v ∉ is_q a ->
    iinv None (mkIS (s_drop v (is_s a)) (is_q a) (i_drop v (is_nh a)) (is_adm a)).
  Proof.
    intros H Hv.
    assert (Gs : forall p, p ∈ s_drop v (is_s a) -> p ∈ is_s a) by (intros p; rewrite s_drop_elem; tauto).
    assert (Hlb2 : sum (lirs_of (s_drop v (is_s a))) <= lir_bytes a).
    { rewrite lirs_drop_lir by apply H. destruct (decide (v ∈ lirs_of (is_s a))) as [Hi|Hi].
      - rewrite sum_drop; [|apply lirs_nd, H|done]. apply lirs_elem in Hi. apply (good_s _ _ _ _ H) in Hi as [? _]. unfold SpecLIRS.lir_bytes. lia.
      - rewrite i_drop_absent by done. done. }
    destruct H as [Hs Hq Hnh Hhir He Hst Hnr Hg Hlb Hhb]. split; cbn [is_s is_q is_nh]; try done.
    - by apply s_drop_nd.
    - by apply i_drop_nd.
    - intros y Hy. apply Hhir. auto.
    - intros y u Hy Hu. apply (Hst y u); auto.
    - intros y. rewrite i_drop_elem, s_drop_elem, Hnr. done.
    - rewrite Forall_app in *. destruct Hg as [G1 G2]. split; [|done]. rewrite Forall_forall in *. intros y. rewrite s_drop_ids, i_drop_elem.
      intros [? _]. by apply G1.
    - unfold SpecLIRS.lir_bytes in *. cbn [is_s]. lia.
  Qed.
  Lemma drop_bottom v t a q nh adm : iinv None a -> bottom a -> (v, t) ∈ is_s a -> t <> LIR ->
    bottom (mkIS (s_drop v (is_s a)) q nh adm).
  Proof.
    intros H B Hv Ht. destruct B as [[E _]|(S & y & E)]; [rewrite E in Hv; by apply elem_of_nil in Hv|]. right. cbn [is_s].
    rewrite E, s_drop_app. exists (s_drop v S), y. f_equal. unfold s_drop. rewrite filter_cons_True; [done|]. cbn. intros <-. apply Ht.
    apply (nd_fun _ y _ _ (ii_s _ _ H) Hv). rewrite E. apply elem_of_app. right. by left.
  Qed.

  Lemma trim_inv n : forall a, iinv None a -> bottom a ->
    iinv None (trim sz cap n a) /\ bottom (trim sz cap n a) /\ is_adm (trim sz cap n a) = is_adm a.
  Proof.
    induction n as [|n IH]; intros a H B; cbn [trim]; destruct (decide _); try done.
    destruct (last (is_nh a)) as [v|] eqn:El; [|done].
    apply last_Some in El as [nh El]. rewrite El, removelast_last.
    assert (Hv : (v, NR) ∈ is_s a) by (apply (ii_nr _ _ H); rewrite El; apply elem_of_app; right; by left).
    assert (HvQ : v ∉ is_q a) by (intros C; by apply (ii_stat _ _ H v NR) in C).
    assert (E : i_drop v (is_nh a) = nh).
    { rewrite El. pose proof (ii_nh _ _ H) as Hnd. rewrite El in Hnd. apply NoDup_app in Hnd as (_ & Hn & _).
      unfold i_drop. rewrite filter_app. change (filter (fun y => y <> v) nh) with (i_drop v nh). rewrite i_drop_absent.
      - rewrite filter_cons_False by tauto. change (filter (fun y => y <> v) []) with (@nil Z). apply app_nil_r.
      - intros C. apply (Hn v C). by left. }
    pose proof (drop_inv v a H HvQ) as H1. rewrite E in H1.
    destruct (IH _ H1) as (H2 & B2 & A2); [by apply (drop_bottom v NR)|]. done.
  Qed.

  Lemma get_inv a r a' b : iinv None a -> bottom a -> i_req sz r -> i_get sz cap h a r = (a', b) ->
    iinv None a' /\ bottom a'.
  Proof using Hh Hr.
    intros H B [Ez Hz] . unfold i_get. destruct (i_access sz cap h a (r_id r)) as [a1 b1] eqn:Ea.
    destruct (access_inv _ _ _ _ H B Ea) as (H1 & B1 & _ & Hm). destruct b1.
    - intros [= <- <-]. by destruct (trim_inv (length (is_nh a1)) a1 H1 B1) as (? & ? & _).
    - destruct (Hm eq_refl) as [Hq Hs]. destruct (admit (is_adm a1) r) as [adm ok].
      assert (H2 : iinv None (mkIS (is_s a1) (is_q a1) (is_nh a1) adm)) by (by destruct H1).
      destruct (ok && bool_decide (r_size r <= h))%bool eqn:Eo; intros [= <- <-].
      + apply andb_true_iff in Eo as [_ Ho%bool_decide_eq_true].
        destruct (add_inv (r_id r) _ H2) as (H3 & B3 & _); [done|unfold good; lia|done|done|].
        match goal with |- context [trim sz cap ?n ?a] => destruct (trim_inv n a H3 B3) as (? & ? & _) end. done.
      + match goal with |- context [trim sz cap ?n ?a] => destruct (trim_inv n a H2 B1) as (? & ? & _) end. done.
  Qed.

  Lemma qdrop_inv x a : iinv None a -> (forall t, (x, t) ∉ is_s a) ->
    iinv None (mkIS (is_s a) (i_drop x (is_q a)) (is_nh a) (is_adm a)).
  Proof.
    intros [Hs Hq Hnh Hhir He Hst Hnr Hg Hlb Hhb] Hx. split; cbn [is_s is_q is_nh]; try done.
    - by apply i_drop_nd.
    - intros y Hy. left. apply i_drop_elem. destruct (Hhir y Hy) as [Hi|]; [|done]. split; [done|]. intros ->. by apply Hx in Hy.
    - intros y u [Hy _]%i_drop_elem. by apply Hst.
    - rewrite Forall_app in *. destruct Hg as [G1 G2]. split; [done|]. rewrite Forall_forall in *. intros y [Hy _]%i_drop_elem. by apply G2.
    - unfold SpecLIRS.hir_bytes in *. cbn [is_q]. destruct (decide (x ∈ is_q a)) as [Hi|Hi].
      + rewrite sum_drop by done. apply Forall_app in Hg as [_ G]. rewrite Forall_forall in G. destruct (G x Hi). lia.
      + by rewrite i_drop_absent.
  Qed.

  Lemma push_out_bottom e a : iinv e a -> bottom a -> bottom (push_out a).
  Proof.
    intros H B. destruct (push_out_keep a) as (K1 & _ & K3). destruct B as [[E1 E2]|(S & y & E)].
    - left. rewrite K3, E1, E2 in *. split; [|done]. by apply fmap_nil_inv in K1.
    - right. assert (Hy : (y, LIR) ∈ is_s (push_out a)).
      { apply lirs_elem. rewrite (push_out_lirs e) by done. rewrite E, lirs_app. apply elem_of_app. right. by left. }
      rewrite E, fmap_app in K1. destruct (is_s (push_out a)) as [|p0 S0] eqn:E2; [by destruct (S.*1)|].
      destruct (exists_last (l := p0 :: S0)) as (S1 & [z u] & E3); [done|]. rewrite E3, fmap_app in K1.
      apply app_inj_tail in K1 as [K1 K6]. cbn in K6. subst z. exists S1, y. rewrite E3 in *. do 3 f_equal.
      apply (nd_fun (S1 ++ [(y, u)]) y); [rewrite <- E2; apply (push_out_inv e), H| |done]. apply elem_of_app. right. by left.
  Qed.

  Lemma call_inv a c : iinv None a -> bottom a -> i_ok sz cap h a c ->
    iinv None (i_call sz cap h a c).1 /\ bottom (i_call sz cap h a c).1.
  Proof using Hh Hr.
    intros H B Hok. destruct c as [r|r u|r|x|r|r]; cbn [i_ok i_call] in *.
    - destruct (i_get sz cap h a r) as [a' b] eqn:Eg. by apply (get_inv a r a' b).
    - destruct u; [|done]. destruct (i_access sz cap h a (r_id r)) as [a' b] eqn:Ea.
      by destruct (access_inv _ _ _ _ H B Ea) as (? & ? & _).
    - destruct Hok as ([Ez Hz] & Hle & Hc). destruct (decide _) as [[En Hfit]|]; [|done]. cbn [fst].
      destruct Hc as [|[[_ Hq] _]]; [congruence|].
      destruct (add_inv (r_id r) a H B) as (? & ? & _); [unfold good; lia|done|by left|done].
    - destruct Hok as [Hnr Hl]. destruct (stat_of (is_s a) x) as [[]|] eqn:Es; cbn [fst].
      + apply stat_elem in Es; [|apply H]. assert (HxQ : x ∉ is_q a) by (intros C; by apply (ii_stat _ _ H x LIR) in C).
        pose proof (drop_inv x a H HxQ) as H1. rewrite (i_drop_absent x (is_nh a)) in H1.
        2: { intros C. apply (ii_nr _ _ H) in C. pose proof (nd_fun _ x _ _ (ii_s _ _ H) Es C). done. }
        destruct (Hl eq_refl) as [[E1 E2]|(y & Hne & Hy)].
        * split.
          -- destruct (iinv_prune_nil a x H1 E1) as [? _]. done.
          -- left. unfold i_prune. cbn [is_s is_q]. rewrite E1. unfold s_drop. rewrite filter_cons_False by (cbn; tauto). done.
        * apply stat_elem in Hy; [|apply H]. apply (prune_inv None _ y); [done|]. cbn [is_s]. apply s_drop_elem. done.
      + apply stat_elem in Es; [|apply H].
        assert (H1 : iinv None (mkIS (s_drop x (is_s a)) (i_drop x (is_q a)) (is_nh a) (is_adm a))).
        { destruct H as [Hs Hq Hnh Hhir He Hst Hnr2 Hg Hlb Hhb]. split; cbn [is_s is_q is_nh]; try done.
          - by apply s_drop_nd.
          - by apply i_drop_nd.
          - intros y [Hy Hne]%s_drop_elem. left. apply i_drop_elem. by destruct (Hhir y Hy).
          - intros y u [Hy _]%i_drop_elem [Hu _]%s_drop_elem. by apply (Hst y).
          - intros y. rewrite s_drop_elem, Hnr2. cbn [fst]. split; [|tauto]. intros Hy. split; [done|]. intros ->.
            pose proof (nd_fun _ x _ _ Hs Es Hy). done.
          - rewrite Forall_app, !Forall_forall in *. destruct Hg as [G1 G2]. split; intros y.
            + rewrite s_drop_ids, i_drop_elem. intros [? _]. by apply G1.
            + rewrite i_drop_elem. intros [? _]. by apply G2.
          - unfold SpecLIRS.lir_bytes in *. cbn [is_s]. rewrite lirs_drop; [done|]. intros C. pose proof (nd_fun _ x _ _ Hs Es C). done.
          - unfold SpecLIRS.hir_bytes in *. cbn [is_q]. destruct (Hhir x Es) as [Hi|]; [|done]. rewrite sum_drop by done.
            apply Forall_app in Hg as [_ G]. rewrite Forall_forall in G. destruct (G x Hi). lia. }
        split; [done|]. by apply (drop_bottom x HIR a).
      + done.
      + apply stat_none in Es. split; [apply qdrop_inv; [done|]; intros t C; by apply elem_fst in C|].
        destruct B as [[E1 E2]|B]; [left|by right]. cbn [is_s is_q]. by rewrite E2.
    - destruct (decide _); cbn [fst]; [|done]. split; [by apply push_out_inv|by apply (push_out_bottom None)].
    - done.
  Qed.

  Lemma run_inv cs : forall a, iinv None a -> bottom a -> i_oks sz cap h a cs ->
    iinv None (i_run sz cap h a cs).1 /\ bottom (i_run sz cap h a cs).1.
  Proof using Hh Hr.
    induction cs as [|c cs IH]; intros a H B; [done|]. cbn [i_oks i_run]. intros [Hc Hcs].
    destruct (call_inv a c H B Hc) as [H1 B1]. destruct (i_call sz cap h a c) as [a1 o]. cbn [fst] in *.
    destruct (IH a1 H1 B1 Hcs) as [H2 B2]. by destruct (i_run sz cap h a1 cs).
  Qed.

  Lemma inv0 adm : 0 <= h -> iinv None (ispec0 adm) /\ bottom (ispec0 adm).
  Proof using Hh.
    intros. split; [|by left]. split; cbn; try done; try constructor; try (intros; by apply elem_of_nil in H0); try lia.
    all: try (intros ? ?%elem_of_nil; done).
  Qed.
End Facts.
