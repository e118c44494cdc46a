(** C23: the pointer code of cacheObj.c implements sequences. *)
From stdpp Require Import gmap list numbers fin_maps.
From Verif Require Import Base ModelDll.
Open Scope Z_scope.

(** [d] represents the sequence [q]: following next from head lists [q],
    following prev from tail lists it backwards. *)
Definition represents (d : dlist) (q : list Z) : Prop :=
  NoDup q /\ dl_head d = head q /\ dl_tail d = last q /\
  forall i x, q !! i = Some x ->
    dl_heap d !! x = Some (mkQn (match i with 0%nat => None | S j => q !! j end) (q !! S i)).

Fixpoint seg (H : gmap Z qnode) (p : option Z) (q : list Z) (n : option Z) : Prop :=
  match q with
  | [] => True
  | x :: q' => H !! x = Some (mkQn p (match q' with [] => n | y :: _ => Some y end)) /\ seg H (Some x) q' n
  end.

Definition hd_or (q : list Z) (n : option Z) : option Z := match q with [] => n | y :: _ => Some y end.
Definition last_or (q : list Z) (p : option Z) : option Z := match last q with None => p | Some x => Some x end.

Lemma last_or_cons x q p : last_or (x :: q) p = last_or q (Some x).
Proof. unfold last_or. rewrite last_cons. by destruct (last q). Qed.

Lemma seg_app H q1 : forall p q2 n, seg H p (q1 ++ q2) n <-> seg H p q1 (hd_or q2 n) /\ seg H (last_or q1 p) q2 n.
Proof.
  induction q1 as [|x q1 IH]; intros p q2 n; cbn [app seg]; [by unfold last_or; cbn; tauto|].
  rewrite IH, last_or_cons. destruct q1 as [|y q1]; cbn; [destruct q2; cbn; tauto|tauto].
Qed.
Lemma seg_frame H q : forall p n y v, y ∉ q -> seg H p q n <-> seg (<[y := v]> H) p q n.
Proof.
  induction q as [|x q IH]; intros p n y v Hy; cbn [seg]; [done|].
  apply not_elem_of_cons in Hy as [? ?]. rewrite lookup_insert_ne by done. by rewrite <- IH.
Qed.

Lemma seg_lookup H q : forall p n, seg H p q n <->
  forall i x, q !! i = Some x -> H !! x = Some (mkQn (match i with 0%nat => p | S j => q !! j end)
     (match q !! S i with Some y => Some y | None => n end)).
Proof.
  induction q as [|y q IH]; intros p n; cbn [seg].
  - split; [|done]. intros _ i x Hi. by rewrite lookup_nil in Hi.
  - rewrite IH. split.
    + intros [Hy Hq] [|i] x Hi; cbn in Hi.
      * injection Hi as <-. rewrite Hy. by destruct q.
      * rewrite (Hq i x Hi). by destruct i.
    + intros Hq. split.
      * rewrite (Hq 0%nat y eq_refl). by destruct q.
      * intros i x Hi. rewrite (Hq (S i) x Hi). by destruct i.
Qed.

Definition dll (d : dlist) (q : list Z) : Prop :=
  NoDup q /\ dl_head d = head q /\ dl_tail d = last q /\ seg (dl_heap d) None q None.
Lemma dll_represents d q : dll d q <-> represents d q.
Proof.
  unfold dll, represents. rewrite seg_lookup.
  assert (forall i : nat, match q !! S i with Some y => Some y | None => None end = q !! S i) as E by (intros i; by destruct (q !! S i)).
  setoid_rewrite E. done.
Qed.

(** nodes outside the list and the operand are left alone *)
Definition others_kept (d d' : dlist) (q : list Z) : Prop :=
  forall y, y ∉ q -> dl_heap d' !! y = dl_heap d !! y.

Ltac mapnorm := repeat first [rewrite lookup_insert | rewrite lookup_insert_ne by congruence].

(** what one needs to know of a list around one of its elements *)
Lemma list_around (q : list Z) x : x ∈ q -> exists q1 q2, q = q1 ++ x :: q2.
Proof. intros H. apply elem_of_list_split in H as (q1 & q2 & ->). eauto. Qed.

Lemma snoc_cases (q : list Z) : q = [] \/ exists q' z, q = q' ++ [z].
Proof. destruct q as [|z q'] using rev_ind; [by left|right; eauto]. Qed.

Lemma filter_ne (x : Z) q1 q2 : NoDup (q1 ++ x :: q2) -> filter (fun y => y <> x) (q1 ++ x :: q2) = q1 ++ q2.
Proof.
  intros Hnd. apply NoDup_app in Hnd as (_ & Hd & Hnd). apply NoDup_cons in Hnd as [Hx _].
  assert (F : forall l : list Z, x ∉ l -> filter (fun y => y <> x) l = l).
  { induction l as [|y l IH]; intros Hl; [done|]. apply not_elem_of_cons in Hl as [? ?].
    rewrite filter_cons_True by done. by rewrite IH. }
  rewrite filter_app, filter_cons_False by tauto. rewrite !F; [done|done|].
  intros Hx1. apply (Hd x Hx1). by left.
Qed.

Lemma prepend_spec d q x : dll d q -> x ∉ q -> is_Some (dl_heap d !! x) ->
  exists d', prepend_obj_to_head d x = Ok d' /\ dll d' (x :: q) /\ others_kept d d' (x :: q).
Proof.
  intros (Hnd & Hh & Ht & Hs) Hx [nx Hnx]. destruct d as [H hd tl]. cbn [dl_heap dl_head dl_tail] in *. subst.
  unfold prepend_obj_to_head, wr_prev, wr_next, set_head, set_tail. cbn [dl_heap dl_head dl_tail rbind].
  rewrite Hnx. cbn [rbind dl_heap dl_head dl_tail]. mapnorm. cbn [rbind dl_heap dl_head dl_tail qn_prev qn_next].
  destruct q as [|y q].
  - cbn [head last]. destruct (decide (@None Z = None)) as [_|]; [|done].
    cbn [dl_head dl_tail dl_heap]. destruct (decide (@None Z <> None)) as [?|_]; [done|]. cbn [rbind dl_head dl_tail dl_heap].
    eexists. split; [reflexivity|]. split.
    + split_and!; [apply NoDup_singleton|done|done|]. cbn. mapnorm. done.
    + intros z Hz. cbn [dl_heap]. apply not_elem_of_cons in Hz as [? _]. by mapnorm.
  - cbn [head]. destruct (decide (last (y :: q) = None)) as [E|_]; [by apply last_None in E|].
    cbn [dl_head dl_tail dl_heap]. destruct (decide (Some y <> None)) as [_|?]; [|by destruct n].
    apply not_elem_of_cons in Hx as [Hxy Hxq]. cbn [seg] in Hs. destruct Hs as [Hy Hs].
    mapnorm. rewrite Hy. cbn [rbind dl_head dl_tail dl_heap qn_next].
    apply NoDup_cons in Hnd as [Hyq Hnd'].
    eexists. split; [reflexivity|]. split.
    + split_and!; cbn [dl_head dl_tail dl_heap head].
      * constructor; [by apply not_elem_of_cons|]. by constructor.
      * done.
      * by rewrite (last_cons_cons x).
      * cbn [seg]. mapnorm. split; [done|]. split; [done|].
        rewrite <- !seg_frame by done. done.
    + intros z Hz. cbn [dl_heap]. apply not_elem_of_cons in Hz as [? Hz]. apply not_elem_of_cons in Hz as [? _].
      by mapnorm.
Qed.

Lemma seg_snoc H p q x n : seg H p (q ++ [x]) n <-> seg H p q (Some x) /\ H !! x = Some (mkQn (last_or q p) n).
Proof. rewrite seg_app. cbn [hd_or seg]. tauto. Qed.

Lemma append_spec d q x : dll d q -> x ∉ q -> is_Some (dl_heap d !! x) ->
  exists d', append_obj_to_tail d x = Ok d' /\ dll d' (q ++ [x]) /\ others_kept d d' (x :: q).
Proof.
  intros (Hnd & Hh & Ht & Hs) Hx [nx Hnx]. destruct d as [H hd tl]. cbn [dl_heap dl_head dl_tail] in *. subst.
  unfold append_obj_to_tail, wr_prev, wr_next, set_head, set_tail. cbn [dl_heap dl_head dl_tail rbind].
  rewrite Hnx. cbn [rbind dl_heap dl_head dl_tail]. mapnorm. cbn [rbind dl_heap dl_head dl_tail qn_prev qn_next].
  destruct (snoc_cases q) as [->|(q' & y & ->)].
  - cbn [head last]. destruct (decide (@None Z = None)) as [_|]; [|done].
    cbn [dl_head dl_tail dl_heap]. destruct (decide (@None Z <> None)) as [?|_]; [done|]. cbn [rbind dl_head dl_tail dl_heap].
    eexists. split; [reflexivity|]. split.
    + split_and!; [apply NoDup_singleton|done|done|]. cbn. mapnorm. done.
    + intros z Hz. cbn [dl_heap]. apply not_elem_of_cons in Hz as [? _]. by mapnorm.
  - rewrite last_snoc. destruct (decide (head (q' ++ [y]) = None)) as [E|_]; [by destruct q'|].
    cbn [dl_head dl_tail dl_heap]. destruct (decide (Some y <> None)) as [_|?]; [|by destruct n].
    apply not_elem_of_app in Hx as [Hxq Hxy]. apply not_elem_of_cons in Hxy as [Hxy _].
    apply seg_snoc in Hs as [Hs Hy].
    mapnorm. rewrite Hy. cbn [rbind dl_head dl_tail dl_heap qn_prev qn_next].
    pose proof Hnd as Hnd0. apply NoDup_app in Hnd as (Hnd' & Hd & _).
    assert (Hyq : y ∉ q') by (intros Hyq; apply (Hd y Hyq); by left).
    eexists. split; [reflexivity|]. split.
    + split_and!; cbn [dl_head dl_tail dl_heap].
      * apply NoDup_app. split_and!; [done| |apply NoDup_singleton].
        intros z Hz. rewrite elem_of_list_singleton. intros ->. apply elem_of_app in Hz as [Hz|Hz]; [done|].
        by apply elem_of_list_singleton in Hz.
      * by destruct q'.
      * by rewrite last_snoc.
      * apply seg_snoc. split; [apply seg_snoc; split|].
        -- rewrite <- !seg_frame by done. done.
        -- mapnorm. done.
        -- mapnorm. unfold last_or. by rewrite last_snoc.
    + intros z Hz. cbn [dl_heap]. apply not_elem_of_cons in Hz as [? Hz]. apply not_elem_of_app in Hz as [? Hz].
      apply not_elem_of_cons in Hz as [? _]. by mapnorm.
Qed.

Lemma last_or_snoc q x p : last_or (q ++ [x]) p = Some x.
Proof. unfold last_or. by rewrite last_snoc. Qed.

(** unpack a list with an inner element into at most one neighbour each side *)
Lemma seg_around H q1 x q2 : seg H None (q1 ++ x :: q2) None <->
  seg H None q1 (Some x) /\ H !! x = Some (mkQn (last q1) (head q2)) /\ seg H (Some x) q2 None.
Proof.
  rewrite seg_app. cbn [hd_or seg]. unfold last_or.
  assert (E : match last q1 with Some y => Some y | None => None end = last q1) by (by destruct (last q1)).
  assert (E2 : match q2 with [] => None | y :: _ => Some y end = head q2) by (by destruct q2).
  rewrite E, E2. tauto.
Qed.

Ltac unf := unfold rd_prev, rd_next, wr_prev, wr_next, set_head, set_tail.
Ltac cb := cbn [rbind dl_head dl_tail dl_heap qn_prev qn_next].
Ltac dec_solve := first [congruence | intros Hdec; by apply Hdec | done].
Ltac dec_goal := match goal with |- context [decide ?P] =>
   first [rewrite (decide_True (P := P)) by dec_solve | rewrite (decide_False (P := P)) by dec_solve] end.
Ltac go := repeat first [progress cb | progress mapnorm | dec_goal | match goal with H : ?h !! ?x = Some _ |- context [?h !! ?x] => rewrite H end].

Ltac notin := repeat match goal with
  | H : ?z ∉ _ :: _ |- _ => apply not_elem_of_cons in H as [? ?]
  | H : ?z ∉ _ ++ _ |- _ => apply not_elem_of_app in H as [? ?] end.

(** the facts about a list and one of its elements that the operations use *)
Lemma around_facts d q1 x q2 : dll d (q1 ++ x :: q2) ->
  dl_heap d !! x = Some (mkQn (last q1) (head q2)) /\ seg (dl_heap d) None q1 (Some x) /\ seg (dl_heap d) (Some x) q2 None /\
  x ∉ q1 /\ x ∉ q2 /\ NoDup q1 /\ NoDup q2 /\ (forall z, z ∈ q1 -> z ∉ q2) /\ NoDup (q1 ++ q2) /\
  dl_head d = head (q1 ++ x :: q2) /\ dl_tail d = last (q1 ++ x :: q2).
Proof.
  intros (Hnd & Hh & Ht & Hs). apply seg_around in Hs as (Hs1 & Hx & Hs2).
  apply NoDup_app in Hnd as (Hnd1 & Hd & Hnd2). apply NoDup_cons in Hnd2 as [Hxq2 Hnd2].
  assert (Hd12 : forall z, z ∈ q1 -> z ∉ q2) by (intros z Hz Hz2; apply (Hd z Hz); by right).
  split_and!; try done.
  - intros Hq. apply (Hd x Hq). by left.
  - by apply NoDup_app.
Qed.
Lemma head_app_ne (q1 : list Z) a q2 x : x ∉ q1 ++ [a] -> exists h, head ((q1 ++ [a]) ++ q2) = Some h /\ h <> x /\ head (q1 ++ [a]) = Some h.
Proof. destruct q1 as [|h q1]; intros H; notin; cbn; eauto. Qed.
Lemma last_app_ne (q1 : list Z) b q2 x : x ∉ b :: q2 -> exists h, last (q1 ++ b :: q2) = Some h /\ h <> x /\ last (b :: q2) = Some h /\
  (h = b /\ q2 = [] \/ h ∈ q2).
Proof.
  intros H. rewrite last_app. destruct (last (b :: q2)) as [h|] eqn:E; [|by apply last_None in E].
  exists h. split; [done|]. pose proof E as E2. apply last_Some_elem_of in E2.
  split; [congruence|]. split; [done|]. rewrite last_cons in E. destruct (last q2) eqn:E3.
  - injection E as <-. right. by apply last_Some_elem_of in E3.
  - left. injection E as <-. split; [done|]. by apply last_None in E3.
Qed.

Lemma remove_spec d q1 x q2 : dll d (q1 ++ x :: q2) ->
  exists d', remove_obj_from_list d x = Ok d' /\ dll d' (q1 ++ q2) /\ others_kept d d' (q1 ++ x :: q2) /\
    dl_heap d' !! x = Some (mkQn None None).
Proof.
  intros Hdll. apply around_facts in Hdll as (Hx & Hs1 & Hs2 & Hx1 & Hx2 & Hnd1 & Hnd2 & Hd & Hnd & Hh & Ht).
  destruct d as [H hd tl]. cbn [dl_heap dl_head dl_tail] in *. subst.
  unfold remove_obj_from_list. unf. cb.
  destruct (snoc_cases q1) as [->|(q1' & a & ->)]; destruct q2 as [|b q2].
  - cbn [app head last] in *. go. eexists. split; [reflexivity|]. split_and!; cb; [done| |by mapnorm].
    intros z Hz. notin. cb. by mapnorm.
  - cbn [app head] in *. cbn [seg] in Hs2. destruct Hs2 as [Hb Hs2].
    destruct (last_app_ne [x] b q2 x Hx2) as (h & Hl & Hhx & Hl2 & _). cbn [app] in Hl. rewrite Hl.
    notin. apply NoDup_cons in Hnd2 as [Hbq2 Hnd2].
    go. eexists. split; [reflexivity|]. split_and!; cb.
    + split_and!; [done|done|done|]. cb. cbn [seg]. split; [by mapnorm|]. rewrite <- !seg_frame by done. done.
    + intros z Hz. notin. cb. by mapnorm.
    + by mapnorm.
  - rewrite last_snoc in *. cbn [head] in *. apply seg_snoc in Hs1 as [Hs1 Ha].
    destruct (head_app_ne q1' a [x] x Hx1) as (h & Hh & Hhx & Hh'). rewrite Hh.
    apply NoDup_app in Hnd1 as (_ & Hd1 & _). assert (Haq : a ∉ q1') by (intros ?; by apply (Hd1 a); [|left]).
    notin. go. eexists. split; [reflexivity|]. split_and!; cb.
    + rewrite app_nil_r in *. split_and!; [done|done|by rewrite last_snoc|]. cb.
      apply seg_snoc. split; [|by mapnorm]. rewrite <- !seg_frame by done. done.
    + intros z Hz. notin. cb. by mapnorm.
    + by mapnorm.
  - rewrite last_snoc in *. cbn [head] in *. apply seg_snoc in Hs1 as [Hs1 Ha]. cbn [seg] in Hs2. destruct Hs2 as [Hb Hs2].
    destruct (head_app_ne q1' a (x :: b :: q2) x Hx1) as (h & Hh & Hhx & Hh'). rewrite Hh.
    destruct (last_app_ne ((q1' ++ [a]) ++ [x]) b q2 x Hx2) as (l & Hl & Hlx & Hl2 & _).
    rewrite <- app_assoc in Hl. cbn [app] in Hl. rewrite Hl.
    apply NoDup_app in Hnd1 as (_ & Hd1 & _). assert (Haq : a ∉ q1') by (intros ?; by apply (Hd1 a); [|left]).
    assert (Haq2 : a ∉ b :: q2) by (apply Hd; rewrite elem_of_app; right; by left).
    assert (Hbq1 : b ∉ q1') by (intros Hb1; apply (Hd b); [rewrite elem_of_app; by left|by left]).
    apply NoDup_cons in Hnd2 as [Hbq2 Hnd2].
    notin. go. eexists. split; [reflexivity|]. split_and!; cb.
    + split_and!; [done| | |].
      * cb. rewrite <- Hh'. by destruct q1'.
      * cb. by rewrite <- Hl2, last_app, Hl2.
      * cb. apply seg_app. cbn [hd_or]. split; [apply seg_snoc; split|].
        -- rewrite <- !seg_frame by done. done.
        -- by mapnorm.
        -- cbn [seg]. unfold last_or. rewrite last_snoc. split; [by mapnorm|]. rewrite <- !seg_frame by done. done.
    + intros z Hz. notin. cb. by mapnorm.
    + by mapnorm.
Qed.

Lemma move_head_spec d q1 x q2 : dll d (q1 ++ x :: q2) ->
  exists d', move_obj_to_head d x = Ok d' /\ dll d' (x :: q1 ++ q2) /\ others_kept d d' (q1 ++ x :: q2).
Proof.
  intros Hdll. pose proof Hdll as Hdll0. apply around_facts in Hdll as (Hx & Hs1 & Hs2 & Hx1 & Hx2 & Hnd1 & Hnd2 & Hd & Hnd & Hh & Ht).
  unfold move_obj_to_head.
  destruct (snoc_cases q1) as [->|(q1' & a & ->)].
  { cbn [app] in *. exists d. rewrite Hh. cbn [head]. destruct (decide _); [done|]. by rewrite decide_True. }
  destruct d as [H hd tl]. cbn [dl_heap dl_head dl_tail] in *. subst. unf. cb.
  rewrite last_snoc in *. cbn [head] in *. apply seg_snoc in Hs1 as [Hs1 Ha].
  apply NoDup_app in Hnd1 as (Hnd1 & Hd1 & _). assert (Haq : a ∉ q1') by (intros ?; by apply (Hd1 a); [|left]).
  destruct q2 as [|b q2].
  - (* x is the tail *)
    clear Hdll0. rewrite last_snoc. destruct q1' as [|h q1'].
    + cbn [app head] in *. notin. cbn [last_or last] in Ha. go.
      eexists. split; [reflexivity|]. split.
      * split_and!; [|done|done|].
        -- constructor; [|apply NoDup_singleton]. by apply not_elem_of_cons; split; [|apply not_elem_of_nil].
        -- cb. cbn [seg]. split; [by mapnorm|]. split; [by mapnorm|done].
      * intros z Hz. notin. cb. by mapnorm.
    + cbn [app head] in *. notin. rewrite last_or_cons in Ha. cbn [seg] in Hs1. destruct Hs1 as [Hhd Hs1].
      apply NoDup_cons in Hnd1 as [Hhq Hnd1]. go.
      eexists. split; [reflexivity|]. split.
      * split_and!.
        -- rewrite app_nil_r in *. constructor; [|done]. repeat (apply not_elem_of_cons; split; [done|]).
           apply not_elem_of_app. split; [done|]. apply not_elem_of_cons. split; [done|apply not_elem_of_nil].
        -- done.
        -- cb. rewrite app_nil_r. by rewrite 2!last_cons, last_snoc.
        -- cb. rewrite app_nil_r. cbn [seg]. split; [by mapnorm|]. split.
           ++ mapnorm. destruct q1'; done.
           ++ apply seg_snoc. split; [|by mapnorm]. rewrite <- !seg_frame by done. done.
      * intros z Hz. notin. cb. by mapnorm.
  - (* x is inside *)
    clear Hdll0. cbn [seg] in Hs2. destruct Hs2 as [Hb Hs2].
    destruct (last_app_ne ((q1' ++ [a]) ++ [x]) b q2 x Hx2) as (l & Hl & Hlx & Hl2 & Hlc).
    rewrite <- app_assoc in Hl. cbn [app] in Hl. rewrite Hl.
    assert (Haq2 : a ∉ b :: q2) by (apply Hd; rewrite elem_of_app; right; by left).
    assert (Hbq1 : b ∉ q1') by (intros Hb1; apply (Hd b); [rewrite elem_of_app; by left|by left]).
    apply NoDup_cons in Hnd2 as [Hbq2 Hnd2].
    assert (Hlast : forall q, last (q ++ b :: q2) = Some l) by (intros q; by rewrite last_app, Hl2).
    destruct q1' as [|h q1'].
    + cbn [app head] in *. notin. cbn [last_or last] in Ha.
      assert (Hal : a <> l) by (intros ->; destruct Hlc as [[-> _]|?]; done).
      go. eexists. split; [reflexivity|]. split.
      * split_and!.
        -- constructor; [|done]. by repeat (apply not_elem_of_cons; split; [done|]).
        -- done.
        -- cb. symmetry. exact (Hlast [x; a]).
        -- cb. cbn [seg]. split; [by mapnorm|]. split; [by mapnorm|]. split; [by mapnorm|].
           rewrite <- !seg_frame by done. done.
      * intros z Hz. notin. cb. by mapnorm.
    + cbn [app head] in *. cbn [seg] in Hs1. destruct Hs1 as [Hhd Hs1].
      apply NoDup_cons in Hnd1 as [Hhq Hnd1]. rewrite last_or_cons in Ha.
      assert (Hhq2 : h ∉ b :: q2) by (apply Hd; by left).
      notin.
      assert (Hhl : h <> l) by (intros ->; destruct Hlc as [[-> _]|?]; done).
      go. eexists. split; [reflexivity|]. split.
      * split_and!.
        -- constructor; [|done]. apply not_elem_of_cons; split; [done|]. apply not_elem_of_app. split.
           ++ apply not_elem_of_app. split; [done|]. by apply not_elem_of_cons; split; [|apply not_elem_of_nil].
           ++ by apply not_elem_of_cons.
        -- done.
        -- cb. symmetry. exact (Hlast (x :: h :: q1' ++ [a])).
        -- cb. cbn [seg]. split; [by mapnorm|]. split.
           ++ mapnorm. by destruct q1'.
           ++ apply seg_app. cbn [hd_or]. split; [apply seg_snoc; split|].
              ** rewrite <- !seg_frame by done. done.
              ** by mapnorm.
              ** cbn [seg]. unfold last_or. rewrite last_snoc. split; [by mapnorm|]. rewrite <- !seg_frame by done. done.
      * intros z Hz. notin. cb. by mapnorm.
Qed.

Lemma move_tail_spec d q1 x q2 : dll d (q1 ++ x :: q2) ->
  exists d', move_obj_to_tail d x = Ok d' /\ dll d' ((q1 ++ q2) ++ [x]) /\ others_kept d d' (q1 ++ x :: q2).
Proof.
  intros Hdll. pose proof Hdll as Hdll0. apply around_facts in Hdll as (Hx & Hs1 & Hs2 & Hx1 & Hx2 & Hnd1 & Hnd2 & Hd & Hnd & Hh & Ht).
  unfold move_obj_to_tail.
  assert (Hndx : NoDup ((q1 ++ q2) ++ [x])).
  { apply NoDup_app. split_and!; [done| |apply NoDup_singleton]. intros z Hz Hzx.
    apply elem_of_list_singleton in Hzx as ->. apply elem_of_app in Hz. tauto. }
  destruct q2 as [|b q2].
  { (* already the tail *)
    rewrite app_nil_r in *. exists d. rewrite Ht, last_snoc, Hh.
    destruct (snoc_cases q1) as [->|(q1' & a & ->)].
    - cbn [app head last] in *. destruct d as [H hd tl]; cbn in *. unf. cb. go. done.
    - destruct (head_app_ne q1' a [x] x Hx1) as (h & Hhe & Hhx & _). rewrite Hhe. go. done. }
  assert (Hheads : forall q, head (q ++ b :: q2) <> None) by (intros [|? ?]; done).
  destruct d as [H hd tl]. cbn [dl_heap dl_head dl_tail] in *. subst. unf. cb. clear Hdll0.
  cbn [head] in *.
  (* the tail l and the middle part of q2 *)
  cbn [seg] in Hs2. destruct Hs2 as [Hb Hs2].
  destruct (last_app_ne (q1 ++ [x]) b q2 x Hx2) as (l & Hl & Hlx & Hl2 & Hlc).
  rewrite <- app_assoc in Hl. cbn [app] in Hl. rewrite Hl.
  destruct (snoc_cases q2) as [->|(q2' & l' & ->)].
  - (* q2 = [b], l = b *)
    assert (l = b) as -> by (cbn in Hl2; congruence). notin.
    destruct (snoc_cases q1) as [->|(q1' & a & ->)].
    + cbn [app head last] in *. go. eexists. split; [reflexivity|]. split.
      * split_and!; [done|done|done|]. cb. cbn [seg]. split; [by mapnorm|]. split; [by mapnorm|done].
      * intros z Hz. notin. cb. by mapnorm.
    + destruct (head_app_ne q1' a [x; b] x Hx1) as (h & Hhe & Hhx & Hhe'). rewrite Hhe.
      rewrite last_snoc in *. apply seg_snoc in Hs1 as [Hs1 Ha].
      apply NoDup_app in Hnd1 as (Hnd1 & Hd1 & _). assert (Haq : a ∉ q1') by (intros ?; by apply (Hd1 a); [|left]).
      assert (Hab : a <> b) by (intros ->; apply (Hd b); [rewrite elem_of_app; right; by left|by left]).
      assert (Hbq1 : b ∉ q1') by (intros Hb1; apply (Hd b); [rewrite elem_of_app; by left|by left]).
      assert (Hhb : h <> b).
      { intros ->. apply (Hd b); [|by left]. destruct q1'; cbn in Hhe'; injection Hhe' as ->; by left. }
      notin. go. eexists. split; [reflexivity|]. split.
      * split_and!; [done| | |].
        -- cb. rewrite <- Hhe'. by destruct q1'.
        -- cb. by rewrite last_snoc.
        -- cb. apply seg_snoc. split; [apply seg_snoc; split; [apply seg_snoc; split|]|].
           ++ rewrite <- !seg_frame by done. done.
           ++ by mapnorm.
           ++ mapnorm. unfold last_or. by rewrite last_snoc.
           ++ mapnorm. unfold last_or. by rewrite last_snoc.
      * intros z Hz. notin. cb. by mapnorm.
  - assert (l = l') as -> by (rewrite app_comm_cons, last_snoc in Hl2; congruence).
    notin. apply NoDup_cons in Hnd2 as [Hbq2 Hnd2]. apply NoDup_app in Hnd2 as (Hnd2 & Hd2 & _).
    assert (Hlq2 : l' ∉ q2') by (intros ?; by apply (Hd2 l'); [|left]).
    notin. apply seg_snoc in Hs2 as [Hs2 Hll].
    destruct (snoc_cases q1) as [->|(q1' & a & ->)].
    + cbn [app head last] in *. go. eexists. split; [reflexivity|]. split.
      * split_and!; [done|done| |].
        -- cb. rewrite app_comm_cons. by rewrite last_snoc.
        -- cb. cbn [seg]. split; [mapnorm; by destruct q2'|]. apply seg_snoc. split; [apply seg_snoc; split|].
           ++ rewrite <- !seg_frame by done. done.
           ++ by mapnorm.
           ++ mapnorm. unfold last_or. by rewrite last_snoc.
      * intros z Hz. notin. cb. by mapnorm.
    + destruct (head_app_ne q1' a (x :: b :: q2' ++ [l']) x Hx1) as (h & Hhe & Hhx & Hhe'). rewrite Hhe.
      rewrite last_snoc in *. apply seg_snoc in Hs1 as [Hs1 Ha].
      apply NoDup_app in Hnd1 as (Hnd1 & Hd1 & _). assert (Haq : a ∉ q1') by (intros ?; by apply (Hd1 a); [|left]).
      assert (Haq2 : a ∉ b :: q2' ++ [l']) by (apply Hd; rewrite elem_of_app; right; by left).
      assert (Hbq1 : b ∉ q1') by (intros Hb1; apply (Hd b); [rewrite elem_of_app; by left|by left]).
      assert (Hlq1 : l' ∉ q1').
      { intros Hb1; apply (Hd l'); [rewrite elem_of_app; by left|]. right. rewrite elem_of_app. right. by left. }
      assert (Hhl : h <> l').
      { intros ->. apply (Hd l'); [|right; rewrite elem_of_app; right; by left]. destruct q1'; cbn in Hhe'; injection Hhe' as ->; by left. }
      notin. go. eexists. split; [reflexivity|]. split.
      * split_and!; [done| | |].
        -- cb. rewrite <- Hhe'. by destruct q1'.
        -- cb. by rewrite last_snoc.
        -- cb. apply seg_snoc. split.
           ++ apply seg_app. cbn [hd_or]. split; [apply seg_snoc; split|].
              ** rewrite <- !seg_frame by done. done.
              ** by mapnorm.
              ** cbn [seg]. rewrite last_or_snoc. split; [mapnorm; by destruct q2'|].
                 apply seg_snoc. split; [|by mapnorm]. rewrite <- !seg_frame by done. done.
           ++ mapnorm. unfold last_or. by rewrite app_comm_cons, app_assoc, last_snoc.
      * intros z Hz. notin. cb. by mapnorm.
Qed.

(** * C23 *)
Inductive list_op := LPrepend (x : Z) | LAppend (x : Z) | LToHead (x : Z) | LToTail (x : Z) | LRemove (x : Z).
Definition list_step (d : dlist) (o : list_op) : res dlist :=
  match o with
  | LPrepend x => prepend_obj_to_head d x
  | LAppend x => append_obj_to_tail d x
  | LToHead x => move_obj_to_head d x
  | LToTail x => move_obj_to_tail d x
  | LRemove x => remove_obj_from_list d x
  end.
(** on sequences *)
Definition seq_step (q : list Z) (o : list_op) : list Z :=
  match o with
  | LPrepend x => x :: q
  | LAppend x => q ++ [x]
  | LToHead x => x :: filter (fun y => y <> x) q
  | LToTail x => filter (fun y => y <> x) q ++ [x]
  | LRemove x => filter (fun y => y <> x) q
  end.
(** the callers' contract: link an unlinked object, move or unlink a linked one *)
Definition op_allowed (q : list Z) (o : list_op) : Prop :=
  match o with
  | LPrepend x | LAppend x => x ∉ q
  | LToHead x | LToTail x | LRemove x => x ∈ q
  end.
Definition op_node (o : list_op) : Z :=
  match o with LPrepend x | LAppend x | LToHead x | LToTail x | LRemove x => x end.

(** One operation: it does not fail, yields the expected sequence, leaves every
    node outside the list and the operand untouched, and unlinks completely. *)
Theorem C23_list_op d q o : represents d q -> op_allowed q o -> is_Some (dl_heap d !! op_node o) ->
  exists d', list_step d o = Ok d' /\ represents d' (seq_step q o) /\
    (forall y, y ∉ op_node o :: q -> dl_heap d' !! y = dl_heap d !! y) /\
    (o = LRemove (op_node o) -> dl_heap d' !! op_node o = Some (mkQn None None)).
Proof.
  setoid_rewrite <- dll_represents. intros Hd Ha Hsome.
  assert (Hsplit : op_node o ∈ q -> exists q1 q2, q = q1 ++ op_node o :: q2 /\
     filter (fun y => y <> op_node o) q = q1 ++ q2).
  { intros Hin. destruct (list_around q _ Hin) as (q1 & q2 & ->). exists q1, q2. split; [done|].
    apply filter_ne. by destruct Hd. }
  destruct o as [x|x|x|x|x]; cbn [list_step seq_step op_allowed op_node] in *.
  - destruct (prepend_spec d q x Hd Ha Hsome) as (d' & ? & ? & ?). exists d'. by split_and!.
  - destruct (append_spec d q x Hd Ha Hsome) as (d' & ? & ? & ?). exists d'. by split_and!.
  - destruct (Hsplit Ha) as (q1 & q2 & Hq & ->). rewrite Hq in Hd.
    destruct (move_head_spec d q1 x q2 Hd) as (d' & ? & ? & Ho). exists d'. split_and!; [done|done| |done].
    intros y Hy. apply Ho. rewrite <- Hq. apply not_elem_of_cons in Hy. tauto.
  - destruct (Hsplit Ha) as (q1 & q2 & Hq & ->). rewrite Hq in Hd.
    destruct (move_tail_spec d q1 x q2 Hd) as (d' & ? & ? & Ho). exists d'. split_and!; [done|done| |done].
    intros y Hy. apply Ho. rewrite <- Hq. apply not_elem_of_cons in Hy. tauto.
  - destruct (Hsplit Ha) as (q1 & q2 & Hq & ->). rewrite Hq in Hd.
    destruct (remove_spec d q1 x q2 Hd) as (d' & ? & ? & Ho & ?). exists d'. split_and!; [done|done| |done].
    intros y Hy. apply Ho. rewrite <- Hq. apply not_elem_of_cons in Hy. tauto.
Qed.

Fixpoint list_run (d : dlist) (os : list list_op) : res dlist :=
  match os with [] => Ok d | o :: os => let! d := list_step d o in list_run d os end.
Fixpoint ops_allowed (q : list Z) (os : list list_op) : Prop :=
  match os with [] => True | o :: os => op_allowed q o /\ ops_allowed (seq_step q o) os end.

(** Any allowed sequence of operations on allocated objects. *)
Theorem C23_list_run os : forall d q, represents d q -> ops_allowed q os ->
  Forall (fun o => is_Some (dl_heap d !! op_node o)) os ->
  exists d', list_run d os = Ok d' /\ represents d' (fold_left seq_step os q).
Proof.
  induction os as [|o os IH]; intros d q Hd Ha Hs; [by exists d|].
  destruct Ha as [Ha Has]. apply Forall_cons in Hs as [Hs Hss].
  destruct (C23_list_op d q o Hd Ha Hs) as (d' & Hstep & Hd' & Hother & _).
  cbn [list_run fold_left]. rewrite Hstep. cbn [rbind]. apply IH; [done|done|].
  apply Forall_forall. intros o' Ho'. rewrite Forall_forall in Hss. specialize (Hss o' Ho').
  destruct (decide (op_node o' ∈ op_node o :: q)) as [Hin|Hout]; [|by rewrite Hother].
  destruct (decide (op_node o' ∈ seq_step q o)) as [Hin'|Hout'].
  { destruct Hd' as (_ & _ & _ & Hl). apply elem_of_list_lookup in Hin' as (i & Hi). rewrite (Hl i _ Hi). eauto. }
  assert (Hoo : op_node o' = op_node o /\ o = LRemove (op_node o)).
  { destruct o as [x|x|x|x|x]; cbn [op_node seq_step op_allowed] in *;
      repeat rewrite ?not_elem_of_cons, ?not_elem_of_app, ?elem_of_cons, ?elem_of_list_filter in *;
      try (rewrite elem_of_nil in *); destruct (decide (op_node o' = x)); tauto. }
  destruct Hoo as [-> Heq].
  destruct (C23_list_op d q o Hd Ha Hs) as (d2 & Hstep2 & _ & _ & Hrm). rewrite Hstep in Hstep2. injection Hstep2 as <-.
  rewrite (Hrm Heq). eauto.
Qed.

Definition ex_heap : gmap Z qnode := list_to_map ((fun x => (x, mkQn None None)) <$> [1; 2; 3; 4; 5]).
Example C23_ex : exists d', list_run (mkDl ex_heap None None)
    [LPrepend 1; LAppend 2; LPrepend 3; LAppend 4; LToHead 2; LToTail 3; LRemove 1; LAppend 5; LToHead 4] = Ok d' /\
  represents d' [4; 2; 3; 5].
Proof.
  destruct (C23_list_run [LPrepend 1; LAppend 2; LPrepend 3; LAppend 4; LToHead 2; LToTail 3; LRemove 1; LAppend 5; LToHead 4]
    (mkDl ex_heap None None) []) as (d' & H1 & H2).
  - split_and!; [constructor|done|done|]. intros i x Hi. by rewrite lookup_nil in Hi.
  - cbn. set_solver.
  - repeat (apply Forall_cons; split; [vm_compute; eauto|]). constructor.
  - exists d'. split; [exact H1|exact H2].
Qed.
