(** Closed forms of the Clock and Sieve scans, and their simulations. *)
From stdpp Require Import gmap list numbers fin_maps sorting.
From Verif Require Import Base Driver Abs AbsFacts Sim ModelQueue QueueFacts.
Open Scope Z_scope.

(** The counter of an id in the index (0 if absent). *)
Definition cnt (c : cache) (x : Z) : Z :=
  match c_tbl c !! x with Some o => o_p1 o | None => 0 end.

(** [c_dec c d]: the counter of every object [x] lowered by [d x]. *)
Definition c_dec (c : cache) (d : Z -> Z) : cache :=
  c_set_tbl c (map_imap (fun x o => Some (o_set_p1 o (o_p1 o - d x))) (c_tbl c)).

Lemma c_dec_lookup c d x :
  c_tbl (c_dec c d) !! x = (fun o => o_set_p1 o (o_p1 o - d x)) <$> c_tbl c !! x.
Proof. cbn. rewrite map_lookup_imap. by destruct (c_tbl c !! x). Qed.

Lemma cache_eq c c' :
  c_size c = c_size c' -> c_md c = c_md c' -> c_nreq c = c_nreq c' -> c_nobj c = c_nobj c' ->
  c_occ c = c_occ c' -> c_tbl c = c_tbl c' -> c_adm c = c_adm c' -> c = c'.
Proof. destruct c, c'; cbn; congruence. Qed.

Lemma c_dec_ext c d d' :
  (forall x, is_Some (c_tbl c !! x) -> d x = d' x) -> c_dec c d = c_dec c d'.
Proof.
  intros H. apply cache_eq; try done. apply map_eq. intros x. rewrite !c_dec_lookup.
  destruct (c_tbl c !! x) eqn:E; [|done]. cbn. rewrite H by eauto. done.
Qed.

Lemma c_dec_dec c d d' : c_dec (c_dec c d) d' = c_dec c (fun x => d x + d' x).
Proof.
  apply cache_eq; try done. apply map_eq. intros x. rewrite !c_dec_lookup.
  destruct (c_tbl c !! x) eqn:E; [|done]. cbn. unfold o_set_p1. cbn. do 2 f_equal. lia.
Qed.

Lemma c_dec_0 c : c_dec c (fun _ => 0) = c.
Proof.
  apply cache_eq; try done. apply map_eq. intros x. rewrite c_dec_lookup.
  destruct (c_tbl c !! x) as [[]|] eqn:E; [|done]. cbn. unfold o_set_p1. cbn. do 2 f_equal. lia.
Qed.

Lemma c_dec_one c x :
  c_upd c x (fun o => o_set_p1 o (o_p1 o - 1)) = c_dec c (fun y => if decide (y = x) then 1 else 0).
Proof.
  apply cache_eq; try done. apply map_eq. intros y. rewrite c_dec_lookup. cbn.
  destruct (decide (y = x)) as [->|Hne].
  - by rewrite lookup_alter.
  - rewrite lookup_alter_ne by done. destruct (c_tbl c !! y) as [[]|]; [|done].
    cbn. unfold o_set_p1. cbn. do 2 f_equal. lia.
Qed.

Lemma cnt_dec c d x : is_Some (c_tbl c !! x) -> cnt (c_dec c d) x = cnt c x - d x.
Proof. intros [o Ho]. unfold cnt. rewrite c_dec_lookup, Ho. done. Qed.

Lemma is_Some_dec c d x : is_Some (c_tbl (c_dec c d) !! x) <-> is_Some (c_tbl c !! x).
Proof. rewrite c_dec_lookup. by rewrite fmap_is_Some. Qed.

Definition one_in (l : list Z) (y : Z) : Z := if decide (y ∈ l) then 1 else 0.

Lemma one_in_in l y : y ∈ l -> one_in l y = 1.
Proof. intros. unfold one_in. by rewrite decide_True. Qed.
Lemma one_in_notin l y : y ∉ l -> one_in l y = 0.
Proof. intros. unfold one_in. by rewrite decide_False. Qed.

(** ** Clock *)

(** Rotating a whole prefix of the scan. *)
Lemma clock_scan_steps l1 : forall c q2 fuel,
  NoDup (q2 ++ rev l1) ->
  (forall y, y ∈ l1 -> is_Some (c_tbl c !! y) /\ 1 <= cnt c y) ->
  clock_scan (length l1 + fuel) c (q2 ++ rev l1)
  = clock_scan fuel (c_dec c (one_in l1)) (rev l1 ++ q2).
Proof.
  induction l1 as [|x l1 IH]; intros c q2 fuel Hn Hc; cbn [length plus rev].
  - cbn. rewrite app_nil_r. f_equal. rewrite <- (c_dec_0 c) at 1. apply c_dec_ext.
    intros y _. by rewrite one_in_notin by (by inversion 1).
  - cbn [clock_scan]. rewrite app_assoc, last_snoc.
    destruct (Hc x) as [[o Ho] H1]; [left|]. rewrite Ho.
    unfold cnt in H1. rewrite Ho in H1. rewrite decide_True by lia.
    rewrite removelast_last, c_dec_one.
    change (x :: q2 ++ rev l1) with ((x :: q2) ++ rev l1).
    assert (Hn' : NoDup ((x :: q2) ++ rev l1)).
    { cbn in Hn. rewrite app_assoc in Hn.
      apply NoDup_ListNoDup in Hn. apply NoDup_ListNoDup.
      eapply Permutation.Permutation_NoDup; [|exact Hn].
      cbn. rewrite Permutation_app_comm. done. }
    cbn [app] in Hn'. apply NoDup_cons in Hn' as Hx. destruct Hx as [Hx _].
    assert (Hxl : x ∉ l1).
    { intros Hin. apply Hx. apply elem_of_app. right. by apply elem_of_list_In, in_rev; rewrite rev_involutive; apply elem_of_list_In. }
    rewrite IH.
    + rewrite c_dec_dec. rewrite <- app_assoc. cbn [app]. f_equal. apply c_dec_ext.
      intros y _. destruct (decide (y = x)) as [->|Hne].
      * rewrite (one_in_notin l1), (one_in_in (x :: l1)) by (done || left). lia.
      * unfold one_in. destruct (decide (y ∈ l1)) as [Hy|Hy].
        -- rewrite decide_True by (by right). lia.
        -- rewrite decide_False by (by apply not_elem_of_cons). lia.
    + done.
    + intros y Hy. destruct (Hc y) as [Hs Hl]; [by right|]. split.
      * by apply is_Some_dec.
      * rewrite cnt_dec by done. rewrite decide_False by congruence. lia.
Qed.

Lemma clock_scan_stop c q x fuel :
  is_Some (c_tbl c !! x) -> cnt c x <= 0 -> clock_scan fuel c (q ++ [x]) = Ok (c, q ++ [x], x).
Proof.
  intros [o Ho] Hx. unfold cnt in Hx. rewrite Ho in Hx.
  destruct fuel; cbn; rewrite last_snoc, Ho, decide_False by lia; done.
Qed.

Lemma rev_elem (l : list Z) y : y ∈ rev l <-> y ∈ l.
Proof. rewrite !elem_of_list_In. by rewrite <- in_rev. Qed.

Lemma NoDup_rev' (l : list Z) : NoDup l -> NoDup (rev l).
Proof. rewrite !NoDup_ListNoDup. apply NoDup_rev. Qed.

(** The scan in closed form.  Tail first, the queue is [l1 ++ x :: l2]; [x] is
    the first object with the smallest counter [m]. *)
Lemma clock_scan_closed m c l1 x l2 fuel :
  NoDup (l1 ++ x :: l2) ->
  (forall y, y ∈ l1 ++ x :: l2 -> is_Some (c_tbl c !! y)) ->
  cnt c x = Z.of_nat m ->
  (forall y, y ∈ l1 -> Z.of_nat m < cnt c y) ->
  (forall y, y ∈ l2 -> Z.of_nat m <= cnt c y) ->
  (m * length (l1 ++ x :: l2) + length l1 <= fuel)%nat ->
  clock_scan fuel c (rev (l1 ++ x :: l2))
  = Ok (c_dec c (fun y => if decide (y ∈ l1 ++ x :: l2) then Z.of_nat m + one_in l1 y else 0),
        rev l1 ++ rev l2 ++ [x], x).
Proof.
  revert c fuel. induction m as [|m IH]; intros c fuel Hn Hs Hx H1 H2 Hf.
  - cbn [Nat.mul Nat.add] in Hf.
    replace (rev (l1 ++ x :: l2)) with ((rev l2 ++ [x]) ++ rev l1) by (by rewrite rev_app_distr).
    replace fuel with (length l1 + (fuel - length l1))%nat by lia.
    rewrite clock_scan_steps.
    + rewrite (app_assoc (rev l1)), clock_scan_stop.
      * rewrite <- app_assoc. f_equal. f_equal. f_equal. apply c_dec_ext.
        intros y _. destruct (decide (y ∈ l1 ++ x :: l2)); [lia|].
        apply one_in_notin. intros Hy. apply n. apply elem_of_app. by left.
      * apply is_Some_dec. apply Hs. set_solver.
      * rewrite cnt_dec by (apply Hs; set_solver). rewrite Hx. unfold one_in.
        destruct (decide _); lia.
    + apply NoDup_rev' in Hn. by rewrite rev_app_distr in Hn.
    + intros y Hy. split; [apply Hs; set_solver|]. specialize (H1 y Hy). lia.
  - set (rq := l1 ++ x :: l2) in *.
    replace fuel with (length rq + (fuel - length rq))%nat by (cbn [Nat.mul] in Hf; lia).
    pose proof (clock_scan_steps rq c [] (fuel - length rq)) as Hst.
    cbn [app] in Hst. rewrite Hst.
    + rewrite app_nil_r. unfold rq. rewrite IH.
      * rewrite c_dec_dec. f_equal. f_equal. f_equal. apply c_dec_ext.
        intros y _. fold rq. unfold one_in at 1. destruct (decide (y ∈ rq)); lia.
      * done.
      * intros y Hy. apply is_Some_dec. auto.
      * rewrite cnt_dec by (apply Hs; set_solver). rewrite one_in_in by set_solver. lia.
      * intros y Hy. rewrite cnt_dec by (apply Hs; set_solver). rewrite one_in_in by set_solver.
        specialize (H1 y Hy). lia.
      * intros y Hy. rewrite cnt_dec by (apply Hs; set_solver). rewrite one_in_in by set_solver.
        specialize (H2 y Hy). lia.
      * fold rq. cbn [Nat.mul] in Hf. lia.
    + by apply NoDup_rev'.
    + intros y Hy. split; [auto|]. apply elem_of_app in Hy as [Hy|Hy].
      * specialize (H1 y Hy). lia.
      * apply elem_of_cons in Hy as [->|Hy]; [lia|]. specialize (H2 y Hy). lia.
Qed.

(** First minimum of a non-empty list. *)
Lemma first_min (f : Z -> Z) (l : list Z) : l <> [] ->
  exists l1 x l2, l = l1 ++ x :: l2 /\ (forall y, y ∈ l1 -> f x < f y) /\ (forall y, y ∈ l2 -> f x <= f y).
Proof.
  induction l as [|a l IH]; [done|]. intros _.
  destruct l as [|b l].
  - exists [], a, []. split_and!; [done|set_solver|set_solver].
  - destruct IH as (l1 & x & l2 & Heq & H1 & H2); [done|].
    destruct (decide (f a <= f x)) as [Hle|Hgt].
    + exists [], a, (b :: l). split_and!; [done|set_solver|].
      rewrite Heq. intros y Hy. apply elem_of_app in Hy as [Hy|Hy].
      * specialize (H1 y Hy). lia.
      * apply elem_of_cons in Hy as [->|Hy]; [lia|]. specialize (H2 y Hy). lia.
    + exists (a :: l1), x, l2. split_and!; [by rewrite Heq| |done].
      intros y Hy. apply elem_of_cons in Hy as [->|Hy]; [lia|auto].
Qed.

Lemma clock_scan_pure_prefix c rq l1 : forall cur n fuel,
  (forall y, y ∈ l1 -> is_Some (c_tbl c !! y) /\ n < cnt c y) ->
  clock_scan_pure (length l1 + fuel) c rq (l1 ++ cur) n = clock_scan_pure fuel c rq cur n.
Proof.
  induction l1 as [|x l1 IH]; intros cur n fuel H; [done|].
  cbn. destruct (H x) as [[o Ho] Hx]; [left|]. unfold cnt in Hx. rewrite Ho in *.
  rewrite decide_True by lia. apply IH. intros y Hy. apply H. by right.
Qed.

Lemma clock_scan_pure_wrap c rq n k : rq <> [] ->
  clock_scan_pure (S k) c rq [] n = clock_scan_pure k c rq rq (n + 1).
Proof. by destruct rq. Qed.

Lemma clock_scan_pure_closed c l1 x l2 k : forall n fuel,
  (forall y, y ∈ l1 ++ x :: l2 -> is_Some (c_tbl c !! y)) ->
  cnt c x = n + Z.of_nat k ->
  (forall y, y ∈ l1 -> n + Z.of_nat k < cnt c y) ->
  (forall y, y ∈ l2 -> n + Z.of_nat k <= cnt c y) ->
  (k * S (length (l1 ++ x :: l2)) + length l1 + 1 <= fuel)%nat ->
  clock_scan_pure fuel c (l1 ++ x :: l2) (l1 ++ x :: l2) n = Ok x.
Proof.
  induction k as [|k IH]; intros n fuel Hs Hx H1 H2 Hf.
  - replace fuel with (length l1 + S (fuel - length l1 - 1))%nat by lia.
    rewrite clock_scan_pure_prefix.
    + cbn. destruct (Hs x) as [o Ho]; [set_solver|]. unfold cnt in Hx. rewrite Ho in *.
      rewrite decide_False by lia. done.
    + intros y Hy. split; [apply Hs; set_solver|]. specialize (H1 y Hy). lia.
  - set (rq := l1 ++ x :: l2) in *.
    replace fuel with (length rq + S (fuel - length rq - 1))%nat by (cbn [Nat.mul] in Hf; lia).
    pose proof (clock_scan_pure_prefix c rq rq [] n (S (fuel - length rq - 1))) as Hp.
    rewrite app_nil_r in Hp. rewrite Hp.
    + rewrite clock_scan_pure_wrap by (unfold rq; by destruct l1).
      apply IH; fold rq; try done.
      * lia.
      * intros y Hy. specialize (H1 y Hy). lia.
      * intros y Hy. specialize (H2 y Hy). lia.
      * cbn [Nat.mul] in Hf. lia.
    + intros y Hy. split; [auto|]. apply elem_of_app in Hy as [Hy|Hy].
      * specialize (H1 y Hy). lia.
      * apply elem_of_cons in Hy as [->|Hy]; [lia|]. specialize (H2 y Hy). lia.
Qed.

Lemma clock_bound_perm c q q' : q ≡ₚ q' -> clock_bound c q = clock_bound c q'.
Proof.
  intros H. unfold clock_bound. f_equal. induction H; cbn; try done.
  - by rewrite IHPermutation.
  - destruct (c_tbl c !! x), (c_tbl c !! y); lia.
  - lia.
Qed.

Lemma clock_bound_cons c x q :
  is_Some (c_tbl c !! x) -> 0 <= cnt c x ->
  clock_bound c (x :: q) = (Z.to_nat (cnt c x) + clock_bound c q)%nat.
Proof.
  intros [o Ho] H. unfold clock_bound, cnt in *. cbn. rewrite Ho in *.
  rewrite <- Z2Nat.inj_add; [f_equal; lia|lia|].
  clear. induction q as [|y q IH]; cbn; [lia|]. destruct (c_tbl c !! y); lia.
Qed.

Lemma clock_bound_ge c l m :
  (forall y, y ∈ l -> is_Some (c_tbl c !! y) /\ Z.of_nat m <= cnt c y) ->
  (m * length l <= clock_bound c l)%nat.
Proof.
  induction l as [|x l IH]; intros H; cbn [length]; [lia|].
  destruct (H x) as [Hs Hx]; [left|]. rewrite clock_bound_cons by (done || lia).
  assert (m * length l <= clock_bound c l)%nat by (apply IH; intros; apply H; by right).
  lia.
Qed.

Lemma clock_bound_app c l1 l2 :
  (forall y, y ∈ l1 -> is_Some (c_tbl c !! y) /\ 0 <= cnt c y) ->
  clock_bound c (l1 ++ l2) = (clock_bound c l1 + clock_bound c l2)%nat.
Proof.
  induction l1 as [|x l1 IH]; intros H; cbn [app]; [done|].
  destruct (H x) as [Hs Hx]; [left|]. rewrite !clock_bound_cons by done.
  rewrite IH; [lia|]. intros; apply H; by right.
Qed.

Lemma clock_bound_suffices c l1 x l2 m :
  (forall y, y ∈ l1 ++ x :: l2 -> is_Some (c_tbl c !! y)) ->
  cnt c x = Z.of_nat m ->
  (forall y, y ∈ l1 -> Z.of_nat m < cnt c y) ->
  (forall y, y ∈ l2 -> Z.of_nat m <= cnt c y) ->
  (m * length (l1 ++ x :: l2) + length l1 <= clock_bound c (rev (l1 ++ x :: l2)))%nat.
Proof.
  intros Hs Hx H1 H2.
  rewrite <- (clock_bound_perm c (l1 ++ x :: l2)) by apply Permutation_rev.
  rewrite clock_bound_app.
  - rewrite clock_bound_cons; [|apply Hs; set_solver|lia].
    assert (S m * length l1 <= clock_bound c l1)%nat.
    { apply clock_bound_ge. intros y Hy. split; [apply Hs; set_solver|]. specialize (H1 y Hy). lia. }
    assert (m * length l2 <= clock_bound c l2)%nat.
    { apply clock_bound_ge. intros y Hy. split; [apply Hs; set_solver|]. auto. }
    rewrite app_length. cbn [length]. rewrite Hx, Nat2Z.id. nia.
  - intros y Hy. split; [apply Hs; set_solver|]. specialize (H1 y Hy). lia.
Qed.
