(** Sieve: closed form of the hand movement and simulation. *)
From stdpp Require Import gmap list numbers fin_maps sorting.
From Verif Require Import Base Driver Abs AbsFacts Sim ModelQueue QueueFacts SimQueue ClockFacts SimClock.
Open Scope Z_scope.

Lemma app_cons_split {A} (b a l1 l2 : list A) x : b ++ a = l1 ++ x :: l2 ->
  (exists l2', b = l1 ++ x :: l2' /\ l2 = l2' ++ a) \/
  (exists l1', l1 = b ++ l1' /\ a = l1' ++ x :: l2).
Proof.
  revert l1. induction b as [|y b IH]; intros l1 H; cbn in H.
  - right. by exists l1.
  - destruct l1 as [|z l1]; cbn in H; injection H as -> H.
    + left. by exists b.
    + destruct (IH l1 H) as [(l2' & -> & ->)|(l1' & -> & ->)]; [left|right]; eauto.
Qed.

Lemma q_prev_mid u b a w : NoDup (u ++ b :: a :: w) -> q_prev a (u ++ b :: a :: w) = Some b.
Proof.
  induction u as [|y u IH]; intros H; cbn.
  - by rewrite decide_True.
  - cbn in H. apply NoDup_cons in H as [Hy H].
    destruct u as [|z u]; cbn in *.
    + rewrite decide_False; [by apply IH|]. intros ->. apply NoDup_cons in H as [H _]. set_solver.
    + rewrite decide_False; [by apply IH|]. intros ->. apply NoDup_cons in H as [H _]. set_solver.
Qed.

Lemma q_prev_notin a q : a ∉ q -> q_prev a q = None.
Proof.
  induction q as [|y q IH]; intros H; [done|]. cbn. destruct q as [|z q]; [done|].
  rewrite decide_False by set_solver. apply IH. set_solver.
Qed.

Lemma q_prev_head a w : a ∉ w -> q_prev a (a :: w) = None.
Proof.
  intros H. cbn. destruct w as [|z w]; [done|].
  rewrite decide_False by set_solver. by apply q_prev_notin.
Qed.

Lemma q_prev_in a q p : q_prev a q = Some p -> p ∈ q.
Proof.
  induction q as [|y q IH]; cbn; [done|]. destruct q as [|z q]; [done|].
  destruct (decide (z = a)); [intros [= <-]; left|]. intros H. right. auto.
Qed.

Lemma q_prev_ne a q p : NoDup q -> q_prev a q = Some p -> p <> a.
Proof.
  induction q as [|y q IH]; cbn; [done|]. intros Hn. destruct q as [|z q]; [done|].
  apply NoDup_cons in Hn as [Hy Hn].
  destruct (decide (z = a)) as [->|]; [intros [= <-]; set_solver|]. auto.
Qed.

Lemma one_in_cons c x l1 :
  x ∉ l1 -> c_dec (c_dec c (fun y => if decide (y = x) then 1 else 0)) (one_in l1) = c_dec c (one_in (x :: l1)).
Proof.
  intros H. rewrite c_dec_dec. apply c_dec_ext. intros y _.
  destruct (decide (y = x)) as [->|Hne].
  - rewrite (one_in_notin l1), (one_in_in (x :: l1)) by (done || left). lia.
  - unfold one_in. destruct (decide (y ∈ l1)) as [Hy|Hy].
    + rewrite decide_True by (by right). lia.
    + rewrite decide_False by (by apply not_elem_of_cons). lia.
Qed.

(** Walking along a stretch of the queue. *)
Lemma sieve_scan_walk q l1 : forall c pre x l2 obj fuel,
  NoDup q -> rev q = pre ++ l1 ++ x :: l2 -> head (l1 ++ [x]) = Some obj ->
  (forall y, y ∈ l1 -> is_Some (c_tbl c !! y) /\ 0 < cnt c y) ->
  sieve_scan (length l1 + fuel) c q obj = sieve_scan fuel (c_dec c (one_in l1)) q x.
Proof.
  induction l1 as [|a l1 IH]; intros c pre x l2 obj fuel Hn Hq Hh Hc.
  - cbn in *. injection Hh as ->. f_equal. rewrite <- (c_dec_0 c) at 1. apply c_dec_ext.
    intros y _. by rewrite one_in_notin by (by inversion 1).
  - cbn in Hh. injection Hh as <-. cbn [length Nat.add sieve_scan].
    destruct (Hc a) as [[o Ho] H1]; [left|]. unfold cnt in H1. rewrite Ho in *.
    rewrite decide_True by lia. rewrite c_dec_one.
    assert (exists b w, l1 ++ x :: l2 = b :: w /\ head (l1 ++ [x]) = Some b) as (b & w & Hb & Hhb).
    { destruct l1; cbn; eauto. }
    assert (Hqp : q_prev a q = Some b).
    { rewrite <- (rev_involutive q), Hq. cbn. rewrite Hb, rev_app_distr. cbn.
      rewrite <- !app_assoc. cbn. apply q_prev_mid.
      apply NoDup_rev' in Hn. rewrite Hq in Hn. cbn in Hn. rewrite Hb in Hn.
      apply NoDup_rev' in Hn. rewrite rev_app_distr in Hn. cbn in Hn.
      by rewrite <- !app_assoc in Hn. }
    rewrite Hqp.
    assert (Hal : a ∉ l1).
    { apply NoDup_rev' in Hn. rewrite Hq in Hn. apply NoDup_app in Hn as (_ & _ & Hn).
      cbn in Hn. apply NoDup_cons in Hn as [Hn _]. set_solver. }
    rewrite (IH _ (pre ++ [a]) x l2 b).
    + by rewrite one_in_cons.
    + done.
    + rewrite Hq. by rewrite <- app_assoc.
    + done.
    + intros y Hy. destruct (Hc y) as [Hs Hp]; [by right|]. split; [by apply is_Some_dec|].
      rewrite cnt_dec by done. rewrite decide_False by congruence. lia.
Qed.

(** Walking off the head: the hand wraps to the tail. *)
Lemma sieve_scan_wrap q cur c pre obj t fuel :
  NoDup q -> rev q = pre ++ cur -> head cur = Some obj -> last q = Some t ->
  (forall y, y ∈ cur -> is_Some (c_tbl c !! y) /\ 0 < cnt c y) ->
  sieve_scan (length cur + fuel) c q obj = sieve_scan fuel (c_dec c (one_in cur)) q t.
Proof.
  intros Hn Hq Hh Ht Hc. destruct cur as [|h cur _] using rev_ind; [done|].
  rewrite app_length. cbn [length].
  replace (length cur + 1 + fuel)%nat with (length cur + S fuel)%nat by lia.
  assert (Hhc : h ∉ cur).
  { apply NoDup_rev' in Hn. rewrite Hq in Hn. apply NoDup_app in Hn as (_ & _ & Hn).
    apply NoDup_app in Hn as (_ & Hn & _). intros Hin. apply (Hn h Hin). set_solver. }
  rewrite (sieve_scan_walk q cur c pre h [] obj (S fuel)).
  - cbn [sieve_scan].
    destruct (Hc h) as [Hs H1]; [set_solver|].
    assert (Hs' : is_Some (c_tbl (c_dec c (one_in cur)) !! h)) by (by apply is_Some_dec).
    assert (Hcn : cnt (c_dec c (one_in cur)) h = cnt c h).
    { rewrite cnt_dec by done. rewrite one_in_notin by done. lia. }
    destruct Hs' as [o Ho]. unfold cnt at 1 in Hcn. rewrite Ho in *. rewrite decide_True by lia.
    assert (Hqe : q = h :: rev cur ++ rev pre).
    { rewrite <- (rev_involutive q), Hq, !rev_app_distr. done. }
    assert (Hqp : q_prev h q = None).
    { rewrite Hqe. apply q_prev_head. rewrite Hqe in Hn. by apply NoDup_cons in Hn as [Hn _]. }
    rewrite Hqp, Ht, c_dec_one, c_dec_dec. f_equal. apply c_dec_ext. intros y _.
    unfold one_in. destruct (decide (y = h)) as [->|Hne].
    + rewrite decide_False by done. rewrite decide_True by set_solver. lia.
    + destruct (decide (y ∈ cur)).
      * rewrite decide_True by set_solver. lia.
      * rewrite decide_False by set_solver. lia.
  - done.
  - rewrite Hq. done.
  - done.
  - intros y Hy. apply Hc. set_solver.
Qed.

Lemma sieve_scan_stop fuel c q x :
  is_Some (c_tbl c !! x) -> cnt c x <= 0 -> sieve_scan fuel c q x = Ok (c, x).
Proof.
  intros [o Ho] H. unfold cnt in H. rewrite Ho in H.
  destruct fuel; cbn; rewrite Ho, decide_False by lia; done.
Qed.

Lemma sieve_walk_found c l1 x l2 f :
  (forall y, y ∈ l1 -> is_Some (c_tbl c !! y) /\ f < cnt c y) ->
  is_Some (c_tbl c !! x) -> cnt c x <= f -> sieve_walk c (l1 ++ x :: l2) f = Ok (Some x).
Proof.
  induction l1 as [|y l1 IH]; intros H [o Ho] Hx; cbn.
  - unfold cnt in Hx. rewrite Ho in *. by rewrite decide_False by lia.
  - destruct (H y) as [[oy Hoy] Hy]; [left|]. unfold cnt in Hy. rewrite Hoy in *.
    rewrite decide_True by lia. apply IH; eauto. intros z Hz. apply H. by right.
Qed.

Lemma sieve_walk_none c l f :
  (forall y, y ∈ l -> is_Some (c_tbl c !! y) /\ f < cnt c y) -> sieve_walk c l f = Ok None.
Proof.
  induction l as [|y l IH]; intros H; cbn; [done|].
  destruct (H y) as [[oy Hoy] Hy]; [left|]. unfold cnt in Hy. rewrite Hoy in *.
  rewrite decide_True by lia. apply IH. intros z Hz. apply H. by right.
Qed.

Lemma from_id_split p A B : p ∉ A -> from_id p (A ++ p :: B) = p :: B.
Proof.
  induction A as [|y A IH]; intros H; cbn.
  - by rewrite decide_True.
  - rewrite decide_False by set_solver. apply IH. set_solver.
Qed.

(** Scan order: from the hand towards newer objects, then from the oldest. *)
Definition hand_split (q : list Z) (ptr : option Z) (A B : list Z) : Prop :=
  rev q = A ++ B /\
  match ptr with None => A = [] | Some p => exists B', B = p :: B' end.

Definition srel (cap md : Z) (s : sieve_state) (a : abs) : Prop :=
  brel cap md (v_c s) a /\ qdom (v_q s) (a_m a) /\ qsorted e_ins (v_q s) (a_m a) /\
  (forall id o, c_tbl (v_c s) !! id = Some o -> o_p1 o = 0 \/ o_p1 o = 1) /\
  (forall p, v_ptr s = Some p -> p ∈ v_q s).

Section Sieve.
  Context (cap md : Z).

  Lemma srel_scan s t m a : srel cap md s (mkAbs t m a) -> m <> ∅ ->
    exists A B l1 x l2,
      hand_split (v_q s) (v_ptr s) A B /\ B ++ A = l1 ++ x :: l2 /\
      (forall y, y ∈ l1 -> cnt (v_c s) x < cnt (v_c s) y) /\
      (forall y, y ∈ l2 -> cnt (v_c s) x <= cnt (v_c s) y) /\
      is_Some (m !! x) /\
      (forall y, y ∈ B ++ A <-> y ∈ v_q s) /\
      (forall r, sieve_evict s r =
         let! c := cache_evict_base
            (c_dec (v_c s) (fun y => if decide (y ∈ B ++ A) then cnt (v_c s) x + one_in l1 y else 0)) x in
         Ok (mkSieve c (q_del x (v_q s)) (q_prev x (v_q s)))) /\
      (forall r, sieve_to_evict s r = Ok (s, Some x)).
  Proof.
    intros (H1 & H2 & H3 & H4 & H5) Hne. destruct s as [c q ptr]. cbn in *.
    pose proof (qdom_nonempty _ _ H2 Hne) as Hq.
    assert (Hn : NoDup q) by apply H2.
    assert (exists A B, hand_split q ptr A B) as (A & B & HS).
    { destruct ptr as [p|].
      - specialize (H5 p eq_refl). rewrite <- rev_elem in H5.
        apply elem_of_list_split in H5 as (A & B & HAB). exists A, (p :: B). split; eauto.
      - exists [], (rev q). done. }
    assert (HB : B <> []).
    { destruct HS as [HS1 HS2]. destruct ptr.
      - destruct HS2 as [? ->]. done.
      - subst A. cbn in HS1. rewrite <- HS1. intros Hr. apply Hq. by rewrite <- (rev_involutive q), Hr. }
    assert (HBA : B ++ A <> []) by (by destruct B).
    destruct (first_min (cnt c) (B ++ A) HBA) as (l1 & x & l2 & HL & Hl1 & Hl2).
    assert (Hin : forall y, y ∈ B ++ A <-> y ∈ q).
    { intros y. rewrite <- (rev_elem q), (proj1 HS), !elem_of_app. tauto. }
    assert (Hs : forall y, y ∈ B ++ A -> is_Some (c_tbl c !! y)).
    { intros y Hy. apply Hin in Hy. apply H2 in Hy. eapply brel_is_Some; eauto. }
    assert (H01 : forall y, y ∈ B ++ A -> cnt c y = 0 \/ cnt c y = 1).
    { intros y Hy. destruct (Hs y Hy) as [o Ho]. unfold cnt. rewrite Ho. eauto. }
    assert (Hxin : x ∈ B ++ A) by (rewrite HL; set_solver).
    assert (Hl1in : forall y, y ∈ l1 -> y ∈ B ++ A) by (intros; rewrite HL; set_solver).
    assert (exists t0, last q = Some t0 /\ head (A ++ B) = Some t0) as (t0 & Ht & Hht).
    { destruct q as [|z q _] using rev_ind; [done|]. exists z. rewrite last_snoc. split; [done|].
      rewrite <- (proj1 HS), rev_app_distr. done. }
    assert (exists obj, head B = Some obj /\
       match ptr with Some p => Ok p | None => match last q with Some t => Ok t | None => Err NullDeref end end
       = Ok obj) as (obj & Hobj & Hptr).
    { destruct HS as [HS1 HS2]. destruct ptr as [p|].
      - destruct HS2 as [B' ->]. eauto.
      - subst A. cbn in Hht. rewrite Ht. eauto. }
    set (L := B ++ A) in *.
    assert (Hbound : (Z.to_nat (cnt c x) * length L + length l1 <= clock_bound c q)%nat).
    { assert (Hp : rev (l1 ++ x :: l2) ≡ₚ q).
      { assert (Hqp : q ≡ₚ A ++ B) by (rewrite <- (proj1 HS); apply Permutation_rev).
        rewrite <- HL. unfold L. rewrite <- Permutation_rev, Hqp. apply Permutation_app_comm. }
      rewrite <- (clock_bound_perm _ _ _ Hp). rewrite HL. apply clock_bound_suffices.
      - intros y Hy. apply Hs. by rewrite HL.
      - rewrite Z2Nat.id; [done|]. destruct (H01 x Hxin); lia.
      - intros y Hy. specialize (Hl1 y Hy). destruct (H01 x Hxin); lia.
      - intros y Hy. specialize (Hl2 y Hy). destruct (H01 x Hxin); lia. }
    exists A, B, l1, x, l2.
    split; [done|]. split; [done|]. split; [done|]. split; [done|].
    split. { apply H2. by apply Hin. }
    split; [done|].
    assert (HNL : NoDup L).
    { unfold L. rewrite Permutation_app_comm, <- (proj1 HS). by apply NoDup_rev'. }
    (* the scan *)
    assert (Hscan : sieve_scan (clock_bound c q) c q obj =
       Ok (c_dec c (fun y => if decide (y ∈ L) then cnt c x + one_in l1 y else 0), x)).
    { destruct (H01 x Hxin) as [Hx0|Hx1].
      - (* an unvisited object exists *)
        rewrite Hx0 in *. cbn [Z.to_nat Nat.mul Nat.add] in Hbound.
        replace (clock_bound c q) with (length l1 + (clock_bound c q - length l1))%nat by lia.
        assert (Hpos : forall y, y ∈ l1 -> is_Some (c_tbl c !! y) /\ 0 < cnt c y).
        { intros y Hy. split; [apply Hs; auto|]. by apply Hl1. }
        assert (Hst : sieve_scan (length l1 + (clock_bound c q - length l1)) c q obj =
                sieve_scan (clock_bound c q - length l1) (c_dec c (one_in l1)) q x).
        { destruct (app_cons_split _ _ _ _ _ HL) as [(l2' & HB' & _)|(l1' & Hl1' & HA')].
          - eapply (sieve_scan_walk q l1 c A x l2'); [done| | |done].
            + rewrite (proj1 HS), HB'. done.
            + rewrite HB' in Hobj. by destruct l1.
          - rewrite Hl1' in *. rewrite app_length in *.
            rewrite <- Nat.add_assoc.
            rewrite (sieve_scan_wrap q B c A obj t0); [|done|by apply HS|done|done|].
            2: { intros y Hy. apply Hpos. set_solver. }
            rewrite (sieve_scan_walk q l1' _ [] x (l2 ++ B) t0); [|done| | |].
            + rewrite c_dec_dec. f_equal. apply c_dec_ext. intros y _.
              assert (Hd : forall z, z ∈ B -> z ∉ l1').
              { intros z Hz Hz'. unfold L in HNL. apply NoDup_app in HNL as (_ & HNL & _).
                apply (HNL z Hz). rewrite HA'. set_solver. }
              unfold one_in. destruct (decide (y ∈ B)) as [HyB|HyB].
              * rewrite decide_False by auto. rewrite decide_True by set_solver. lia.
              * destruct (decide (y ∈ l1')).
                -- rewrite decide_True by set_solver. lia.
                -- rewrite decide_False by set_solver. lia.
            + rewrite (proj1 HS), HA'. cbn. by rewrite <- app_assoc.
            + rewrite HA' in Hht. by destruct l1'.
            + intros y Hy.
              assert (HyB : y ∉ B).
              { intros Hz'. unfold L in HNL. apply NoDup_app in HNL as (_ & HNL & _).
                apply (HNL y Hz'). rewrite HA'. set_solver. }
              destruct (Hpos y) as [Hsy Hpy]; [set_solver|].
              split; [by apply is_Some_dec|]. rewrite cnt_dec by done.
              rewrite one_in_notin by done. lia. }
        rewrite Hst. rewrite sieve_scan_stop.
        + f_equal. f_equal. apply c_dec_ext. intros y _.
          destruct (decide (y ∈ L)) as [|HnL]; [lia|]. apply one_in_notin. auto.
        + apply is_Some_dec. auto.
        + rewrite cnt_dec by auto. unfold one_in. destruct (decide _); lia.
      - (* everything visited: one full turn *)
        assert (l1 = []) as ->.
        { destruct l1 as [|y l1]; [done|]. specialize (Hl1 y). 
          destruct (H01 y); [apply Hl1in; left| |]; specialize (Hl1 ltac:(left)); lia. }
        cbn [app] in HL.
        assert (Hall : forall y, y ∈ L -> cnt c y = 1).
        { intros y Hy. destruct (H01 y Hy) as [Hy0|]; [|done].
          rewrite HL in Hy. apply elem_of_cons in Hy as [->|Hy]; [lia|].
          specialize (Hl2 y Hy). lia. }
        rewrite Hx1 in Hbound. cbn [length Z.to_nat] in Hbound.
        assert (obj = x) as ->. { destruct B; [done|]. cbn in *. unfold L in HL. cbn in HL. congruence. }
        unfold L in Hbound. rewrite app_length in Hbound.
        replace (clock_bound c q) with (length B + (length A + (clock_bound c q - length B - length A)))%nat by lia.
        rewrite (sieve_scan_wrap q B c A x t0); [|done|by apply HS|done|done|].
        2: { intros y Hy. split; [apply Hs; set_solver|]. rewrite Hall; [lia|]. set_solver. }
        assert (HBx : exists B', B = x :: B').
        { destruct B; [done|]. unfold L in HL. cbn in *. injection HL as -> _. eauto. }
        destruct HBx as [B' HBx].
        assert (Hd : forall z, z ∈ B -> z ∉ A).
        { unfold L in HNL. apply NoDup_app in HNL as (_ & HNL & _). exact HNL. }
        rewrite (sieve_scan_walk q A _ [] x B' t0); [|done| | |].
        + rewrite sieve_scan_stop.
          * rewrite c_dec_dec. f_equal. f_equal. apply c_dec_ext. intros y _.
            rewrite (one_in_notin []) by (by inversion 1). unfold one_in.
            destruct (decide (y ∈ B)) as [HyB|HyB].
            -- rewrite decide_False by auto. rewrite decide_True by set_solver. lia.
            -- destruct (decide (y ∈ A)).
               ++ rewrite decide_True by set_solver. lia.
               ++ rewrite decide_False by set_solver. lia.
          * apply is_Some_dec, is_Some_dec. auto.
          * rewrite cnt_dec by (apply is_Some_dec; auto). rewrite cnt_dec by auto.
            rewrite (one_in_in B) by (rewrite HBx; left). unfold one_in.
            destruct (decide _); lia.
        + cbn. rewrite (proj1 HS). by rewrite HBx.
        + rewrite HBx in Hht. by destruct A.
        + intros y Hy. assert (HyL : y ∈ L) by (unfold L; set_solver).
          split; [apply is_Some_dec; auto|].
          rewrite cnt_dec by auto. rewrite one_in_notin; [rewrite Hall; [lia|done]|].
          intros HyB. by apply (Hd y). }
    split.
    { intros r. unfold sieve_evict. cbn [v_ptr v_q v_c]. rewrite Hptr. cbn [rbind]. rewrite Hscan. done. }
    (* to_evict *)
    intros r. unfold sieve_to_evict. cbn [v_ptr v_q v_c].
    assert (Hstart : (match ptr with
             | None => Ok (rev q)
             | Some p => if decide (p ∈ rev q) then Ok (from_id p (rev q)) else Err UseAfterFree
             end) = Ok B).
    { destruct HS as [HS1 HS2]. destruct ptr as [p|].
      - destruct HS2 as [B' ->]. rewrite HS1. rewrite decide_True by set_solver.
        rewrite from_id_split; [done|].
        unfold L in HNL. apply NoDup_app in HNL as (_ & HNL & _). apply HNL. left.
      - rewrite HS1, HS2. done. }
    assert (Hwf0 : forall f, (forall y, y ∈ l1 -> f < cnt c y) -> cnt c x <= f ->
       sieve_to_evict_with_freq (mkSieve c q ptr) f = Ok (Some x)).
    { intros f Hf1 Hfx. unfold sieve_to_evict_with_freq. cbn [v_ptr v_q v_c]. rewrite Hstart. cbn [rbind].
      destruct (app_cons_split _ _ _ _ _ HL) as [(l2' & HB' & _)|(l1' & Hl1' & HA')].
      - rewrite HB'. rewrite sieve_walk_found; [done| |auto|done].
        intros y Hy. split; [apply Hs; auto|auto].
      - rewrite sieve_walk_none.
        + cbn [rbind]. rewrite (proj1 HS), HA', <- app_assoc. cbn [app].
          apply sieve_walk_found; [|auto|done].
          intros y Hy. assert (y ∈ l1) by (rewrite Hl1'; set_solver). split; [apply Hs; auto|auto].
        + intros y Hy. assert (y ∈ l1) by (rewrite Hl1'; set_solver). split; [apply Hs; auto|auto]. }
    rewrite Nat.add_comm. cbn [Nat.add].
    destruct (H01 x Hxin) as [Hx0|Hx1].
    - cbn [sieve_to_evict_loop]. rewrite Hwf0; [done| |lia]. intros y Hy. rewrite <- Hx0. auto.
    - cbn [sieve_to_evict_loop].
      assert (Hall : forall y, y ∈ L -> is_Some (c_tbl c !! y) /\ 0 < cnt c y).
      { intros y Hy. split; [auto|]. rewrite HL in Hy.
        apply elem_of_app in Hy as [Hy|Hy]; [specialize (Hl1 y Hy); lia|].
        apply elem_of_cons in Hy as [->|Hy]; [lia|specialize (Hl2 y Hy); lia]. }
      assert (Hwn : sieve_to_evict_with_freq (mkSieve c q ptr) 0 = Ok None).
      { unfold sieve_to_evict_with_freq. cbn [v_ptr v_q v_c]. rewrite Hstart. cbn [rbind].
        rewrite sieve_walk_none; [|intros y Hy; apply Hall; unfold L; set_solver].
        cbn [rbind]. rewrite sieve_walk_none; [done|].
        intros y Hy. apply Hall. unfold L. rewrite (proj1 HS) in Hy. set_solver. }
      rewrite Hwn. cbn [rbind].
      assert (Hwf1 : sieve_to_evict_with_freq (mkSieve c q ptr) (0 + 1) = Ok (Some x)).
      { apply Hwf0; [|lia]. intros y Hy. rewrite <- Hx1 in *. specialize (Hl1 y Hy). lia. }
      destruct (clock_bound c q); cbn [sieve_to_evict_loop]; rewrite Hwf1; done.
  Qed.

  Lemma sieve_sim : simulation pol_any sieve_ops cap md (req_ok md) (srel cap md).
  Proof.
    constructor; cbn.
    - done.
    - intros s a (H & _). apply H.
    - intros s a (H & _). apply H.
    - intros s a (H & _). apply H.
    - intros s a (H & _). apply H.
    - intros s a (H1 & H2). split; [by apply brel_tick|done].
    - intros s t m a (H1 & H2). split; [by eapply brel_clock|done].
    - intros s a r (H & _). unfold sieve_find. rewrite (brel_find_false _ _ _ _ _ H).
      rewrite andb_false_r. by destruct s.
    - intros s t m a r e Hok (H1 & H2 & H3 & H4 & H5) He. unfold sieve_find.
      destruct (brel_find_hit _ _ _ _ _ _ _ _ H1 He) as (c' & -> & Hb & o & Ho & Hc').
      eexists. split; [done|]. cbn in *. split_and!; cbn.
      + by apply brel_upd.
      + apply qdom_upd; eauto.
      + eapply qsorted_same_key; eauto.
      + intros id o'. subst c'. cbn.
        destruct (decide (id = r_id r)) as [->|Hne].
        * rewrite lookup_alter, lookup_insert. cbn. intros [= <-]. by right.
        * rewrite lookup_alter_ne, lookup_insert_ne by done. apply H4.
      + done.
    - intros s a r (H1 & H2) Hn. unfold sieve_find.
      rewrite (brel_find_miss _ _ _ _ _ _ H1 Hn). cbn. eexists. split; [done|]. by split.
    - intros s t m a r (H1 & H2). destruct (brel_can _ _ _ _ _ _ r H1) as (c' & Hc & Hb & Hc').
      unfold sieve_can_insert. rewrite Hc. eexists. split; [done|]. split; [done|]. by subst c'.
    - intros s t m a r Hok (H1 & H2 & H3 & H4 & H5) Hn Hr Hfit. unfold sieve_insert.
      destruct (brel_insert _ _ _ _ _ _ r H1 Hn Hr) as (c' & -> & Hb & Ht); [apply Hok|].
      cbn in *. eexists. split; [done|]. split_and!; cbn.
      + by apply brel_upd.
      + by apply qdom_cons.
      + apply qsorted_cons; [|intros i e' Hi|done].
        * destruct H2 as [_ H2]. rewrite H2, Hn. by intros [].
        * destruct Hok as (_ & Hok & _). specialize (Hok _ _ Hi). cbn in *. lia.
      + intros id o. rewrite Ht. destruct (decide (id = r_id r)) as [->|Hne].
        * rewrite lookup_alter, lookup_insert. cbn. intros [= <-]. by left.
        * rewrite lookup_alter_ne, lookup_insert_ne by done. apply H4.
      + intros p Hp. right. auto.
    - intros s t m a r Hok HR Hne.
      destruct (srel_scan s t m a HR Hne) as (A & B & l1 & x & l2 & HS & HL & Hl1 & Hl2 & [e He] & Hin & Hev & Hte).
      destruct HR as (H1 & H2 & H3 & H4 & H5). cbn in *.
      set (d := fun y => _) in Hev.
      destruct (brel_remove _ _ _ _ _ _ _ _ Hok (brel_dec _ _ _ _ d H1) He) as (c' & Hc & Hb & Ht).
      assert (HR' : srel cap md (mkSieve c' (q_del x (v_q s)) (q_prev x (v_q s))) (mkAbs t (delete x m) a)).
      { split_and!; cbn; [done|by apply qdom_del|by apply qsorted_del| |].
        - intros id o. rewrite Ht. intros [Hid Ho]%lookup_delete_Some.
          rewrite c_dec_lookup in Ho. apply fmap_Some in Ho as (o0 & Ho0 & ->). cbn.
          pose proof (H4 _ _ Ho0) as Hb0.
          assert (Hi : id ∈ v_q s) by (destruct (brel_some_inv _ _ _ _ _ _ H1 Ho0) as (e0 & He0 & _); apply H2; eauto).
          assert (Hi' : id ∈ B ++ A) by (by apply Hin).
          assert (Hcid : cnt (v_c s) id = o_p1 o0) by (unfold cnt; by rewrite Ho0).
          assert (Hcx : 0 <= cnt (v_c s) x).
          { destruct (brel_some _ _ _ _ _ _ H1 He) as (ox & Hox & _). unfold cnt. rewrite Hox.
            destruct (H4 _ _ Hox); lia. }
          unfold d. rewrite decide_True by done. unfold one_in.
          destruct (decide (id ∈ l1)) as [Hl|Hl].
          + specialize (Hl1 _ Hl). lia.
          + assert (id ∈ l2) as Hl' by (rewrite HL in Hi'; set_solver). specialize (Hl2 _ Hl'). lia.
        - intros p Hp. apply elem_q_del. split; [by eapply q_prev_in|].
          eapply q_prev_ne; [apply H2|done]. }
      assert (Hev' : forall r', sieve_evict s r' = Ok (mkSieve c' (q_del x (v_q s)) (q_prev x (v_q s)))).
      { intros r'. rewrite Hev. unfold cache_evict_base. rewrite Hc. done. }
      exists s, x, (mkSieve c' (q_del x (v_q s)) (q_prev x (v_q s))).
      split; [apply Hte|]. split; [by split_and!|]. split; [by eexists|]. split; [done|].
      split; [apply Hev'|]. split; [done|]. intros r'; eexists; split; [apply Hev'|done].
    - intros s t m a id Hok (H1 & H2 & H3 & H4 & H5). unfold sieve_remove. cbn in *.
      destruct (m !! id) as [e|] eqn:E.
      + destruct (brel_some _ _ _ _ _ _ H1 E) as (o & -> & _).
        destruct (brel_remove _ _ _ _ _ _ _ _ Hok H1 E) as (c' & -> & Hb & Ht).
        cbn. eexists. split; [done|]. split_and!; cbn; [done|by apply qdom_del|by apply qsorted_del| |].
        * intros id' o'. rewrite Ht. intros [_ Ho]%lookup_delete_Some. by eapply H4.
        * intros p Hp. apply elem_q_del. destruct (decide (v_ptr s = Some id)) as [Hpi|Hpi].
          -- split; [by eapply q_prev_in|]. eapply q_prev_ne; [apply H2|done].
          -- split; [auto|]. congruence.
      + rewrite (brel_none _ _ _ _ _ H1 E). cbn. eexists. split; [done|].
        rewrite delete_notin by done. done.
  Qed.

  Lemma sieve_init_rel adm : srel cap md (mkSieve (cache_init cap md adm) [] None) (abs_init adm).
  Proof.
    split_and!; cbn; [apply brel_init|apply qdom_empty|constructor| |done].
    intros id o. by rewrite lookup_empty.
  Qed.
End Sieve.
