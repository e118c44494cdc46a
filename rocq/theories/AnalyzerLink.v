(** From the requests handed to the statistics back to the trace. *)
From stdpp Require Import gmap list numbers fin_maps sorting.
From Verif Require Import Base ModelAnalyzer SpecAnalyzer AnalyzerFacts AnalyzerWin AnalyzerStats.
Open Scope Z_scope.

Section link.
  Context (tw t0 : Z).
  Notation ms := (meanings tw t0).

  Lemma ms_time tr : forall past, e_time <$> ms past tr = rel t0 <$> tr.
  Proof. induction tr as [|q tr IH]; intros past; cbn; [done|]. f_equal. apply IH. Qed.
  Lemma ms_size tr : forall past, e_size <$> ms past tr = a_size <$> tr.
  Proof. induction tr as [|q tr IH]; intros past; cbn; [done|]. f_equal. apply IH. Qed.
  Lemma ms_id tr : forall past, e_id <$> ms past tr = a_id <$> tr.
  Proof. induction tr as [|q tr IH]; intros past; cbn; [done|]. f_equal. apply IH. Qed.
  Lemma ms_op tr : forall past, e_op <$> ms past tr = a_op <$> tr.
  Proof. induction tr as [|q tr IH]; intros past; cbn; [done|]. f_equal. apply IH. Qed.
  Lemma ms_ttl tr : forall past, e_ttl <$> ms past tr = a_ttl <$> tr.
  Proof. induction tr as [|q tr IH]; intros past; cbn; [done|]. f_equal. apply IH. Qed.
  Lemma ms_length tr past : length (ms past tr) = length tr.
  Proof. by rewrite <- (fmap_length e_time), ms_time, fmap_length. Qed.
  Lemma ms_win tr past : ewin tw <$> ms past tr = win tw t0 <$> tr.
  Proof.
    replace (ewin tw <$> ms past tr) with ((fun x => x / tw) <$> (e_time <$> ms past tr))
      by (by rewrite <- list_fmap_compose).
    by rewrite ms_time, <- list_fmap_compose.
  Qed.

  Lemma ms_cold_sizes tr : forall past,
    e_size <$> filter (fun e => e_cold e = true) (ms past tr) = a_size <$> first_reqs past tr.
  Proof.
    induction tr as [|q tr IH]; intros past; cbn [meanings first_reqs]; [done|].
    rewrite fmap_app.
    assert (Hc : e_cold (meaning tw t0 past q) = bool_decide (last_use past (a_id q) = None)) by done.
    destruct (last_use past (a_id q)) as [[i x]|].
    - rewrite filter_cons_False by (rewrite Hc, bool_decide_false by done; done). apply IH.
    - rewrite filter_cons_True by (rewrite Hc, bool_decide_true by done; done).
      cbn. f_equal. apply IH.
  Qed.
  Lemma ms_gaps tr : forall past,
    (fun e => (e_rt e, e_vt e)) <$> filter (fun e => e_cold e = false) (ms past tr) = gaps past tr.
  Proof.
    induction tr as [|q tr IH]; intros past; cbn [meanings gaps]; [done|].
    assert (Hc : e_cold (meaning tw t0 past q) = bool_decide (last_use past (a_id q) = None)) by done.
    destruct (last_use past (a_id q)) as [[i x]|] eqn:E.
    - rewrite filter_cons_True by (rewrite Hc, bool_decide_false by done; done). cbn [fmap list_fmap].
      unfold meaning at 1 2. cbn [e_rt e_vt]. rewrite E. cbn. f_equal. apply IH.
    - rewrite filter_cons_False by (rewrite Hc, bool_decide_true by done; done). apply IH.
  Qed.

  (** the first requests are one per object *)
  Lemma first_reqs_ids tr : forall past,
    NoDup (a_id <$> first_reqs past tr) /\
    forall i, i ∈ (a_id <$> first_reqs past tr) <-> i ∈ (a_id <$> tr) /\ i ∉ (a_id <$> past).
  Proof.
    induction tr as [|q tr IH]; intros past; cbn [first_reqs].
    { split; [constructor|]. intros i. cbn. split; [intros H; by apply elem_of_nil in H|].
      intros [H _]; by apply elem_of_nil in H. }
    destruct (IH (q :: past)) as [Hnd Hel]. rewrite fmap_app.
    destruct (last_use past (a_id q)) as [p|] eqn:E; cbn [fmap list_fmap app].
    - split; [done|]. intros i. rewrite Hel. cbn [fmap list_fmap].
      rewrite !elem_of_cons.
      assert (Hin : a_id q ∈ (a_id <$> past)).
      { destruct (decide (a_id q ∈ (a_id <$> past))) as [|Hn]; [done|].
        apply last_use_none in Hn. congruence. }
      split; [naive_solver|]. intros [[->|H] Hn]; [done|]. split; [done|].
      intros [->|H2]; done.
    - apply last_use_none in E. split.
      + constructor; [|done]. rewrite Hel. cbn [fmap list_fmap]. rewrite elem_of_cons. naive_solver.
      + intros i. rewrite !elem_of_cons, Hel. cbn [fmap list_fmap].
        rewrite elem_of_cons. destruct (decide (i = a_id q)) as [->|]; naive_solver.
  Qed.
  Lemma first_reqs_objects tr : a_id <$> first_reqs [] tr ≡ₚ objects tr.
  Proof.
    destruct (first_reqs_ids tr []) as [Hnd Hel].
    apply NoDup_Permutation; [done|apply NoDup_remove_dups|].
    intros i. rewrite Hel. unfold objects. rewrite elem_of_remove_dups.
    split; [by intros [? _]|]. intros H. split; [done|]. apply not_elem_of_nil.
  Qed.
  Lemma ms_cold_count tr :
    Z.of_nat (length (filter (fun e => e_cold e = true) (ms [] tr)))
    = Z.of_nat (length (objects tr)).
  Proof.
    rewrite <- (fmap_length e_size), ms_cold_sizes, fmap_length.
    rewrite <- (fmap_length a_id (first_reqs [] tr)). by rewrite first_reqs_objects.
  Qed.

  (** ** Ordered traces *)
  Lemma ms_rising tr : 0 < tw -> StronglySorted (fun a b => a_time a <= a_time b) tr ->
    forall w, Forall (fun q => w <= win tw t0 q) tr -> rising w (win tw t0 <$> tr).
  Proof.
    intros Htw. induction tr as [|q tr IH]; intros Hs w Hw; cbn; [done|].
    apply StronglySorted_inv in Hs as [Hs Hq]. apply Forall_cons in Hw as [Hw _].
    split; [done|]. apply IH; [done|].
    eapply Forall_impl; [exact Hq|]. cbn. intros x Hx. unfold win, rel.
    apply Z.div_le_mono; lia.
  Qed.
  Lemma rising_reuses l : forall w, rising w (ewin tw <$> l) -> rising w (ewin tw <$> reuses l).
  Proof.
    assert (Hmono : forall l w w', w <= w' -> rising w' (ewin tw <$> l) -> rising w (ewin tw <$> l)).
    { intros [|x l'] w w' Hle; [done|]. cbn. intros [? ?]. split; [lia|done]. }
    induction l as [|e l IH]; intros w; [done|]. intros [Hw Hr]. unfold reuses.
    rewrite filter_cons. apply IH in Hr. destruct (decide (e_cold e = false)).
    - split; done.
    - by apply (Hmono _ _ (ewin tw e)).
  Qed.

  Lemma ms_rt_ok tr : forall past,
    StronglySorted (fun a b => a_time b <= a_time a) past ->
    StronglySorted (fun a b => a_time a <= a_time b) tr ->
    Forall (fun q => Forall (fun y => a_time y <= a_time q) past) tr ->
    Forall (fun q => t0 <= a_time q) past ->
    Forall (fun q => t0 <= a_time q < t0 + 2 ^ 31) tr ->
    Forall rt_ok (ms past tr) /\
    Forall (fun e => 0 <= e_create e <= e_time e /\ e_time e < 2 ^ 31) (ms past tr).
  Proof.
    induction tr as [|q tr IH]; intros past Hp Hs Hb Hpr Hr; cbn [meanings]; [done|].
    apply Forall_cons in Hb as [Hbq Hb]. apply Forall_cons in Hr as [Hrq Hr].
    apply StronglySorted_inv in Hs as [Hs Hq].
    destruct (IH (q :: past)) as [H1 H2].
    - constructor; [done|]. done.
    - done.
    - rewrite Forall_forall in Hb, Hq |- *. intros x Hx. constructor; [by apply Hq|by apply Hb].
    - constructor; [lia|done].
    - done.
    - split; constructor; try done.
      + unfold rt_ok, meaning. cbn [e_cold e_rt].
        destruct (last_use past (a_id q)) as [[i x]|] eqn:E.
        * rewrite bool_decide_false by done. apply last_use_elem in E as [E _].
          rewrite Forall_lookup in Hbq, Hpr. specialize (Hbq _ _ E). specialize (Hpr _ _ E).
          cbn in Hbq, Hpr. lia.
        * rewrite bool_decide_true by done. done.
      + unfold meaning. cbn [e_create e_time]. unfold created, rel.
        destruct (last (filter _ past)) as [x|] eqn:E; cbn [default].
        * assert (Hin : x ∈ past).
          { apply last_Some_elem_of in E. apply elem_of_list_filter in E as [_ E]. done. }
          rewrite Forall_forall in Hbq, Hpr. specialize (Hbq _ Hin). specialize (Hpr _ Hin).
          cbn in Hbq, Hpr. unfold id. lia.
        * unfold id. lia.
  Qed.

  (** ** Born *)

  Lemma ms_born tr : forall past e, e ∈ ms past tr ->
    exists x, head (filter (fun y => a_id y = e_id e) (rev past ++ tr)) = Some x /\
      e_create e = rel t0 x.
  Proof.
    induction tr as [|q tr IH]; intros past e He; [by apply elem_of_nil in He|].
    cbn [meanings] in He. apply elem_of_cons in He as [->|He].
    - cbn [e_id e_create]. unfold meaning. cbn [e_id e_create]. unfold created.
      rewrite filter_app, filter_cons_True by done.
      assert (Hrev : filter (fun y => a_id y = a_id q) (rev past)
                     = rev (filter (fun y => a_id y = a_id q) past)).
      { clear. induction past as [|x past IH]; [done|]. cbn [rev].
        rewrite filter_app, IH. rewrite !filter_cons, filter_nil.
        destruct (decide (a_id x = a_id q)); cbn [rev]; [done|]. by rewrite app_nil_r. }
      rewrite Hrev.
      destruct (filter (fun y => a_id y = a_id q) past) as [|a l] using rev_ind; [by exists q|].
      rewrite rev_app_distr, last_snoc. cbn. by exists a.
    - destruct (IH _ _ He) as (x & Hx & Hc). exists x. split; [|done].
      cbn [rev] in Hx. rewrite <- app_assoc in Hx. done.
  Qed.

  (** the first requests of a window name each of its objects once *)
  Lemma ms_fresh w tr : forall past,
    let l := e_id <$> filter (fun e => ewin tw e = w /\ e_first e = true) (ms past tr) in
    NoDup l /\
    forall i, i ∈ l <-> i ∈ (a_id <$> in_window tw t0 w tr) /\ i ∉ (a_id <$> in_window tw t0 w past).
  Proof.
    induction tr as [|q tr IH]; intros past; cbn [meanings].
    { cbn. split; [constructor|]. intros i. rewrite elem_of_nil. unfold in_window. cbn.
      naive_solver. }
    destruct (IH (q :: past)) as [Hnd Hel].
    assert (Hw : ewin tw (meaning tw t0 past q) = win tw t0 q) by done.
    assert (Hf : e_first (meaning tw t0 past q) = bool_decide (fresh_in_window tw t0 past q)) by done.
    rewrite filter_cons. unfold in_window in *.
    assert (Hcons : forall tl, filter (fun x => win tw t0 x = w) (q :: tl)
              = (if decide (win tw t0 q = w) then [q] else []) ++ filter (fun x => win tw t0 x = w) tl).
    { intros tl. rewrite filter_cons. by destruct (decide (win tw t0 q = w)). }
    rewrite Hcons. setoid_rewrite Hcons in Hel.
    destruct (decide (win tw t0 q = w)) as [Ew|Ew].
    2:{ rewrite decide_False by (rewrite Hw; naive_solver). cbn [app] in Hel |- *. done. }
    cbn [app fmap list_fmap] in Hel |- *.
    assert (Hfr : fresh_in_window tw t0 past q <->
                  a_id q ∉ (a_id <$> filter (fun x => win tw t0 x = w) past)).
    { unfold fresh_in_window. rewrite Forall_forall. split.
      - intros H Hin. apply elem_of_list_fmap in Hin as (x & Hx & Hin).
        apply elem_of_list_filter in Hin as [Hwx Hin]. apply (H x Hin); [done|]. by rewrite Ew.
      - intros H x Hx Hid Heq. apply H. apply elem_of_list_fmap. exists x. split; [done|].
        apply elem_of_list_filter. split; [by rewrite Heq|done]. }
    destruct (decide (fresh_in_window tw t0 past q)) as [Hfq|Hfq].
    - rewrite decide_True by (rewrite Hw, Hf, bool_decide_true by done; done).
      cbn [fmap list_fmap]. change (e_id (meaning tw t0 past q)) with (a_id q).
      apply Hfr in Hfq as Hfq'. split.
      + constructor; [|done]. rewrite Hel, elem_of_cons. naive_solver.
      + intros i. rewrite elem_of_cons, Hel, !elem_of_cons.
        destruct (decide (i = a_id q)) as [->|]; naive_solver.
    - rewrite decide_False by (rewrite Hw, Hf, bool_decide_false by done; naive_solver).
      split; [done|]. intros i. rewrite Hel, !elem_of_cons.
      assert (Hin : a_id q ∈ (a_id <$> filter (fun x => win tw t0 x = w) past)).
      { destruct (decide (a_id q ∈ (a_id <$> filter (fun x => win tw t0 x = w) past))); [done|].
        exfalso. apply Hfq. by apply Hfr. }
      split; [naive_solver|]. intros [[->|H] Hn]; [done|]. split; [done|]. intros [->|]; done.
  Qed.
  Lemma ms_fresh_objects w tr :
    e_id <$> filter (fun e => ewin tw e = w /\ e_first e = true) (ms [] tr)
    ≡ₚ remove_dups (a_id <$> in_window tw t0 w tr).
  Proof.
    destruct (ms_fresh w tr []) as [Hnd Hel].
    apply NoDup_Permutation; [done|apply NoDup_remove_dups|].
    intros i. rewrite Hel, elem_of_remove_dups. split; [by intros [? _]|].
    intros H. split; [done|]. apply not_elem_of_nil.
  Qed.
End link.
