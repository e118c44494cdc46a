(** The analyzer's loop computes the meaning of every request. *)
From stdpp Require Import gmap list numbers fin_maps sorting.
From Verif Require Import Base ModelAnalyzer SpecAnalyzer.
Open Scope Z_scope.

Lemma u32_small x : 0 <= x < 2 ^ 32 -> u32 x = x.
Proof. intros H. unfold u32. by rewrite Z.mod_small. Qed.
Lemma i32_small x : - 2 ^ 31 <= x < 2 ^ 31 -> i32 x = x.
Proof. intros H. unfold i32. rewrite Z.mod_small; lia. Qed.
Lemma u32_add a b : u32 (u32 a + b) = u32 (a + b).
Proof. unfold u32. by rewrite Zplus_mod_idemp_l. Qed.
Lemma u64_add a b : u64 (u64 a + b) = u64 (a + b).
Proof. unfold u64. by rewrite Zplus_mod_idemp_l. Qed.

Lemma win_idx_small tw r : 0 < tw -> 0 <= r < 2 ^ 31 -> win_idx tw r = r / tw.
Proof.
  intros Htw Hr. unfold win_idx.
  assert (0 <= r / tw <= r).
  { split; [apply Z.div_pos; lia|]. apply Z.div_le_upper_bound; nia. }
  rewrite (u32_small r) by lia. rewrite i32_small; lia.
Qed.

(** [next] is the end of window [w]; the loop reaches window [w']. *)
Lemma div_window tw clock w : 0 < tw -> (clock < (w + 1) * tw <-> clock / tw <= w).
Proof.
  intros Htw. split; intros H.
  - assert (clock / tw < w + 1); [|lia]. apply Z.div_lt_upper_bound; lia.
  - pose proof (Z.mul_succ_div_gt clock tw Htw). nia.
Qed.

Lemma win_fuel_eq tw clock w : 0 < tw -> w <= clock / tw ->
  win_fuel tw clock ((w + 1) * tw) = Z.to_nat (clock / tw - w).
Proof.
  intros Htw Hw. unfold win_fuel. f_equal.
  replace (clock - (w + 1) * tw) with (clock + (- (w + 1)) * tw) by lia.
  rewrite Z.div_add by lia. lia.
Qed.

Lemma win_advance_ok tw clock n : forall w,
  0 < tw -> clock / tw = w + Z.of_nat n -> (clock / tw + 1) * tw < 2 ^ 31 ->
  win_advance n tw clock w ((w + 1) * tw) = Ok (clock / tw, (clock / tw + 1) * tw).
Proof.
  induction n as [|n IH]; intros w Htw Hn Hb; cbn [win_advance].
  - rewrite decide_True by (apply div_window; lia). repeat f_equal; lia.
  - rewrite decide_False by (rewrite div_window by lia; lia).
    rewrite decide_False by nia.
    replace ((w + 1) * tw + tw) with ((w + 1 + 1) * tw) by lia.
    apply IH; lia.
Qed.

Lemma win_advance_fuel tw clock w :
  0 < tw -> w <= clock / tw -> (clock / tw + 1) * tw < 2 ^ 31 ->
  win_advance (win_fuel tw clock ((w + 1) * tw)) tw clock w ((w + 1) * tw)
  = Ok (clock / tw, (clock / tw + 1) * tw).
Proof.
  intros Htw Hw Hb. rewrite win_fuel_eq by lia. apply win_advance_ok; lia.
Qed.

(** ** The invariant of the loop *)
Section core.
  Context (tw t0 : Z) (Htw : 0 < tw).

  Definition cur_win (past : list areq) : Z :=
    match past with [] => 0 | q :: _ => win tw t0 q end.

  Definition info_of (past : list areq) (id : Z) : option oinfo :=
    match last_use past id with
    | None => None
    | Some (i, x) =>
        Some (mkOI (Z.of_nat (length past) - Z.of_nat i) (u32 (a_size x)) (rel t0 x)
                   (u32 (uses past id))
                   (rel t0 (default x (last (filter (fun y => a_id y = id) past)))))
    end.

  Record core_inv (past : list areq) (k : acore) : Prop := {
    ci_n : k_n k = Z.of_nat (length past);
    ci_sumr : k_sumr k = u64 (zsum (a_size <$> past));
    ci_map : forall id, k_map k !! id = info_of past id;
    ci_idx : k_idx k = cur_win past;
    ci_next : k_next k = (cur_win past + 1) * tw
  }.

  Definition in_range (q : areq) : Prop :=
    t0 <= a_time q /\ (win tw t0 q + 1) * tw < 2 ^ 31.

  Lemma in_range_rel q : in_range q -> 0 <= rel t0 q < 2 ^ 31.
  Proof using Htw.
    intros [H1 H2]. unfold rel. split; [lia|].
    assert (rel t0 q < (win tw t0 q + 1) * tw) by (apply div_window; unfold win; lia).
    unfold rel in *. lia.
  Qed.

  Lemma last_use_cons q past id :
    last_use (q :: past) id =
    if decide (a_id q = id) then Some (0%nat, q)
    else prod_map S (fun x => x) <$> last_use past id.
  Proof. reflexivity. Qed.

  Lemma last_use_elem past id i x :
    last_use past id = Some (i, x) -> past !! i = Some x /\ a_id x = id.
  Proof. intros H. apply list_find_Some in H as (?&?&_). done. Qed.

  Lemma last_filter_cons (id : Z) q past x :
    last_use past id = Some x ->
    last (filter (fun y => a_id y = id) (q :: past))
    = last (filter (fun y => a_id y = id) past).
  Proof.
    intros Hx. rewrite filter_cons.
    destruct (decide (a_id q = id)); [|done].
    destruct (filter (fun y => a_id y = id) past) as [|a l] eqn:E; [|done].
    exfalso. destruct x as [i x]. apply last_use_elem in Hx as [Hx Hid].
    assert (x ∈ filter (fun y => a_id y = id) past) as Hel.
    { apply elem_of_list_filter. split; [done|]. by eapply elem_of_list_lookup_2. }
    rewrite E in Hel. by apply elem_of_nil in Hel.
  Qed.

  Lemma filter_last_none past id :
    last_use past id = None -> filter (fun y => a_id y = id) past = [].
  Proof.
    induction past as [|q past IH]; [done|].
    rewrite last_use_cons, filter_cons. destruct (decide (a_id q = id)); [done|].
    destruct (last_use past id); [done|]. auto.
  Qed.

  Lemma uses_cons q past id :
    uses (q :: past) id = (if decide (a_id q = id) then 1 else 0) + uses past id.
  Proof.
    unfold uses, cnt. rewrite filter_cons.
    destruct (decide (a_id q = id)) as [E|E].
    - rewrite decide_True by (by rewrite bool_decide_true). cbn [length]. lia.
    - rewrite decide_False by (by rewrite bool_decide_false). lia.
  Qed.
  Lemma uses_none past id : last_use past id = None -> uses past id = 0.
  Proof.
    induction past as [|q past IH]; [done|].
    rewrite last_use_cons, uses_cons. destruct (decide (a_id q = id)); [done|].
    destruct (last_use past id); [done|]. intros _. rewrite IH by done. lia.
  Qed.

  (** an earlier use lies in an earlier window than the last one *)
  Lemma fresh_last past q i x :
    StronglySorted (fun a b => a_time b <= a_time a) past ->
    Forall (fun y => a_time y <= a_time q) past ->
    last_use past (a_id q) = Some (i, x) ->
    (fresh_in_window tw t0 past q <-> win tw t0 x <> win tw t0 q).
  Proof using Htw.
    revert i. induction past as [|y past IH]; [done|].
    intros i Hs Hle. rewrite last_use_cons.
    apply StronglySorted_inv in Hs as [Hs Hy]. apply Forall_cons in Hle as [Hyq Hle].
    destruct (decide (a_id y = a_id q)) as [E|E].
    - intros [= <- <-]. unfold fresh_in_window. rewrite Forall_cons. split.
      + intros [H _]. by apply H.
      + intros H. split; [done|]. rewrite Forall_forall in Hy |- *.
        intros z Hz Hid Hw. specialize (Hy z Hz). cbn in Hy.
        assert (win tw t0 z <= win tw t0 y) by (apply Z.div_le_mono; unfold rel; lia).
        assert (win tw t0 y <= win tw t0 q) by (apply Z.div_le_mono; unfold rel; lia).
        lia.
    - destruct (last_use past (a_id q)) as [[i' x']|] eqn:El; [|done].
      intros [= <- <-]. unfold fresh_in_window in *. rewrite Forall_cons.
      rewrite (IH i' Hs Hle eq_refl). tauto.
  Qed.

  Lemma a_step_ok past k q :
    core_inv past k ->
    StronglySorted (fun a b => a_time b <= a_time a) past ->
    Forall (fun y => a_time y <= a_time q) past ->
    Forall in_range past -> in_range q ->
    exists k', a_step tw t0 k q = Ok (k', meaning tw t0 past q) /\
      core_inv (q :: past) k' /\
      k_sumo k' = (match last_use past (a_id q) with
                   | None => u64 (k_sumo k + a_size q) | Some _ => k_sumo k end).
  Proof using Htw.
    intros [Hn Hsr Hm Hi Hx] Hs Hle Hpr Hq.
    pose proof (in_range_rel q Hq) as Hr. destruct Hq as [Hq1 Hq2].
    assert (Hcw : cur_win past <= win tw t0 q).
    { destruct past as [|y past]; cbn [cur_win].
      - apply Z.div_pos; [unfold rel|]; lia.
      - apply Forall_cons in Hle as [Hle _]. apply Z.div_le_mono; unfold rel; lia. }
    assert (Hcr : i32 (rel t0 q) = rel t0 q) by (apply i32_small; lia).
    unfold a_step. fold (rel t0 q). rewrite Hx, Hi.
    rewrite win_advance_fuel by (unfold win in *; done).
    cbn [rbind].
    rewrite decide_False by (rewrite win_idx_small by lia; auto).
    rewrite Hm. unfold info_of at 1. rewrite Hcr.
    destruct (last_use past (a_id q)) as [[i x]|] eqn:El.
    - pose proof (last_use_elem _ _ _ _ El) as [Hxi Hxid].
      assert (Hil : (i < length past)%nat) by (by eapply lookup_lt_Some).
      assert (Hxq : a_time x <= a_time q).
      { rewrite Forall_forall in Hle. apply Hle. by eapply elem_of_list_lookup_2. }
      assert (Hxr : in_range x).
      { rewrite Forall_forall in Hpr. apply Hpr. by eapply elem_of_list_lookup_2. }
      cbn [oi_vt oi_rt oi_freq oi_create oi_size].
      rewrite decide_False by lia.
      rewrite decide_False by (unfold rel; lia).
      eexists. split.
      { f_equal. f_equal. unfold meaning. rewrite El. f_equal.
        - apply bool_decide_ext. rewrite (fresh_last past q i x) by done.
          rewrite win_idx_small by (auto using in_range_rel). done.
        - unfold created.
          destruct (last (filter (fun y => a_id y = a_id q) past)) eqn:Ela; [done|].
          exfalso. apply last_None in Ela.
          assert (x ∈ filter (fun y => a_id y = a_id q) past) as Hel.
          { apply elem_of_list_filter. split; [done|]. by eapply elem_of_list_lookup_2. }
          rewrite Ela in Hel. by apply elem_of_nil in Hel.
        - lia.
        - unfold rel. lia. }
      split; [|done]. constructor; cbn [k_n k_sumr k_map k_idx k_next cur_win length].
      + lia.
      + rewrite Hsr, u64_add. f_equal. unfold zsum. cbn [fmap list_fmap foldr]. lia.
      + intros id. unfold info_of. rewrite last_use_cons.
        destruct (decide (a_id q = id)) as [<-|E].
        * rewrite lookup_insert. f_equal. f_equal.
          -- cbn [length]. lia.
          -- rewrite u32_add, uses_cons, decide_True by done. f_equal. lia.
          -- rewrite (last_filter_cons _ q past (i, x)) by done.
             destruct (last (filter (fun y => a_id y = a_id q) past)) eqn:Ela; [done|].
             exfalso. apply last_None in Ela.
             assert (x ∈ filter (fun y => a_id y = a_id q) past) as Hel.
             { apply elem_of_list_filter. split; [done|]. by eapply elem_of_list_lookup_2. }
             rewrite Ela in Hel. by apply elem_of_nil in Hel.
        * rewrite lookup_insert_ne by done. rewrite Hm. unfold info_of.
          destruct (last_use past id) as [[i' x']|] eqn:El'; [|done].
          cbn [fmap option_fmap option_map prod_map fst snd]. f_equal. f_equal.
          -- cbn [length]. lia.
          -- rewrite uses_cons, decide_False by done. f_equal.
          -- by rewrite (last_filter_cons id q past (i', x')).
      + done.
      + unfold win. lia.
    - eexists. split.
      { f_equal. f_equal. unfold meaning. rewrite El. f_equal.
        - rewrite bool_decide_true; [done|]. unfold fresh_in_window.
          apply list_find_None in El. rewrite Forall_forall in El |- *. intros y Hy Hid.
          by destruct (El y Hy).
        - unfold created. rewrite filter_last_none by done. done. }
      split; [|done]. constructor; cbn [k_n k_sumr k_map k_idx k_next cur_win length].
      + lia.
      + rewrite Hsr, u64_add. f_equal. unfold zsum. cbn [fmap list_fmap foldr]. lia.
      + intros id. unfold info_of. rewrite last_use_cons.
        destruct (decide (a_id q = id)) as [<-|E].
        * rewrite lookup_insert. f_equal. f_equal.
          -- cbn [length]. lia.
          -- rewrite uses_cons, decide_True, uses_none by done. done.
          -- rewrite filter_cons, decide_True by done.
             by rewrite filter_last_none.
        * rewrite lookup_insert_ne by done. rewrite Hm. unfold info_of.
          destruct (last_use past id) as [[i' x']|] eqn:El'; [|done].
          cbn [fmap option_fmap option_map prod_map fst snd]. f_equal. f_equal.
          -- cbn [length]. lia.
          -- rewrite uses_cons, decide_False by done. f_equal.
          -- by rewrite (last_filter_cons id q past (i', x')).
      + done.
      + unfold win. lia.
  Qed.

  Lemma a_loop_ok qs : forall past k,
    core_inv past k ->
    StronglySorted (fun a b => a_time b <= a_time a) past ->
    StronglySorted (fun a b => a_time a <= a_time b) qs ->
    Forall (fun q => Forall (fun y => a_time y <= a_time q) past) qs ->
    Forall in_range past -> Forall in_range qs ->
    exists k', a_loop tw t0 k qs = Ok (k', meanings tw t0 past qs) /\
      core_inv (rev qs ++ past) k' /\
      u64 (k_sumo k') = u64 (k_sumo k + zsum (a_size <$> first_reqs past qs)).
  Proof using Htw.
    induction qs as [|q qs IH]; intros past k Hinv Hsp Hsq Hle Hrp Hrq.
    { exists k. cbn. split; [done|]. split; [done|]. f_equal. lia. }
    apply Forall_cons in Hle as [Hq Hle]. apply Forall_cons in Hrq as [Hrq Hrqs].
    apply StronglySorted_inv in Hsq as [Hsq Hqq].
    destruct (a_step_ok past k q Hinv Hsp Hq Hrp Hrq) as (k1 & Hst & Hinv1 & Hso).
    destruct (IH (q :: past) k1) as (k2 & Hl & Hinv2 & Hso2); try done.
    { by constructor. }
    { rewrite Forall_forall in Hle, Hqq |- *. intros z Hz. constructor; [by apply Hqq|].
      by apply Hle. }
    { by constructor. }
    exists k2. cbn [a_loop meanings first_reqs rev]. rewrite Hst. cbn [rbind].
    rewrite Hl. cbn [rbind]. split; [done|]. rewrite <- app_assoc. split; [done|].
    rewrite Hso2, Hso.
    destruct (last_use past (a_id q)); [done|].
    rewrite fmap_app. unfold zsum. cbn [fmap list_fmap app foldr]. rewrite u64_add. f_equal. lia.
  Qed.
End core.

Lemma trace_ok_run tw tr : trace_ok tw tr ->
  exists k, analyze tw tr = Ok (k, meanings tw (start_of tr) [] tr) /\
    core_inv tw (start_of tr) (rev tr) k /\
    u64 (k_sumo k) = u64 (zsum (a_size <$> first_reqs [] tr)).
Proof.
  intros (Htw & q0 & rest & -> & Hs & Hb). unfold analyze, start_of. cbn [head default].
  destruct (a_loop_ok tw (a_time q0) Htw (q0 :: rest) [] (core0 tw)) as (k & H1 & H2 & H3).
  - constructor; cbn [core0 k_n k_sumr k_map k_idx k_next cur_win]; try done. lia.
  - constructor.
  - done.
  - apply Forall_forall. intros x _. constructor.
  - constructor.
  - pose proof (StronglySorted_inv Hs) as [_ H0].
    rewrite Forall_forall in Hb |- *. intros x Hx. split; [|by apply Hb].
    apply elem_of_cons in Hx as [->|Hx]; [lia|].
    rewrite Forall_forall in H0. by apply H0.
  - rewrite app_nil_r in H2. eauto.
Qed.
