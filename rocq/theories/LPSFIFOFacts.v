(** LP_SFIFO: the code against the machine of SpecLPSFIFO.v. *)
From stdpp Require Import gmap list numbers fin_maps.
From Verif Require Import Base Driver ModelQueue QueueFacts QList ModelTwoQ ModelSLRU ModelSegV0 ModelLPSFIFO SpecLPSFIFO.
Open Scope Z_scope.



(** * Lists *)

Lemma bbytes_app l1 l2 : bbytes (l1 ++ l2) = bbytes l1 + bbytes l2.
Proof. unfold bbytes. induction l1 as [|x l IH]; cbn in *; lia. Qed.
Lemma bbytes_cons x l : bbytes (x :: l) = b_sz x + bbytes l.
Proof. done. Qed.
Lemma bids_app l1 l2 : bids (l1 ++ l2) = bids l1 ++ bids l2.
Proof. apply fmap_app. Qed.
Lemma bbytes_perm l1 l2 : l1 ≡ₚ l2 -> bbytes l1 = bbytes l2.
Proof. induction 1; rewrite ?bbytes_cons in *; try lia; try done. Qed.
Definition bnn (l : bseg) : Prop := Forall (fun x => 0 <= b_sz x) l.
Lemma bbytes_nn l : bnn l -> 0 <= bbytes l.
Proof. induction 1; rewrite ?bbytes_cons in *; cbn in *; lia. Qed.

Lemma spill_app m l : spill m l = ((spill m l).1, (spill m l).2) /\ l = (spill m l).1 ++ (spill m l).2.
Proof.
  split; [by destruct (spill m l)|]. revert m. induction l as [|x l IH]; intros m; [done|]. cbn [spill].
  destruct (decide _); [|done]. specialize (IH (m - b_sz x)). destruct (spill _ l) as [a b]. cbn in *. by rewrite IH at 1.
Qed.
Lemma spill_fit m l : bnn l -> bbytes l <= m -> spill m l = (l, []).
Proof.
  revert m. induction l as [|x l IH]; intros m Hn Hm; [done|]. cbn [spill]. apply Forall_cons in Hn as [Hx Hn].
  pose proof (bbytes_nn _ Hn). rewrite bbytes_cons in Hm. rewrite decide_True by lia. rewrite IH by (done || lia). done.
Qed.
Lemma spill_le m l : 0 <= m -> bbytes (spill m l).1 <= m.
Proof.
  revert m. induction l as [|x l IH]; intros m Hm; [done|]. cbn [spill]. destruct (decide _) as [Hx|]; [|done].
  specialize (IH (m - b_sz x) ltac:(lia)). destruct (spill _ l) as [a b]. cbn [fst] in *. rewrite bbytes_cons. lia.
Qed.
Lemma spill_snoc m l x : bnn (l ++ [x]) -> bbytes (l ++ [x]) > m ->
  spill m (l ++ [x]) = ((spill m l).1, (spill m l).2 ++ [x]).
Proof.
  revert m. induction l as [|y l IH]; intros m Hn Hm.
  - cbn [app spill]. rewrite decide_False; [done|]. cbn in Hm. lia.
  - cbn [app spill]. cbn [app] in Hn, Hm. apply Forall_cons in Hn as [Hy Hn]. rewrite bbytes_cons in Hm.
    destruct (decide _); [|done]. rewrite IH by (done || lia). by destruct (spill _ l).
Qed.

Lemma concat_ins {A} (segs : list (list A)) k l : segs !! k = Some l ->
  exists rest, concat segs ≡ₚ l ++ rest /\ forall l', concat (<[k := l']> segs) ≡ₚ l' ++ rest.
Proof.
  revert k. induction segs as [|y segs IH]; intros [|k] E; try done.
  - injection E as ->. exists (concat segs). done.
  - cbn in E. destruct (IH k E) as (rest & H1 & H2). exists (y ++ rest). cbn. split.
    + rewrite H1. by rewrite (Permutation_app_swap_app y l).
    + intros l'. rewrite H2. by rewrite (Permutation_app_swap_app y l').
Qed.
Lemma concat_ins2 {A} (segs : list (list A)) k j l lj : k <> j -> segs !! k = Some l -> segs !! j = Some lj ->
  exists rest, concat segs ≡ₚ l ++ lj ++ rest /\
    forall l' lj', concat (<[j := lj']> (<[k := l']> segs)) ≡ₚ l' ++ lj' ++ rest.
Proof.
  intros Hne Hk Hj. destruct (concat_ins segs k l Hk) as (r1 & A1 & B1).
  assert (Hj1 : <[k := []]> segs !! j = Some lj) by (by rewrite list_lookup_insert_ne).
  destruct (concat_ins _ j lj Hj1) as (r2 & A2 & B2). exists r2.
  rewrite (B1 []) in A2. cbn in A2. split; [by rewrite A1, A2|].
  intros l' lj'. rewrite list_insert_commute by done.
  assert (Hk2 : <[j := lj']> segs !! k = Some l) by (by rewrite list_lookup_insert_ne by done).
  destruct (concat_ins _ k l Hk2) as (r3 & A3 & B3). rewrite B3.
  specialize (B3 []). rewrite list_insert_commute, B2 in B3 by done. cbn in B3. by rewrite <- B3.
Qed.

Lemma tot_lookup {A} `{Inhabited A} (l : list A) i : (i < length l)%nat -> l !! i = Some (l !!! i).
Proof. apply list_lookup_lookup_total_lt. Qed.

(** * One queue *)

Definition bv (ql : qlist) : bseg := (fun x => mkLob x.1 (o_size x.2) (o_p1 x.2)) <$> ql.
Definition vb (m : Z) (q : qstate) (l : bseg) : Prop := exists ql, qok m 0 q ql /\ bv ql = l.

Lemma bv_ids ql : bids (bv ql) = ids ql.
Proof. unfold bids, bv, ids. by rewrite <- list_fmap_compose. Qed.
Lemma bv_bytes ql : bbytes (bv ql) = bytes 0 ql.
Proof. unfold bv. induction ql as [|x ql IH]; [done|]. rewrite fmap_cons, bbytes_cons, bytes_cons, IH. cbn. lia. Qed.

Section Queue.
  Context (m : Z).
  Lemma vb_occ q l : vb m q l -> q_occ q = bbytes l.
  Proof. intros (ql & H & <-). unfold q_occ. by rewrite (qok_occ _ _ _ _ H), bv_bytes. Qed.
  Lemma vb_size q l : vb m q l -> q_size q = m.
  Proof. intros (ql & H & <-). apply (qok_size _ _ _ _ H). Qed.
  Lemma vb_nobj q l : vb m q l -> q_nobj q = Z.of_nat (length l).
  Proof. intros (ql & H & <-). unfold q_nobj. rewrite (qok_nobj _ _ _ _ H). unfold bv. by rewrite fmap_length. Qed.
  Lemma vb_nil : vb m (fifo_init m AdmNone) [].
  Proof. exists []. split; [apply qok_init|done]. Qed.
  Lemma vb_find q l r : vb m q l -> fifo_find q r false = Ok (q, bool_decide (r_id r ∈ bids l)).
  Proof. intros (ql & H & <-). rewrite bv_ids. by apply qok_find_false with (sz := m) (md := 0). Qed.

  Lemma vb_set ql q id fr : qok m 0 q ql -> qok m 0 (lps_set q id fr) (l_upd (fun o => o_set_p1 o fr) id ql).
  Proof. intros H. unfold lps_set. by apply qok_upd. Qed.

  Lemma vb_new q l r fr : vb m q l -> r_id r ∉ bids l -> req_ok 0 r ->
    exists q', q_insert q r = Ok q' /\ vb m (lps_set q' (r_id r) fr) (mkLob (r_id r) (r_size r) fr :: l).
  Proof.
    intros (ql & H & <-) Hn Hr. rewrite bv_ids in Hn.
    destruct (qok_insert _ _ _ _ H r Hn Hr (Z.le_refl 0)) as (q' & E & H'). exists q'. split; [done|].
    eexists. split; [by apply vb_set|]. cbn [l_upd fmap list_fmap fst snd]. fold (l_upd (fun o => o_set_p1 o fr) (r_id r) ql).
    rewrite (l_upd_notin _ _ _ Hn). unfold bv. cbn [fmap list_fmap fst snd]. f_equal.
    destruct (decide (r_id r = r_id r)); [|done]. cbn. f_equal. unfold u32. destruct Hr. rewrite Z.mod_small; lia.
  Qed.

  Lemma vb_bump q l id i k : vb m q l -> id ∈ bids l -> Forall (fun x => b_fr x <= k) l -> k + 1 < 2 ^ 31 ->
    exists q', lps_bump i q id = Ok q' /\ vb m q' (bhit id i <$> l).
  Proof.
    intros (ql & H & <-) Hin Hk Hlt. rewrite bv_ids in Hin. apply ids_elem in Hin as (o & Ho).
    unfold lps_bump. rewrite (proj2 (qok_lookup _ _ _ _ H id o) Ho).
    assert (Hu : forall x, x ∈ ql -> x.1 = id -> x.2 = o).
    { intros [j o'] Hx Hj. cbn in *. subst j.
      apply (qok_lookup _ _ _ _ H) in Hx, Ho. congruence. }
    assert (Hset : forall v, (forall x, x ∈ ql -> x.1 = id -> b_fr (bhit id i (mkLob x.1 (o_size x.2) (o_p1 x.2))) = v) ->
              vb m (lps_set q id v) (bhit id i <$> bv ql)).
    { intros v Hv. eexists. split; [by apply vb_set|]. unfold bv, l_upd. rewrite <- !list_fmap_compose. apply list_fmap_ext.
      intros n x Hx%elem_of_list_lookup_2. specialize (Hv x Hx). cbn in *. unfold bhit in *. cbn in *.
      destruct (decide (x.1 = id)) as [E|E]; [|done]. cbn in *. specialize (Hv E). cbn in Hv. by rewrite Hv, E. }
    assert (Hfo : o_p1 o <= k).
    { rewrite Forall_forall in Hk. apply (Hk (mkLob id (o_size o) (o_p1 o))). apply elem_of_list_fmap. by exists (id, o). }
    destruct (decide (i = O)) as [->|Hi].
    - destruct (decide (o_p1 o = 0)) as [E0|E0]; (eexists; split; [done|]).
      + apply Hset. intros x Hx Hxi. unfold bhit. cbn. rewrite decide_True by done. cbn. rewrite (Hu x Hx Hxi).
        by rewrite !decide_True by done.
      + exists ql. split; [done|]. unfold bv. rewrite <- list_fmap_compose. apply list_fmap_ext.
        intros n x Hx%elem_of_list_lookup_2. cbn. unfold bhit. cbn. destruct (decide (x.1 = id)) as [E|E]; [|done].
        cbn. rewrite (Hu x Hx E). rewrite (decide_True (P := 0%nat = 0%nat)) by done. rewrite decide_False by done. by rewrite E.
    - rewrite decide_False by lia. eexists. split; [done|]. apply Hset. intros x Hx Hxi. unfold bhit. cbn.
      rewrite decide_True by done. cbn. rewrite decide_False by done. by rewrite (Hu x Hx Hxi).
  Qed.

  Lemma vb_tail q l x r : vb m q (l ++ [x]) ->
    q_to_evict_tail q r = Ok (q, Some (b_id x)) /\
    (exists o, c_tbl (q_c q) !! b_id x = Some o /\ o_size o = b_sz x /\ o_p1 o = b_fr x /\ req_ok 0 (req_of_obj (b_id x) o)) /\
    exists q', q_evict_tail q r = Ok q' /\ vb m q' l.
  Proof.
    intros (ql & H & E). destruct ql as [|[id o] ql _] using rev_ind.
    { exfalso. symmetry in E. by apply app_nil in E as [_ ?]. }
    unfold bv in E. rewrite fmap_app in E. cbn in E. apply app_inj_tail in E as [<- <-]. cbn [b_id b_sz b_fr].
    split; [by apply qok_to_evict with (1 := H)|]. split.
    - exists o. assert (Hin : (id, o) ∈ ql ++ [(id, o)]) by (apply elem_of_app; right; left).
      split; [by apply (qok_lookup _ _ _ _ H)|]. split; [done|]. split; [done|].
      assert (A := qok_osz _ _ _ _ H). rewrite Forall_forall in A. apply A in Hin as [? ?]. split; cbn in *; lia.
    - destruct (qok_evict _ _ _ _ _ _ r (Z.le_refl 0) H) as (q' & E & H'). exists q'. split; [done|]. by exists ql.
  Qed.

  Lemma bv_del id ql : bv (l_del id ql) = filter (fun x => b_id x <> id) (bv ql).
  Proof.
    unfold bv, l_del. induction ql as [|x ql IH]; [done|]. cbn.
    destruct (decide (x.1 <> id)); cbn; [f_equal|]; exact IH.
  Qed.
  Lemma vb_remove q l id : vb m q l ->
    exists q', q_remove q id = Ok (q', bool_decide (id ∈ bids l)) /\ vb m q' (filter (fun x => b_id x <> id) l).
  Proof.
    intros (ql & H & <-). rewrite bv_ids. destruct (decide (id ∈ ids ql)) as [Hi|Hi].
    - destruct (qok_remove_hit _ _ _ _ H id (Z.le_refl 0) Hi) as (q' & E & H'). exists q'.
      rewrite bool_decide_eq_true_2 by done. split; [done|]. eexists. split; [exact H'|]. apply bv_del.
    - exists q. rewrite bool_decide_eq_false_2 by done. split; [by apply (qok_remove_miss _ _ _ _ H)|].
      rewrite <- bv_del, l_del_notin by done. by exists ql.
  Qed.
End Queue.

(** * The array *)

Section Array.
  Context (ms : list Z) (cap : Z).
  Context (Hms : Forall (fun m => 0 <= m) ms) (Hn : ms <> []) (Hsum : foldr Z.add 0 ms <= cap).

  Definition brel (qs : list qstate) (segs : list bseg) : Prop :=
    Forall2 (fun q l => vb (q_size q) q l) qs segs /\ q_size <$> qs = ms.

  Definition bob (k : Z) (x : lob) : Prop := 0 <= b_sz x < 2 ^ 32 /\ 0 <= b_fr x <= k.
  Record binv (k : Z) (segs : list bseg) : Prop := mkBinv {
    bi_len : length segs = length ms;
    bi_nd  : NoDup (bids (concat segs));
    bi_ok  : Forall (bob k) (concat segs);
    bi_cap : bbytes (concat segs) <= cap;
    bi_seg : forall i, (1 <= i < length ms)%nat -> bbytes (segs !!! i) <= ms !!! i
  }.

  Lemma brel_len qs segs : brel qs segs -> length qs = length ms /\ length segs = length ms.
  Proof. intros [H E]. rewrite <- E, fmap_length. split; [done|]. by rewrite (Forall2_length _ _ _ H). Qed.
  Lemma brel_at qs segs i : brel qs segs -> (i < length ms)%nat ->
    exists q, at_ qs i = Ok q /\ qs !! i = Some q /\ vb (ms !!! i) q (segs !!! i) /\ q_size q = ms !!! i.
  Proof.
    intros HR Hi. pose proof (brel_len _ _ HR) as [L1 L2]. destruct HR as [H E].
    destruct (Forall2_lookup_r _ _ _ _ _ H (tot_lookup segs i ltac:(lia))) as (q & Eq & Hq).
    assert (Es : q_size q = ms !!! i).
    { symmetry. apply list_lookup_total_correct. rewrite <- E, list_lookup_fmap, Eq. done. }
    exists q. unfold at_. rewrite Eq. rewrite Es in Hq. done.
  Qed.
  Lemma brel_ins qs segs i q l : brel qs segs -> (i < length ms)%nat -> vb (ms !!! i) q l ->
    brel (<[i := q]> qs) (<[i := l]> segs).
  Proof.
    intros HR Hi Hq. pose proof (brel_len _ _ HR) as [L1 L2]. destruct HR as [H E]. pose proof (vb_size _ _ _ Hq) as Hs. split.
    - apply Forall2_insert; [done|]. by rewrite Hs.
    - rewrite list_fmap_insert, E, Hs. apply list_insert_id. by apply tot_lookup.
  Qed.

  Lemma brel_occ qs segs : brel qs segs -> foldr (fun q acc => q_occ q + acc) 0 qs = bbytes (concat segs).
  Proof.
    intros [H _]. induction H as [|q l qs segs Hq H IH]; [done|]. cbn. rewrite IH, (vb_occ _ _ _ Hq), bbytes_app. done.
  Qed.
  Lemma brel_fuel qs segs : brel qs segs -> v0_fuel qs = S (length (concat segs)).
  Proof.
    intros [H _]. unfold v0_fuel. f_equal.
    assert (E : foldr (fun q acc => q_nobj q + acc) 0 qs = Z.of_nat (length (concat segs))).
    { induction H as [|q l qs segs Hq H IH]; [done|]. cbn. rewrite IH, (vb_nobj _ _ _ Hq), app_length. lia. }
    rewrite E. lia.
  Qed.

  Lemma brel_over qs segs i : brel qs segs -> (i < length ms)%nat ->
    lps_over i qs = Ok (bool_decide (bbytes (segs !!! i) > ms !!! i)).
  Proof.
    intros HR Hi. unfold lps_over. destruct (brel_at _ _ _ HR Hi) as (q & -> & _ & Hq & Es). cbn [rbind].
    by rewrite (vb_occ _ _ _ Hq), Es.
  Qed.

  Lemma brel_scan qs segs r : brel qs segs ->
    match v0_scan fifo_find qs r with
    | Ok None => ~ bcached segs (r_id r)
    | Ok (Some i) => (i < length segs)%nat /\ r_id r ∈ bids (segs !!! i)
    | Err _ => False
    end.
  Proof.
    intros [H _]. induction H as [|q l qs segs Hq H IH]; cbn [v0_scan]; [by intros ?%elem_of_nil|].
    rewrite (vb_find _ _ _ _ Hq). cbn [rbind].
    destruct (bool_decide (r_id r ∈ bids l)) eqn:E.
    - apply bool_decide_eq_true in E. split; [cbn; lia|done].
    - apply bool_decide_eq_false in E. destruct (v0_scan fifo_find qs r) as [[i|]|]; cbn; [| |done].
      + destruct IH as [? ?]. split; [lia|done].
      + unfold bcached in *. cbn [concat]. rewrite bids_app, elem_of_app. tauto.
  Qed.

  Lemma brel_room qs segs w : brel qs segs -> v0_room qs w = bfirst ms segs w.
  Proof.
    intros [H E]. rewrite <- E. clear E Hms Hn Hsum. induction H as [|q l qs segs Hq H IH]; [done|]. cbn [v0_room fmap list_fmap bfirst].
    rewrite (vb_occ _ _ _ Hq), IH. done.
  Qed.
  Lemma bfirst_lt segs w i : bfirst ms segs w = Some i -> (i < length ms)%nat /\ bbytes (segs !!! i) + w <= ms !!! i.
  Proof using.
    clear. revert segs i. induction ms as [|m ms' IH]; intros [|l segs] i; cbn; try done.
    destruct (decide _); [intros [= <-]; cbn; split; [lia|done]|].
    destruct (bfirst ms' segs w) as [j|] eqn:E; [|done]. intros [= <-]. destruct (IH _ _ E) as [? ?]. cbn. split; [lia|done].
  Qed.

  Lemma brel_nonempty qs segs : brel qs segs ->
    match v0_nonempty qs with
    | None => bvictim segs = None
    | Some i => exists q, at_ qs i = Ok q /\ (exists m, vb m q (segs !!! i)) /\ bbytes (segs !!! i) > 0 /\ bvictim segs = b_id <$> last (segs !!! i)
    end.
  Proof.
    intros [H _]. induction H as [|q l qs segs Hq H IH]; [done|]. cbn [v0_nonempty bvictim].
    rewrite (vb_occ _ _ _ Hq). destruct (decide _).
    - exists q. split; [done|]. split; [by eexists|]. split; done.
    - destruct (v0_nonempty qs) as [i|]; cbn; [|done]. exact IH.
  Qed.

  Lemma brel_remove qs segs id : brel qs segs -> NoDup (bids (concat segs)) ->
    exists qs', v0_remove_from qs id = Ok (qs', bool_decide (bcached segs id)) /\ brel qs' (bdrop id segs).
  Proof.
    intros [H E] Hnd. unfold brel. rewrite <- E. clear E Hms Hn Hsum.
    induction H as [|q l qs segs Hq H IH]; cbn [v0_remove_from].
    { exists []. rewrite bool_decide_eq_false_2 by apply not_elem_of_nil. split; [done|]. split; [constructor|done]. }
    cbn [concat] in Hnd. rewrite bids_app in Hnd. apply NoDup_app in Hnd as (N1 & N2 & N3).
    destruct (vb_remove _ _ _ id Hq) as (q' & -> & Hq'). cbn [rbind].
    pose proof (vb_size _ _ _ Hq') as Hs. unfold bcached in *. cbn [concat].
    destruct (bool_decide (id ∈ bids l)) eqn:Eb.
    - apply bool_decide_eq_true in Eb. exists (q' :: qs). rewrite bool_decide_eq_true_2 by (rewrite bids_app; apply elem_of_app; by left).
      split; [done|]. split; [|cbn; by rewrite Hs]. unfold bdrop. rewrite fmap_cons. constructor; [by rewrite Hs|].
      assert (E : (fun l : bseg => filter (fun x => b_id x <> id) l) <$> segs = segs); [|by rewrite E].
      specialize (N2 _ Eb). clear -N2. induction segs as [|y segs IH]; [done|]. cbn [concat] in N2. rewrite bids_app in N2.
      rewrite fmap_cons, IH; [f_equal|intros ?; apply N2, elem_of_app; by right].
      assert (Hy : id ∉ bids y) by (intros ?; apply N2, elem_of_app; by left). clear -Hy.
      induction y as [|z y IH]; [done|]. apply not_elem_of_cons in Hy as [H1 H2].
      cbn. destruct (decide _) as [|F]; [|by destruct F]. f_equal. by apply IH.
    - apply bool_decide_eq_false in Eb. destruct (IH N3) as (qs' & -> & H' & E'). cbn [rbind]. exists (q' :: qs').
      split.
      { do 3 f_equal. apply bool_decide_ext. rewrite bids_app, elem_of_app. tauto. }
      split; [|cbn; by rewrite Hs, E']. unfold bdrop. rewrite fmap_cons. constructor; [by rewrite Hs|done].
  Qed.

  (** * The machine *)

  Lemma bsettle_len k : forall segs, length (bsettle ms k segs) = length segs.
  Proof using.
    clear. induction k as [|k IH]; intros segs; [done|]. cbn [bsettle]. destruct (spill _ _) as [a b].
    by rewrite IH, !insert_length.
  Qed.
  Lemma bsettle_above k i : (k < i)%nat -> forall segs, bsettle ms k segs !!! i = segs !!! i.
  Proof using.
    clear. intros Hi. induction k as [|k IH]; intros segs; [done|]. cbn [bsettle]. destruct (spill _ _) as [a b].
    rewrite IH by lia. rewrite !list_lookup_total_insert_ne by lia. done.
  Qed.
  Lemma bsettle_perm k : forall segs, (k < length segs)%nat -> concat (bsettle ms k segs) ≡ₚ concat segs.
  Proof using.
    clear. induction k as [|k IH]; intros segs Hk; [done|]. cbn [bsettle].
    destruct (spill_app (ms !!! S k) (segs !!! S k)) as [_ E]. destruct (spill _ _) as [a b]. cbn [fst snd] in E.
    rewrite IH by (rewrite !insert_length; lia).
    destruct (concat_ins2 segs (S k) k (segs !!! S k) (segs !!! k)) as (rest & A & B); [lia|apply tot_lookup; lia|apply tot_lookup; lia|].
    rewrite B, A, E. by rewrite <- !app_assoc.
  Qed.
  Lemma ms_nn i : (i < length ms)%nat -> 0 <= ms !!! i.
  Proof using Hms. intros Hi. rewrite Forall_forall in Hms. apply Hms. apply elem_of_list_lookup_total_2. done. Qed.
  Lemma bsettle_within k i : (1 <= i <= k)%nat -> (k < length ms)%nat -> forall segs, length segs = length ms ->
    bbytes (bsettle ms k segs !!! i) <= ms !!! i.
  Proof using Hms.
    intros Hi. induction k as [|k IH]; intros Hk segs Hl; [lia|]. cbn [bsettle].
    pose proof (spill_le (ms !!! S k) (segs !!! S k) (ms_nn _ Hk)) as Hs. destruct (spill _ _) as [a b]. cbn [fst] in Hs.
    destruct (decide (i = S k)) as [->|Hne].
    - rewrite bsettle_above by lia. rewrite list_lookup_total_insert_ne by lia.
      rewrite list_lookup_total_insert by lia. done.
    - apply IH; [lia|lia|]. by rewrite !insert_length.
  Qed.
  Lemma bsettle_id k : forall segs, (k < length segs)%nat -> bnn (concat segs) ->
    (forall i, (1 <= i <= k)%nat -> bbytes (segs !!! i) <= ms !!! i) -> bsettle ms k segs = segs.
  Proof using.
    clear. induction k as [|k IH]; intros segs Hl Hb Hw; [done|]. cbn [bsettle].
    assert (Hb' : bnn (segs !!! S k)).
    { destruct (concat_ins segs (S k) _ (tot_lookup _ _ Hl)) as (rest & A & _). unfold bnn in *. rewrite A in Hb.
      by apply Forall_app in Hb as [? _]. }
    rewrite spill_fit by (done || apply Hw; lia). cbn [app].
    rewrite (list_insert_id segs (S k)) by (by apply tot_lookup).
    rewrite (list_insert_id segs k) by (apply tot_lookup; lia). apply IH; [lia|done|]. intros i ?. apply Hw. lia.
  Qed.

  Lemma bob_nn k l : Forall (bob k) l -> bnn l.
  Proof using. intros H. apply (Forall_impl _ _ _ H). intros x [? _]. lia. Qed.
  Lemma binv_perm k segs segs' : binv k segs -> length segs' = length ms -> concat segs' ≡ₚ concat segs ->
    (forall i, (1 <= i < length ms)%nat -> bbytes (segs' !!! i) <= ms !!! i) -> binv k segs'.
  Proof using.
    intros [] Hl Hp Hs. split; try done.
    - unfold bids in *. by rewrite Hp.
    - by rewrite Hp.
    - by rewrite (bbytes_perm _ _ Hp).
  Qed.
  Lemma seg_sub (segs : list bseg) i x : (i < length segs)%nat -> x ∈ segs !!! i -> x ∈ concat segs.
  Proof using.
    clear. intros Hi Hx. destruct (concat_ins segs i _ (tot_lookup _ _ Hi)) as (rest & A & _). rewrite A. apply elem_of_app. by left.
  Qed.
  Lemma seg_ids (segs : list bseg) i j : NoDup (bids (concat segs)) -> (i < length segs)%nat -> (j < length segs)%nat -> i <> j ->
    forall id, id ∈ bids (segs !!! i) -> id ∉ bids (segs !!! j).
  Proof using.
    clear. intros Hnd Hi Hj Hne id H1 H2.
    destruct (concat_ins2 segs i j _ _ Hne (tot_lookup _ _ Hi) (tot_lookup _ _ Hj)) as (rest & A & _).
    unfold bids in *. rewrite A, fmap_app in Hnd. apply NoDup_app in Hnd as (_ & Hnd & _).
    apply (Hnd id H1). rewrite fmap_app. apply elem_of_app. by left.
  Qed.
  Lemma seg_nd (segs : list bseg) i : NoDup (bids (concat segs)) -> (i < length segs)%nat -> NoDup (bids (segs !!! i)).
  Proof using.
    clear. intros Hnd Hi. destruct (concat_ins segs i _ (tot_lookup _ _ Hi)) as (rest & A & _).
    unfold bids in *. rewrite A, fmap_app in Hnd. by apply NoDup_app in Hnd as (? & _).
  Qed.

  (** The loop of 300-309. *)
  Lemma demote_loop r j : (S j < length ms)%nat -> forall l qs segs fuel, segs !!! S j = l -> brel qs segs ->
    NoDup (bids (concat segs)) -> bnn (concat segs) -> (length l <= fuel)%nat ->
    exists qs', while_ fuel (lps_over (S j)) (lps_move (S j) j r) qs = Ok qs' /\
      brel qs' (<[j := (spill (ms !!! S j) l).2 ++ segs !!! j]> (<[S j := (spill (ms !!! S j) l).1]> segs)).
  Proof using Hms.
    intros Hj. induction l as [|x l IH] using rev_ind; intros qs segs fuel El HR Hnd Hb Hf;
      pose proof (brel_len _ _ HR) as [L1 L2].
    - exists qs. cbn [spill fst snd app]. split.
      + assert (E : lps_over (S j) qs = Ok false).
        { rewrite (brel_over _ _ _ HR Hj), El. cbn. rewrite bool_decide_eq_false_2; [done|]. pose proof (ms_nn _ Hj). lia. }
        destruct fuel; cbn [while_]; by rewrite E.
      + rewrite <- El. rewrite (list_insert_id segs (S j)) by (apply tot_lookup; lia).
        rewrite (list_insert_id segs j) by (apply tot_lookup; lia). done.
    - rewrite app_length in Hf. cbn in Hf. destruct fuel as [|fuel]; [lia|]. cbn [while_].
      rewrite (brel_over _ _ _ HR Hj), El. cbn [rbind].
      assert (Hbl : bnn (l ++ [x])).
      { rewrite <- El. unfold bnn in *. rewrite Forall_forall in *. intros y Hy. apply Hb. eapply seg_sub; [|exact Hy]. lia. }
      destruct (bool_decide _) eqn:Eo.
      + apply bool_decide_eq_true in Eo. rewrite (spill_snoc _ _ _ Hbl Eo). cbn [fst snd].
        unfold lps_move. destruct (brel_at _ _ _ HR Hj) as (q & Eq & Eq' & Hq & Es). rewrite Eq. cbn [rbind].
        rewrite El in Hq. destruct (vb_tail _ _ _ _ r Hq) as (E1 & (o & E2 & Hos & Hop & Hro) & q' & Eev & Hq').
        rewrite E1. cbn [rbind]. rewrite E2.
        unfold v0_evict_at. rewrite Eq. cbn [rbind]. rewrite Eev. cbn [rbind].
        pose proof (brel_ins _ _ _ _ _ HR Hj Hq') as HR1.
        destruct (brel_at _ _ j HR1 ltac:(lia)) as (n & En & _ & Hqn & _). rewrite En. cbn [rbind].
        rewrite list_lookup_total_insert_ne in Hqn by lia.
        assert (Hxn : b_id x ∉ bids (segs !!! j)).
        { apply (seg_ids segs (S j) j Hnd); try lia. rewrite El, bids_app. apply elem_of_app. right. left. }
        destruct (vb_new _ _ _ (req_of_obj (b_id x) o) (o_p1 o) Hqn Hxn Hro) as (n' & En' & Hn'). cbn [r_id req_of_obj] in *. rewrite En'. cbn [rbind].
        pose proof (brel_ins _ _ j _ _ HR1 ltac:(lia) Hn') as HR2.
        assert (Ex : mkLob (b_id x) (r_size (req_of_obj (b_id x) o)) (o_p1 o) = x).
        { cbn. rewrite Hos, Hop. by destruct x. }
        rewrite Ex in HR2. set (segs2 := <[j := x :: segs !!! j]> (<[S j := l]> segs)) in *.
        assert (HP : concat segs2 ≡ₚ concat segs).
        { destruct (concat_ins2 segs (S j) j (segs !!! S j) (segs !!! j)) as (rest & A & B); [lia|apply tot_lookup; lia|apply tot_lookup; lia|].
          unfold segs2. rewrite B, A, El. rewrite <- app_assoc. done. }
        match type of HR2 with brel ?Q _ => destruct (IH Q segs2 fuel) as (qs' & E' & HR'); [|exact HR2| | | |] end.
        * unfold segs2. rewrite list_lookup_total_insert_ne by lia. rewrite list_lookup_total_insert by lia. done.
        * unfold bids in *. by rewrite HP.
        * unfold bnn in *. by rewrite HP.
        * lia.
        * exists qs'. split; [exact E'|].
          replace (<[j := ((spill (ms !!! S j) l).2 ++ [x]) ++ segs !!! j]> (<[S j := (spill (ms !!! S j) l).1]> segs))
            with (<[j := (spill (ms !!! S j) l).2 ++ segs2 !!! j]> (<[S j := (spill (ms !!! S j) l).1]> segs2)); [done|].
          unfold segs2. rewrite list_lookup_total_insert by (rewrite insert_length; lia).
          rewrite (list_insert_commute _ (S j) j) by lia. rewrite list_insert_insert.
          rewrite list_insert_insert. by rewrite <- app_assoc.
      + apply bool_decide_eq_false in Eo. exists qs. split; [done|]. rewrite spill_fit by (done || lia). cbn [fst snd app].
        rewrite <- El. rewrite (list_insert_id segs (S j)) by (apply tot_lookup; lia).
        rewrite (list_insert_id segs j) by (apply tot_lookup; lia). done.
  Qed.

  Lemma seg_length (segs : list bseg) i : (i < length segs)%nat -> (length (segs !!! i) <= length (concat segs))%nat.
  Proof using.
    clear. intros Hi. destruct (concat_ins segs i _ (tot_lookup _ _ Hi)) as (rest & A & _). rewrite A, app_length. lia.
  Qed.

  Lemma demote_ok r k : (k < length ms)%nat -> forall qs segs, brel qs segs -> NoDup (bids (concat segs)) -> bnn (concat segs) ->
    bbytes (concat segs) <= cap -> (forall i, (1 <= i < k)%nat -> bbytes (segs !!! i) <= ms !!! i) ->
    exists qs', lps_demote cap r k qs = Ok qs' /\ brel qs' (bsettle ms k segs).
  Proof using Hms.
    induction k as [|j IH]; intros Hk qs segs HR Hnd Hb Hc Hw; cbn [lps_demote bsettle].
    - rewrite (brel_occ _ _ HR). rewrite decide_True by done. eauto.
    - pose proof (brel_len _ _ HR) as [L1 L2].
      destruct (demote_loop r j Hk _ _ _ (v0_fuel qs) eq_refl HR Hnd Hb) as (qs1 & -> & HR1).
      { rewrite (brel_fuel _ _ HR). pose proof (seg_length segs (S j) ltac:(lia)). lia. }
      cbn [rbind]. destruct (spill_app (ms !!! S j) (segs !!! S j)) as [_ Ea]. destruct (spill _ _) as [a b]. cbn [fst snd] in Ea, HR1.
      set (segs1 := <[j := _]> _) in *. rewrite (brel_over _ _ j HR1 ltac:(lia)). cbn [rbind].
      assert (HP : concat segs1 ≡ₚ concat segs).
      { destruct (concat_ins2 segs (S j) j (segs !!! S j) (segs !!! j)) as (rest & A & B); [lia|apply tot_lookup; lia|apply tot_lookup; lia|].
        unfold segs1. rewrite B, A, Ea. by rewrite <- !app_assoc. }
      assert (Hb1 : bnn (concat segs1)) by (unfold bnn in *; by rewrite HP).
      assert (Hw1 : forall i, (1 <= i < j)%nat -> bbytes (segs1 !!! i) <= ms !!! i).
      { intros i Hi. unfold segs1. rewrite !list_lookup_total_insert_ne by lia. apply Hw. lia. }
      destruct (bool_decide _) eqn:Eo.
      + apply IH; try done; [lia| |by rewrite (bbytes_perm _ _ HP)]. unfold bids in *. by rewrite HP.
      + apply bool_decide_eq_false in Eo. exists qs1. split; [done|]. rewrite bsettle_id; [done| |done|].
        * unfold segs1. rewrite !insert_length. lia.
        * intros i Hi. destruct (decide (i = j)) as [->|]; [lia|]. apply Hw1. lia.
  Qed.

  Record bstate (s : segv0) (a : bspec) : Prop := mkBst {
    bt_q   : brel (v0_q s) (bs_segs a);
    bt_sz  : c_size (v0_c s) = cap;
    bt_md  : c_md (v0_c s) = 0;
    bt_occ : c_occ (v0_c s) = 0;
    bt_adm : c_adm (v0_c s) = bs_adm a
  }.

  Lemma len_ms : (0 < length ms)%nat.
  Proof using Hn. clear -Hn. destruct ms; [done|cbn; lia]. Qed.


  Definition bmu (l : bseg) : nat := foldr (fun x acc => ((if decide (b_fr x > 0)%Z then 2 else 1) + acc)%nat) O l.
  Lemma bmu_perm l1 l2 : l1 ≡ₚ l2 -> bmu l1 = bmu l2.
  Proof using. clear. unfold bmu. induction 1; cbn; lia. Qed.
  Lemma bmu_le l : (bmu l <= 2 * length l)%nat.
  Proof using. clear. induction l as [|x l IH]; cbn; [lia|]. fold (bmu l). destruct (decide _); lia. Qed.

  Lemma binv_build k segs' C : length segs' = length ms -> concat segs' ≡ₚ C -> NoDup (bids C) -> Forall (bob k) C ->
    bbytes C <= cap -> (forall i, (1 <= i < length ms)%nat -> bbytes (segs' !!! i) <= ms !!! i) -> binv k segs'.
  Proof using.
    intros Hl HP H1 H2 H3 H4. split; try done.
    - unfold bids in *. by rewrite HP.
    - by rewrite HP.
    - by rewrite (bbytes_perm _ _ HP).
  Qed.

  (** What an eviction does to the machine. *)
  Lemma bevict_inv k segs : binv k segs ->
    match bevict ms segs with
    | None => bbytes (segs !!! O) <= 0
    | Some segs' => binv k segs' /\ bbytes (segs !!! O) > 0 /\ exists l x, segs !!! O = l ++ [x] /\
        concat segs ≡ₚ x :: concat (<[O := l]> segs) /\
        if decide (b_fr x > 0) then concat segs' ≡ₚ mkLob (b_id x) (b_sz x) 0 :: concat (<[O := l]> segs)
        else segs' = <[O := l]> segs
    end.
  Proof using Hms Hn.
    intros HI. pose proof len_ms as H0. destruct HI as [I1 I2 I3 I4 I5].
    assert (HC := concat_ins segs O _ (tot_lookup segs O ltac:(lia))).
    unfold bevict. destruct (decide _) as [Hgt|]; [|lia].
    destruct (segs !!! O) as [|x l _] eqn:Hx using rev_ind; [cbn in Hgt; lia|].
    rewrite last_snoc, removelast_last. destruct HC as (rest & A & B). specialize (B l).
    assert (HP : concat segs ≡ₚ x :: concat (<[O := l]> segs)).
    { rewrite A, B. rewrite <- app_assoc. cbn. by rewrite <- Permutation_middle. }
    set (s1 := <[O := l]> segs) in *.
    assert (L1 : length s1 = length ms) by (unfold s1; by rewrite insert_length).
    assert (N1 : NoDup (bids (x :: concat s1))) by (unfold bids in *; by rewrite HP in I2).
    assert (F1 : Forall (bob k) (x :: concat s1)) by (by rewrite HP in I3).
    assert (C1 : bbytes (x :: concat s1) <= cap) by (by rewrite <- (bbytes_perm _ _ HP)).
    assert (W1 : forall i, (1 <= i < length ms)%nat -> bbytes (s1 !!! i) <= ms !!! i).
    { intros i Hi. unfold s1. rewrite list_lookup_total_insert_ne by lia. by apply I5. }
    destruct (decide (b_fr x > 0)) as [Hf|Hf].
    - set (i := Nat.min _ _). assert (Hi : (i < length ms)%nat) by lia.
      set (y := mkLob (b_id x) (b_sz x) 0). set (s2 := <[i := y :: s1 !!! i]> s1).
      assert (L2 : length s2 = length ms) by (unfold s2; by rewrite insert_length).
      assert (HP2 : concat (bsettle ms i s2) ≡ₚ y :: concat s1).
      { rewrite bsettle_perm by lia. destruct (concat_ins s1 i _ (tot_lookup s1 i ltac:(lia))) as (r2 & A2 & B2).
        unfold s2. rewrite B2, A2. done. }
      assert (F1' := F1). apply Forall_cons in F1' as [[Fx1 Fx2] F2].
      split; [|split; [done|]].
      + apply (binv_build _ _ (y :: concat s1)); try done.
        * by rewrite bsettle_len.
        * constructor; [|done]. split; cbn; [done|lia].
        * intros j Hj. destruct (decide (j <= i)%nat) as [Hji|Hji].
          -- apply bsettle_within; [lia|lia|done].
          -- rewrite bsettle_above by lia. unfold s2. rewrite list_lookup_total_insert_ne by lia. by apply W1.
      + exists l, x. split; [done|]. split; [done|]. rewrite decide_True by done. done.
    - split; [|split; [done|]].
      + unfold bids in N1. cbn in N1. apply NoDup_cons in N1 as [_ N1]. apply Forall_cons in F1 as [[Fx1 Fx2] F2].
        rewrite bbytes_cons in C1. apply (binv_build _ _ (concat s1)); try done. lia.
      + exists l, x. split; [done|]. split; [done|]. rewrite decide_False by done. done.
  Qed.

  Lemma bevict_mu k segs segs' : binv k segs -> bevict ms segs = Some segs' ->
    binv k segs' /\ (bmu (concat segs') < bmu (concat segs))%nat /\ (length (concat segs') <= length (concat segs))%nat /\
    (forall id, bcached segs' id -> bcached segs id).
  Proof using Hms Hn.
    intros HI E. pose proof (bevict_inv _ _ HI) as H. rewrite E in H. destruct H as (H1 & _ & l & x & _ & HP & Hc).
    split; [done|]. rewrite (bmu_perm _ _ HP). rewrite (Permutation_length HP). cbn [bmu foldr length].
    fold (bmu (concat (<[O := l]> segs))). unfold bcached, bids. destruct (decide (b_fr x > 0)).
    - rewrite (bmu_perm _ _ Hc), (Permutation_length Hc). cbn [bmu foldr length].
      fold (bmu (concat (<[O := l]> segs))). rewrite decide_False by (cbn; lia). split; [lia|]. split; [lia|].
      intros id. rewrite Hc, HP. done.
    - subst segs'. split; [lia|]. split; [lia|]. intros id. rewrite HP. cbn. intros ?. by right.
  Qed.

  Lemma evict_ok s a r k : bstate s a -> binv k (bs_segs a) ->
    match bevict ms (bs_segs a) with
    | Some segs' => exists s', lps_evict s r = Ok s' /\ bstate s' (mkBS segs' (bs_adm a))
    | None => lps_evict s r = Err AssertFail
    end.
  Proof using Hms Hn.
    intros [T1 T2 T3 T4 T5] HI. pose proof len_ms as H0. set (segs := bs_segs a) in *.
    pose proof (bevict_inv _ _ HI) as HE.
    unfold lps_evict. destruct (brel_at _ _ O T1 H0) as (q & Eq & _ & Hq & _). rewrite Eq. cbn [rbind].
    rewrite (vb_occ _ _ _ Hq).
    destruct (bevict ms segs) as [segs'|] eqn:Eb; [|by rewrite decide_False by lia].
    destruct HE as (HI' & Hgt & l & x & Hx & HP & Hc). rewrite decide_True by done.
    rewrite Hx in Hq. destruct (vb_tail _ _ _ _ r Hq) as (E1 & (o & E2 & Hos & Hop & Hro) & q' & Eev & Hq').
    rewrite E1. cbn [rbind]. rewrite E2. unfold v0_evict_at. rewrite Eq. cbn [rbind]. rewrite Eev. cbn [rbind].
    pose proof (brel_ins _ _ _ _ _ T1 H0 Hq') as HR1. rewrite Hop.
    unfold bevict in Eb. rewrite decide_True in Eb by done. rewrite Hx, last_snoc, removelast_last in Eb.
    destruct HI as [I1 I2 I3 I4 I5]. destruct HI' as [J1 J2 J3 J4 J5].
    set (s1 := <[O := l]> segs) in *. pose proof (brel_len _ _ HR1) as [L1 L2].
    destruct (decide (b_fr x > 0)) as [Hf|Hf].
    - injection Eb as Eb. set (i := Nat.min _ _) in Eb.
      assert (Ei : Z.to_nat (if decide (b_fr x >= Z.of_nat (length (<[O := q']> (v0_q s)))) then Z.of_nat (length (<[O := q']> (v0_q s))) - 1 else b_fr x) = i).
      { unfold i. destruct (decide _); lia. }
      rewrite Ei. assert (Hi : (i < length ms)%nat) by lia.
      destruct (brel_at _ _ i HR1 Hi) as (f & Ef & _ & Hf' & _). rewrite Ef. cbn [rbind].
      assert (N1 : NoDup (bids (x :: concat s1))) by (unfold bids in *; by rewrite HP in I2).
      assert (F1 : Forall (bob k) (x :: concat s1)) by (by rewrite HP in I3).
      assert (C1 : bbytes (x :: concat s1) <= cap) by (by rewrite <- (bbytes_perm _ _ HP)).
      assert (Hxn : b_id x ∉ bids (s1 !!! i)).
      { unfold bids in N1. cbn in N1. apply NoDup_cons in N1 as [N1 _]. intros F. apply N1.
        apply elem_of_list_fmap in F as (z & -> & Hz). apply elem_of_list_fmap. exists z. split; [done|].
        eapply seg_sub; [|exact Hz]. lia. }
      destruct (vb_new _ _ _ (req_of_obj (b_id x) o) 0 Hf' Hxn Hro) as (f' & Ef' & Hf''). cbn [r_id req_of_obj] in *.
      rewrite Ef'. cbn [rbind]. pose proof (brel_ins _ _ i _ _ HR1 Hi Hf'') as HR2.
      assert (Ez : r_size (req_of_obj (b_id x) o) = b_sz x) by (cbn; done). cbn [r_size req_of_obj] in HR2, Ez. rewrite Ez in HR2.
      set (y := mkLob (b_id x) (b_sz x) 0) in *. set (s2 := <[i := y :: s1 !!! i]> s1) in *.
      rewrite (brel_over _ _ i HR2 Hi). cbn [rbind].
      assert (HP2 : concat s2 ≡ₚ y :: concat s1).
      { destruct (concat_ins s1 i _ (tot_lookup s1 i ltac:(lia))) as (r2 & A2 & B2). unfold s2. rewrite B2, A2. done. }
      assert (F1' := F1). apply Forall_cons in F1' as [[Fx1 Fx2] F2].
      assert (Hb2 : bnn (concat s2)).
      { unfold bnn. rewrite HP2. constructor; [cbn; lia|]. by apply (bob_nn k). }
      assert (W1 : forall j, (1 <= j < i)%nat -> bbytes (s2 !!! j) <= ms !!! j).
      { intros j Hj. unfold s2, s1. rewrite !list_lookup_total_insert_ne by lia. apply I5. lia. }
      destruct (bool_decide (bbytes (s2 !!! i) > ms !!! i)) eqn:Eo.
      + destruct (demote_ok r i Hi _ s2 HR2) as (qs' & E' & HR'); try done.
        * unfold bids in *. rewrite HP2. done.
        * rewrite (bbytes_perm _ _ HP2). done.
        * rewrite T2, E'. cbn [rbind]. eexists. split; [done|]. split; try done. cbn. by rewrite <- Eb.
      + apply bool_decide_eq_false in Eo. cbn [rbind]. eexists. split; [done|]. split; try done. cbn.
        rewrite <- Eb. rewrite bsettle_id; [done| |done|].
        * unfold s2. rewrite insert_length. lia.
        * intros j Hj. destruct (decide (j = i)) as [->|]; [lia|]. apply W1. lia.
    - injection Eb as Eb. eexists. split; [done|]. split; try done. cbn. by rewrite <- Eb.
  Qed.

  Lemma total_split segs : length segs = length ms -> (forall i, (1 <= i < length ms)%nat -> bbytes (segs !!! i) <= ms !!! i) ->
    bbytes (concat segs) + ms !!! O <= bbytes (segs !!! O) + foldr Z.add 0 ms.
  Proof using Hn.
    clear -Hn. destruct ms as [|m ms']; [done|]. clear Hn. destruct segs as [|l segs]; [done|]. cbn [length]. intros [= Hl] Hw.
    cbn [concat foldr]. rewrite bbytes_app. change ((m :: ms') !!! O) with m. change ((l :: segs) !!! O) with l.
    enough (bbytes (concat segs) <= foldr Z.add 0 ms') by lia.
    assert (Hw' : forall i, (i < length ms')%nat -> bbytes (segs !!! i) <= ms' !!! i).
    { intros i Hi. apply (Hw (S i)). lia. }
    clear Hw. revert segs Hl Hw'. induction ms' as [|m' ms' IH]; intros [|l' segs] Hl Hw; try done.
    cbn [concat foldr]. rewrite bbytes_app. pose proof (Hw O ltac:(cbn; lia)) as H1.
    change ((m' :: ms') !!! O) with m' in H1. change ((l' :: segs) !!! O) with l' in H1.
    specialize (IH segs ltac:(cbn in Hl; lia)).
    enough (bbytes (concat segs) <= foldr Z.add 0 ms') by lia. apply IH. intros i Hi. apply (Hw (S i)). cbn. lia.
  Qed.

  Lemma occ_ok s a : bstate s a -> v0_occ s = bbytes (concat (bs_segs a)).
  Proof using. intros []. by apply brel_occ. Qed.

  Lemma broom_ok r k adm n : r_size r <= ms !!! O -> forall s segs fuel,
    (bmu (concat segs) <= n)%nat -> (bmu (concat segs) <= fuel)%nat -> bstate s (mkBS segs adm) -> binv k segs ->
    exists s' segs', evict_loop lps_ops fuel s r = Ok s' /\ broom n ms cap (r_size r) segs = Some segs' /\
      bstate s' (mkBS segs' adm) /\ binv k segs' /\ bbytes (concat segs') + r_size r <= cap /\
      (length (concat segs') <= length (concat segs))%nat /\ (forall id, bcached segs' id -> bcached segs id).
  Proof using Hms Hn Hsum.
    intros Hw. induction n as [|n IH]; intros s segs fuel Hmu Hfu HT HI; pose proof (occ_ok _ _ HT) as Ho;
      cbn [bs_segs] in Ho; pose proof HT as [_ T2 T3 _ _];
      (destruct (decide (bbytes (concat segs) + r_size r > cap)) as [Hgt|Hle];
       [|exists s, segs; split;
         [destruct fuel; cbn [evict_loop op_occupied op_size op_md lps_ops]; rewrite Ho, T2, T3, decide_False by lia; done|];
         split; [cbn [broom]; by rewrite decide_False by lia|]; split; [done|]; split; [done|]; split; [lia|]; split; [lia|]; done]);
      pose proof (evict_ok s _ r k HT HI) as HE; cbn [bs_segs bs_adm] in HE;
      pose proof (bevict_inv k segs HI) as HV;
      pose proof (total_split segs (bi_len _ _ HI) (bi_seg _ _ HI)) as Hts;
      (destruct (bevict ms segs) as [segs1|] eqn:Eb; [|lia]);
      destruct (bevict_mu _ _ _ HI Eb) as (HI1 & Hmu1 & Hlen1 & Hin1); [lia|].
    destruct fuel as [|fuel]; [lia|]. destruct HE as (s1 & Es & HT1).
    destruct (IH s1 segs1 fuel ltac:(lia) ltac:(lia) HT1 HI1) as (s2 & segs2 & A & B & C & D & E1 & E2 & E3).
    exists s2, segs2. split.
    { cbn [evict_loop]. cbn [op_occupied op_size op_md lps_ops op_evict]. rewrite Ho, T2, T3, decide_True by lia.
      rewrite Es. cbn [rbind]. exact A. }
    split; [cbn [broom]; rewrite decide_True by lia; by rewrite Eb|]. split; [done|]. split; [done|]. split; [lia|].
    split; [lia|]. intros id ?. by apply Hin1, E3.
  Qed.

  Lemma place_inv k segs r : binv k segs -> 0 <= k -> ~ bcached segs (r_id r) -> req_ok 0 r ->
    bbytes (concat segs) + r_size r <= cap -> binv k (bplace ms segs r) /\ length (concat (bplace ms segs r)) = S (length (concat segs)).
  Proof using Hn.
    intros [I1 I2 I3 I4 I5] Hk Hnc [Hr1 Hr2] Hc. unfold bplace. pose proof len_ms as H0.
    set (y := mkLob _ _ _). set (i := default O _).
    assert (Hi : (i < length ms)%nat /\ ((1 <= i)%nat -> bbytes (segs !!! i) + r_size r <= ms !!! i)).
    { unfold i. destruct (bfirst _ _ _) as [j|] eqn:Eb; cbn; [|split; [lia|lia]].
      destruct (bfirst_lt _ _ _ Eb). split; [done|]. done. }
    destruct Hi as [Hi Hfit].
    assert (HP : concat (<[i := y :: segs !!! i]> segs) ≡ₚ y :: concat segs).
    { destruct (concat_ins segs i _ (tot_lookup segs i ltac:(lia))) as (r2 & A2 & B2). rewrite B2, A2. done. }
    split; [|by rewrite (Permutation_length HP)].
    apply (binv_build _ _ (y :: concat segs)); try done.
    - by rewrite insert_length.
    - unfold bids. cbn. constructor; [exact Hnc|done].
    - constructor; [|done]. split; cbn; lia.
    - rewrite bbytes_cons. cbn. lia.
    - intros j Hj. destruct (decide (j = i)) as [->|Hji].
      + rewrite list_lookup_total_insert by lia. rewrite bbytes_cons. cbn. specialize (Hfit ltac:(lia)). lia.
      + rewrite list_lookup_total_insert_ne by lia. by apply I5.
  Qed.

  Lemma insert_ok s a r k : bstate s a -> binv k (bs_segs a) -> ~ bcached (bs_segs a) (r_id r) -> req_ok 0 r ->
    r_size r <= cap -> exists s', lps_insert s r = Ok s' /\ bstate s' (mkBS (bplace ms (bs_segs a) r) (bs_adm a)).
  Proof using Hn.
    intros [T1 T2 T3 T4 T5] HI Hnc Hr Hc. pose proof len_ms as H0. unfold lps_insert, bplace.
    rewrite T3, (brel_room _ _ _ T1). replace (r_size r + 0) with (r_size r) by lia.
    set (i := default O _).
    assert (Hi : (i < length ms)%nat).
    { unfold i. destruct (bfirst _ _ _) as [j|] eqn:Eb; cbn; [|lia]. by destruct (bfirst_lt _ _ _ Eb). }
    assert (E : (match bfirst ms (bs_segs a) (r_size r) with
      | Some i => Ok (s, i)
      | None => let! s := while_ (v0_fuel (v0_q s))
          (fun s => Ok (bool_decide (c_occ (v0_c s) + r_size r + c_md (v0_c s) > c_size (v0_c s))))
          (fun s => lps_evict s r) s in Ok (s, O) end) = Ok (s, i)).
    { unfold i. destruct (bfirst _ _ _) as [j|]; [done|]. cbn [default].
      unfold v0_fuel. cbn [while_]. rewrite T4, T3, T2, bool_decide_eq_false_2 by lia. done. }
    rewrite E. cbn [rbind]. destruct (brel_at _ _ i T1 Hi) as (q & -> & _ & Hq & _). cbn [rbind].
    assert (Hxn : r_id r ∉ bids (bs_segs a !!! i)).
    { intros F. apply Hnc. apply elem_of_list_fmap in F as (z & -> & Hz). apply elem_of_list_fmap. exists z.
      split; [done|]. eapply seg_sub; [|exact Hz]. rewrite (bi_len _ _ HI). done. }
    destruct (vb_new _ _ _ r 0 Hq Hxn Hr) as (q' & -> & Hq'). cbn [rbind]. eexists. split; [done|].
    split; try done. cbn. by apply brel_ins.
  Qed.

  Lemma bhit_ids id i l : bids (bhit id i <$> l) = bids l.
  Proof using.
    clear. unfold bids. rewrite <- list_fmap_compose. apply list_fmap_ext. intros _ x _. cbn. unfold bhit.
    destruct (decide _); [done|done].
  Qed.
  Lemma bhit_bytes id i l : bbytes (bhit id i <$> l) = bbytes l.
  Proof using.
    clear. induction l as [|x l IH]; [done|]. rewrite fmap_cons, !bbytes_cons, IH. unfold bhit. by destruct (decide _).
  Qed.
  Lemma bhit_notin id i l : id ∉ bids l -> bhit id i <$> l = l.
  Proof using.
    clear. induction l as [|x l IH]; [done|]. intros [H1 H2]%not_elem_of_cons. rewrite fmap_cons, IH by done.
    unfold bhit. by rewrite decide_False.
  Qed.
  Lemma bhit_ok id i k l : Forall (bob k) l -> Forall (bob (k + 1)) (bhit id i <$> l).
  Proof using.
    clear. intros H. apply Forall_fmap. apply (Forall_impl _ _ _ H). intros x [? ?]. cbn. unfold bhit.
    destruct (decide _); [|by split; [|lia]]. split; cbn; [done|]. destruct (decide _); [destruct (decide _)|]; lia.
  Qed.
  Lemma bob_mono k l : Forall (bob k) l -> Forall (bob (k + 1)) l.
  Proof using. intros H. apply (Forall_impl _ _ _ H). intros x [? ?]. split; [done|lia]. Qed.
  Lemma binv_mono k segs : binv k segs -> binv (k + 1) segs.
  Proof using. intros []. split; try done. by apply bob_mono. Qed.

  Lemma bmark_at id segs i : NoDup (bids (concat segs)) -> (i < length segs)%nat -> id ∈ bids (segs !!! i) ->
    bmark id segs = <[i := bhit id i <$> segs !!! i]> segs.
  Proof using.
    clear. intros Hnd Hi Hin. apply list_eq. intros j. unfold bmark. rewrite list_lookup_imap.
    destruct (decide (j = i)) as [->|Hne].
    - rewrite list_lookup_insert by done. by rewrite (tot_lookup segs i Hi).
    - rewrite list_lookup_insert_ne by done. destruct (segs !! j) as [l|] eqn:Ej; [|done]. cbn. f_equal.
      apply bhit_notin. assert (Hj := lookup_lt_Some _ _ _ Ej). rewrite <- (list_lookup_total_correct _ _ _ Ej).
      by apply (seg_ids segs i j).
  Qed.

  Lemma mark_inv k segs id : binv k segs -> bcached segs id ->
    binv (k + 1) (bmark id segs) /\ length (concat (bmark id segs)) = length (concat segs).
  Proof using.
    intros [I1 I2 I3 I4 I5] Hc.
    assert (Hi : exists i, (i < length segs)%nat /\ id ∈ bids (segs !!! i)).
    { unfold bcached in Hc. apply elem_of_list_fmap in Hc as (x & -> & Hx).
      apply elem_of_list_In, in_concat in Hx as (l & Hl & Hx). apply elem_of_list_In in Hl, Hx.
      apply elem_of_list_lookup in Hl as (i & Hi). exists i. split; [by eapply lookup_lt_Some|].
      rewrite (list_lookup_total_correct _ _ _ Hi). by apply elem_of_list_fmap_1. }
    destruct Hi as (i & Hi & Hin). rewrite (bmark_at _ _ i) by done.
    destruct (concat_ins segs i _ (tot_lookup segs i Hi)) as (rest & A & B). specialize (B (bhit id i <$> segs !!! i)).
    split; [|rewrite (Permutation_length A), (Permutation_length B), !app_length, fmap_length; done].
    eapply binv_build; [|exact B| | | |].
    - by rewrite insert_length.
    - rewrite bids_app, bhit_ids, <- bids_app. unfold bids in *. by rewrite A in I2.
    - rewrite A in I3. apply Forall_app in I3 as [? ?]. apply Forall_app. split; [by apply bhit_ok|by apply bob_mono].
    - rewrite bbytes_app, bhit_bytes, <- bbytes_app. by rewrite <- (bbytes_perm _ _ A).
    - intros j Hj. destruct (decide (j = i)) as [->|].
      + rewrite list_lookup_total_insert by done. rewrite bhit_bytes. by apply I5.
      + rewrite list_lookup_total_insert_ne by done. by apply I5.
  Qed.

  Lemma find_ok s a r u k : bstate s a -> binv k (bs_segs a) -> k + 1 < 2 ^ 31 ->
    if decide (bcached (bs_segs a) (r_id r)) then
      exists s', lps_find s r u = Ok (s', true) /\ bstate s' (mkBS (bmark (r_id r) (bs_segs a)) (bs_adm a))
    else lps_find s r u = Ok (s, false).
  Proof using.
    intros [T1 T2 T3 T4 T5] HI Hk. unfold lps_find. pose proof (brel_scan _ _ r T1) as Hs. pose proof (brel_len _ _ T1) as [L1 L2].
    destruct (v0_scan _ _ _) as [[i|]|]; [| |done]; cbn [rbind].
    - destruct Hs as [Hi Hin]. rewrite decide_True.
      2: { apply elem_of_list_fmap in Hin as (z & -> & Hz). apply elem_of_list_fmap. exists z. split; [done|]. by eapply seg_sub. }
      destruct (brel_at _ _ i T1 ltac:(lia)) as (q & -> & _ & Hq & _). cbn [rbind].
      destruct (vb_bump _ _ _ (r_id r) i k Hq Hin) as (q' & -> & Hq'); [|done|].
      { apply Forall_forall. intros x Hx. pose proof (bi_ok _ _ HI) as F. rewrite Forall_forall in F.
        destruct (F x (seg_sub _ _ _ Hi Hx)) as [_ [_ ?]]. done. }
      cbn [rbind]. eexists. split; [done|]. split; try done. cbn. rewrite (bmark_at _ _ i); [|apply HI|done|done].
      apply brel_ins; [done|lia|done].
    - by rewrite decide_False.
  Qed.

  Lemma filter_bytes (P : lob -> Prop) `{!forall x, Decision (P x)} l : bnn l -> bbytes (filter P l) <= bbytes l.
  Proof using.
    clear. induction 1 as [|x l Hx Hl IH]; [done|]. rewrite filter_cons. destruct (decide (P x)); rewrite ?bbytes_cons; lia.
  Qed.
  Lemma filter_nd (P : lob -> Prop) `{!forall x, Decision (P x)} l : NoDup (bids l) -> NoDup (bids (filter P l)).
  Proof using.
    clear. unfold bids. induction l as [|x l IH]; [done|]. rewrite fmap_cons. intros [H1 H2]%NoDup_cons. rewrite filter_cons.
    destruct (decide (P x)); [|by apply IH]. rewrite fmap_cons. constructor; [|by apply IH].
    intros (y & Ey & Hy)%elem_of_list_fmap. apply H1. rewrite Ey. apply elem_of_list_fmap_1. by apply elem_of_list_filter in Hy as [_ ?].
  Qed.
  Lemma drop_concat id segs : concat (bdrop id segs) = filter (fun x => b_id x <> id) (concat segs).
  Proof using.
    clear. unfold bdrop. induction segs as [|l segs IH]; [done|]. rewrite fmap_cons. cbn [concat]. by rewrite filter_app, IH.
  Qed.
  Lemma drop_inv k segs id : binv k segs -> binv k (bdrop id segs) /\ (length (concat (bdrop id segs)) <= length (concat segs))%nat.
  Proof using.
    intros [I1 I2 I3 I4 I5]. split; [|rewrite drop_concat; apply filter_length].
    assert (Hb := bob_nn _ _ I3). eapply binv_build; [|by rewrite drop_concat| | | |].
    - unfold bdrop. by rewrite fmap_length.
    - by apply filter_nd.
    - rewrite Forall_forall in *. intros x [_ Hx]%elem_of_list_filter. by apply I3.
    - pose proof (filter_bytes (fun x => b_id x <> id) _ Hb). lia.
    - intros i Hi.
      assert (E : bdrop id segs !!! i = filter (fun x => b_id x <> id) (segs !!! i)).
      { apply list_lookup_total_correct. unfold bdrop. rewrite list_lookup_fmap, (tot_lookup segs i) by lia. done. }
      rewrite E. etransitivity; [apply filter_bytes|by apply I5]. apply Forall_forall. intros x Hx. unfold bnn in Hb. rewrite Forall_forall in Hb.
      apply Hb. eapply seg_sub; [|exact Hx]. lia.
  Qed.

  Lemma victim_none segs : bnn (concat segs) -> bbytes (concat segs) <= 0 -> bvictim segs = None.
  Proof using.
    clear. induction segs as [|l segs IH]; [done|]. unfold bnn. cbn [concat]. intros [H1 H2]%Forall_app. rewrite bbytes_app.
    intros Hb. pose proof (bbytes_nn _ H1). pose proof (bbytes_nn _ H2). cbn [bvictim]. rewrite decide_False by lia.
    apply IH; [done|lia].
  Qed.

  Lemma can_ok s a r : bstate s a -> let '(adm, ok) := admit (bs_adm a) r in
    exists s', v0_can_insert s r = Ok (s', ok && bool_decide (r_size r <= cap) && bool_decide (r_size r <= ms !!! O))%bool /\
      bstate s' (mkBS (bs_segs a) adm).
  Proof using Hn.
    intros [T1 T2 T3 T4 T5]. unfold v0_can_insert, cache_can_insert_default. rewrite T5, T2, T3.
    destruct (admit (bs_adm a) r) as [adm' ok]. replace (r_size r + 0) with (r_size r) by lia. destruct ok; cbn [andb].
    - destruct (decide (r_size r > cap)).
      + rewrite (bool_decide_eq_false_2 (r_size r <= cap)) by lia. cbn [andb]. eexists. split; [done|]. by split.
      + rewrite (bool_decide_eq_true_2 (r_size r <= cap)) by lia. cbn [andb v0_set_c v0_q].
        destruct (brel_at _ _ O T1 len_ms) as (q & -> & _ & Hq & Es). cbn [rbind]. rewrite Es. cbn [c_md c_set_adm]. rewrite T3.
        replace (r_size r + 0) with (r_size r) by lia. eexists. split; [done|]. by split.
    - eexists. split; [done|]. by split.
  Qed.

  Lemma tick_ok s a : bstate s a -> bstate (op_tick lps_ops s) a.
  Proof using. intros []. by split. Qed.

  Theorem step_ok s a c k fuel : bstate s a -> binv k (bs_segs a) -> 0 <= k -> k + 1 < 2 ^ 31 ->
    (2 * length (concat (bs_segs a)) <= fuel)%nat -> call_ok (req_ok 0) c ->
    match bcall ms cap a c with
    | None => step lps_ops fuel s c = Err AssertFail
    | Some (a', o) => exists s', step lps_ops fuel s c = Ok (s', o) /\ bstate s' a' /\ binv (k + 1) (bs_segs a') /\
        (length (concat (bs_segs a')) <= S (length (concat (bs_segs a))))%nat
    end.
  Proof using Hms Hn Hsum.
    intros HT HI Hk0 Hk Hf Hc. pose proof (binv_mono _ _ HI) as HI1. pose proof (occ_ok _ _ HT) as Ho.
    pose proof HT as [_ T2 T3 _ _].
    destruct c as [r|r u|r|id|r|r]; cbn [bcall step].
    - unfold bget, cache_get_base. apply tick_ok in HT. pose proof (find_ok _ _ r true k HT HI Hk) as HF. cbn [op_find lps_ops].
      destruct (decide (bcached (bs_segs a) (r_id r))) as [Hin|Hin].
      + destruct HF as (s' & -> & HT'). cbn [rbind]. exists s'. split; [done|]. split; [done|]. cbn [bs_segs].
        destruct (mark_inv _ _ _ HI Hin) as [? ->]. split; [done|lia].
      + rewrite HF. cbn [rbind]. pose proof (can_ok _ _ r HT) as HC. destruct (admit (bs_adm a) r) as [adm ok].
        destruct HC as (s1 & Hcan & HT1). cbn [op_can_insert lps_ops]. rewrite Hcan. cbn [rbind].
        destruct (ok && bool_decide (r_size r <= cap) && bool_decide (r_size r <= ms !!! 0%nat))%bool eqn:Eok.
        * apply andb_prop in Eok as [Eok E2]. apply andb_prop in Eok as [_ E1].
          apply bool_decide_eq_true in E1, E2. pose proof (bmu_le (concat (bs_segs a))) as Hmu.
          destruct (broom_ok r k adm (2 * length (concat (bs_segs a))) E2 s1 (bs_segs a) fuel ltac:(lia) ltac:(lia) HT1 HI)
            as (s2 & segs2 & A & B & HT2 & HI2 & Hc2 & Hl2 & Hin2).
          rewrite A, B. cbn [rbind op_insert lps_ops].
          assert (Hn2 : ~ bcached segs2 (r_id r)) by (intros ?; by apply Hin, Hin2).
          destruct (insert_ok _ _ r k HT2 HI2 Hn2 Hc E1) as (s3 & -> & HT3). cbn [rbind]. exists s3. split; [done|]. split; [done|].
          cbn [bs_segs]. destruct (place_inv k segs2 r HI2 Hk0 Hn2 Hc Hc2) as [HI3 ->]. split; [by apply binv_mono|lia].
        * exists s1. split; [done|]. split; [done|]. cbn [bs_segs]. split; [done|lia].
    - pose proof (find_ok _ _ r u k HT HI Hk) as HF. cbn [op_find lps_ops].
      destruct (decide (bcached (bs_segs a) (r_id r))) as [Hin|Hin].
      + destruct HF as (s' & -> & HT'). cbn [rbind]. exists s'. split; [done|]. split; [done|]. cbn [bs_segs].
        destruct (mark_inv _ _ _ HI Hin) as [? ->]. split; [done|lia].
      + rewrite HF. cbn [rbind]. exists s. split; [done|]. split; [done|]. split; [done|lia].
    - pose proof (find_ok _ _ r false k HT HI Hk) as HF. cbn [op_find lps_ops op_occupied op_md op_size op_insert].
      destruct (decide (bcached (bs_segs a) (r_id r))) as [Hin|Hin].
      + destruct HF as (s' & -> & HT'). cbn [rbind]. exists s. split; [done|]. split; [done|]. split; [done|lia].
      + rewrite HF. cbn [rbind]. rewrite Ho, T3, T2. 
        destruct (decide (bbytes (concat (bs_segs a)) + r_size r > cap)) as [Hb|Hb].
        * rewrite decide_True by lia. exists s. split; [done|]. split; [done|]. split; [done|lia].
        * rewrite decide_False by lia. pose proof (bbytes_nn _ (bob_nn _ _ (bi_ok _ _ HI))).
          destruct (insert_ok _ _ r k HT HI Hin Hc ltac:(lia)) as (s3 & -> & HT3). cbn [rbind]. exists s3. split; [done|]. split; [done|].
          cbn [bs_segs]. destruct (place_inv k _ r HI Hk0 Hin Hc ltac:(lia)) as [HI3 ->]. split; [by apply binv_mono|lia].
    - cbn [op_remove lps_ops]. unfold v0_remove. destruct HT as [T1 T2' T3' T4 T5].
      destruct (brel_remove _ _ id T1 (bi_nd _ _ HI)) as (qs' & -> & HR). cbn [rbind]. eexists. split; [done|].
      split; [by split|]. cbn [bs_segs]. destruct (drop_inv _ _ id HI1) as [? ?]. split; [done|lia].
    - cbn [op_nobj lps_ops op_evict]. rewrite Ho. destruct (decide (bbytes (concat (bs_segs a)) <= 0)).
      + exists s. split; [done|]. split; [done|]. split; [done|lia].
      + pose proof (evict_ok s a r k HT HI) as HE. destruct (bevict ms (bs_segs a)) as [segs'|] eqn:Eb.
        * destruct HE as (s' & -> & HT'). cbn [rbind]. exists s'. split; [done|]. split; [done|]. cbn [bs_segs].
          destruct (bevict_mu _ _ _ HI1 Eb) as (? & _ & ? & _). split; [done|lia].
        * by rewrite HE.
    - cbn [op_nobj lps_ops op_to_evict]. rewrite Ho. exists s. destruct (decide (bbytes (concat (bs_segs a)) <= 0)).
      + rewrite victim_none; [|by apply (bob_nn k), HI|done]. split; [done|]. split; [done|]. split; [done|lia].
      + unfold v0_to_evict. destruct HT as [T1 T2' T3' T4 T5]. pose proof (brel_nonempty _ _ T1) as HN.
        destruct (v0_nonempty (v0_q s)) as [i|].
        * destruct HN as (q & Eq & (m & Hq) & Hby & ->). rewrite Eq. cbn [rbind].
          destruct (bs_segs a !!! i) as [|x l _] eqn:El using rev_ind.
          -- cbn in Hby. lia.
          -- destruct (vb_tail _ _ _ _ r Hq) as (-> & _). cbn [rbind]. rewrite last_snoc. split; [done|].
             split; [by split|]. split; [done|lia].
        * rewrite HN. cbn [rbind]. split; [done|]. split; [by split|]. split; [done|lia].
  Qed.

  Theorem run_ok fuel cs : forall s a k, bstate s a -> binv k (bs_segs a) -> 0 <= k -> k + Z.of_nat (length cs) < 2 ^ 31 ->
    (2 * (length (concat (bs_segs a)) + length cs) <= fuel)%nat -> Forall (call_ok (req_ok 0)) cs ->
    match brun ms cap a cs with
    | None => run lps_ops fuel s cs = Err AssertFail
    | Some (a', os) => exists s', run lps_ops fuel s cs = Ok (s', os) /\ bstate s' a' /\
        binv (k + Z.of_nat (length cs)) (bs_segs a')
    end.
  Proof using Hms Hn Hsum.
    induction cs as [|c cs IH]; intros s a k HT HI H0 Hk Hf Hc.
    - cbn. exists s. rewrite Z.add_0_r. done.
    - apply Forall_cons in Hc as [Hc Hcs]. cbn [length] in *. cbn [brun run].
      pose proof (step_ok s a c k fuel HT HI H0 ltac:(lia) ltac:(lia) Hc) as HS.
      destruct (bcall ms cap a c) as [[a1 o]|]; [|by rewrite HS].
      destruct HS as (s1 & -> & HT1 & HI1 & Hl). cbn [rbind].
      specialize (IH s1 a1 (k + 1) HT1 HI1 ltac:(lia) ltac:(lia) ltac:(lia) Hcs).
      destruct (brun ms cap a1 cs) as [[a2 os]|]; [|by rewrite IH].
      destruct IH as (s2 & -> & HT2 & HI2). cbn [rbind]. exists s2. split; [done|]. split; [done|].
      replace (k + Z.of_nat (S (length cs))) with (k + 1 + Z.of_nat (length cs)) by lia. done.
  Qed.

  Lemma init_ok adm : 0 <= cap -> exists s, lps_init cap (length ms) ms adm = Ok s /\
    bstate s (mkBS (replicate (length ms) []) adm) /\ binv 0 (replicate (length ms) []).
  Proof using Hms.
    clear Hn Hsum. intros Hc. unfold lps_init.
    assert (E : exists qs, lps_segs (length ms) ms = Ok qs /\ brel qs (replicate (length ms) [])).
    { unfold brel. clear. induction ms as [|m ms' IH]; cbn [length lps_segs].
      - exists []. split; [done|]. split; [constructor|done].
      - destruct IH as (qs & -> & H & E). cbn [rbind]. eexists. split; [done|]. split.
        + cbn [replicate]. constructor; [apply vb_nil|done].
        + rewrite fmap_cons, E. done. }
    destruct E as (qs & -> & HR). cbn [rbind]. eexists. split; [done|]. split; [by split|].
    assert (EC : concat (replicate (length ms) []) = ([] : bseg)).
    { generalize (length ms). induction n; [done|]. cbn. done. }
    split; rewrite ?EC; cbn; try done.
    - by rewrite replicate_length.
    - constructor.
    - intros i Hi. rewrite lookup_total_replicate_2 by lia. apply ms_nn. lia.
  Qed.

End Array.
