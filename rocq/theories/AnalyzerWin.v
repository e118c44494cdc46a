(** The windowed statistics of the analyzer: what each output row counts. *)
From stdpp Require Import gmap list numbers fin_maps sorting.
From Verif Require Import Base ModelAnalyzer SpecAnalyzer AnalyzerFacts.
Open Scope Z_scope.

Lemma cnt_nil {A} (f : A -> bool) : cnt f [] = 0.
Proof. done. Qed.
Lemma cnt_cons {A} (f : A -> bool) x l : cnt f (x :: l) = (if f x then 1 else 0) + cnt f l.
Proof.
  unfold cnt. rewrite filter_cons. destruct (f x); [rewrite decide_True by done|rewrite decide_False by done];
    cbn [length]; lia.
Qed.
Lemma cnt_app {A} (f : A -> bool) l l' : cnt f (l ++ l') = cnt f l + cnt f l'.
Proof. unfold cnt. rewrite filter_app, app_length. lia. Qed.
Lemma cnt_nonneg {A} (f : A -> bool) l : 0 <= cnt f l.
Proof. unfold cnt. lia. Qed.
Lemma zsum_app l l' : zsum (l ++ l') = zsum l + zsum l'.
Proof. unfold zsum. induction l as [|x l IH]; cbn [foldr app]; lia. Qed.

(** ** Counting in the row of the previous request's window *)
Section shifted.
  Context {X R : Type} (Rel : R -> list X -> Prop).

  Definition proj (i : Z) (A : list (Z * X)) : list X := (filter (fun p => p.1 = i) A).*2.

  Record shifted (w : Z) (A : list (Z * X)) (rows : list R) (cur : R) : Prop := {
    sh_w : 0 <= w;
    sh_le : Forall (fun p => p.1 <= w) A;
    sh_len : length rows = Z.to_nat w;
    sh_row : forall i r, rows !! i = Some r -> Rel r (proj (Z.of_nat i) A);
    sh_cur : Rel cur (proj w A)
  }.

  Lemma proj_app i A B : proj i (A ++ B) = proj i A ++ proj i B.
  Proof. unfold proj. by rewrite filter_app, fmap_app. Qed.
  Lemma proj_one i j x : proj i [(j, x)] = if decide (j = i) then [x] else [].
  Proof.
    unfold proj. rewrite filter_cons, filter_nil. cbn [fst].
    destruct (decide (j = i)); done.
  Qed.
  Lemma proj_above i w A : Forall (fun p => p.1 <= w) A -> w < i -> proj i A = [].
  Proof.
    intros HA Hi. induction A as [|[j x] A IH]; [done|].
    apply Forall_cons in HA as [Hj HA]. cbn [fst] in Hj.
    change ((j, x) :: A) with ([(j, x)] ++ A). rewrite proj_app, proj_one.
    rewrite decide_False by lia. by apply IH.
  Qed.

  Lemma shifted_step w w' A rows cur x cur1 z :
    shifted w A rows cur -> w <= w' ->
    Rel cur1 (proj w A ++ [x]) -> Rel z [] ->
    shifted w' (A ++ [(w, x)])
      (match Z.to_nat (w' - w) with O => rows | S m => rows ++ cur1 :: replicate m z end)
      (match Z.to_nat (w' - w) with O => cur1 | S _ => z end).
  Proof.
    intros [Hw Hle Hlen Hrow Hcur] Hww Hc1 Hz.
    destruct (Z.to_nat (w' - w)) as [|m] eqn:Em.
    - assert (w' = w) as -> by lia. constructor; try done.
      + apply Forall_app. split; [done|]. constructor; [cbn; lia|constructor].
      + intros i r Hi. rewrite proj_app, proj_one.
        assert (Hil : (i < length rows)%nat) by (by eapply lookup_lt_Some).
        rewrite decide_False by lia. rewrite app_nil_r. by apply Hrow.
      + by rewrite proj_app, proj_one, decide_True by done.
    - constructor.
      + lia.
      + apply Forall_app. split.
        * eapply Forall_impl; [exact Hle|]. cbn. lia.
        * constructor; [cbn; lia|constructor].
      + rewrite app_length. cbn [length]. rewrite replicate_length. lia.
      + intros i r Hi. rewrite proj_app, proj_one.
        apply lookup_app_Some in Hi as [Hi|[Hil Hi]].
        * assert (Hil : (i < length rows)%nat) by (by eapply lookup_lt_Some).
          rewrite decide_False by lia. rewrite app_nil_r. by apply Hrow.
        * destruct (i - length rows)%nat as [|d] eqn:Ed; cbn in Hi.
          -- apply Some_inj in Hi as <-. rewrite decide_True by lia.
             by replace (Z.of_nat i) with w by lia.
          -- apply lookup_replicate in Hi as [-> _].
             rewrite decide_False by lia. rewrite app_nil_r.
             rewrite (proj_above _ w) by (done || lia). done.
      + rewrite proj_app, proj_one, decide_False by lia.
        rewrite app_nil_r. rewrite (proj_above _ w) by (done || lia). done.
  Qed.
End shifted.

Lemma after_window_proj {A} i ws (l : list A) :
  after_window i ws l = proj i (zip (owners 0 ws) l).
Proof. done. Qed.

Definition ewin (tw : Z) (e : ereq) : Z := e_time e / tw.

(** the windows of the requests never go back *)
Fixpoint rising (w : Z) (ws : list Z) : Prop :=
  match ws with [] => True | w' :: ws => w <= w' /\ rising w' ws end.

Lemma last_owner_cons (w w' : Z) (ws : list Z) : default w (last (w' :: ws)) = default w' (last ws).
Proof. destruct ws as [|w2 ws]; [done|]. rewrite last_cons_cons. destruct (last (w2 :: ws)) eqn:E; [done|]. apply last_None in E. done. Qed.

(** the flush loops *)
Lemma flush_cond tw clock w : 0 < tw -> w <= clock / tw ->
  (clock < (w + 1) * tw <-> Z.to_nat (clock / tw - w) = O).
Proof. intros Htw Hw. rewrite div_window by lia. lia. Qed.

(** ** Request rate *)
Definition rr_cur (s : rrate) : Z * Z * Z * Z := (rr_req s, rr_byte s, rr_obj s, rr_cold s).

Lemma rr_flush_ok tw clock n : forall w s,
  0 < tw -> rr_next s = (w + 1) * tw -> clock / tw = w + Z.of_nat n ->
  exists s', rr_flush n tw clock s = Ok s' /\
    rr_next s' = (clock / tw + 1) * tw /\
    rr_rows s' = (match n with O => rr_rows s
                          | S m => rr_rows s ++ rr_cur s :: replicate m (0, 0, 0, 0) end) /\
    rr_cur s' = (match n with O => rr_cur s | S _ => (0, 0, 0, 0) end).
Proof.
  induction n as [|n IH]; intros w s Htw Hs Hn; cbn [rr_flush].
  - rewrite decide_True by (rewrite Hs; apply div_window; lia).
    exists s. split; [done|]. split; [rewrite Hs; f_equal; lia|done].
  - rewrite decide_False by (rewrite Hs, div_window by lia; lia).
    edestruct (IH (w + 1) (mkRR (rr_next s + tw) 0 0 0 0
                   (rr_rows s ++ [(rr_req s, rr_byte s, rr_obj s, rr_cold s)])))
      as (s' & -> & H1 & H2 & H3); [done|cbn [rr_next]; rewrite Hs; lia|lia|].
    exists s'. split; [done|]. split; [done|]. rewrite H2, H3. cbn [rr_rows].
    destruct n as [|n]; cbn [replicate]; rewrite <- ?app_assoc; done.
Qed.

Definition rr_rel (r : Z * Z * Z * Z) (xs : list ereq) : Prop :=
  r = (u32 (Z.of_nat (length xs)), u64 (zsum (e_size <$> xs)), u32 (cnt e_first xs), u32 (cnt e_cold xs)).

Lemma rr_rel_snoc s xs e next rows :
  rr_rel (rr_cur s) xs ->
  rr_rel (rr_cur (mkRR next (u32 (rr_req s + 1)) (u64 (rr_byte s + e_size e))
          (if e_first e then u32 (rr_obj s + 1) else rr_obj s)
          (if e_cold e then u32 (rr_cold s + 1) else rr_cold s) rows)) (xs ++ [e]).
Proof.
  unfold rr_rel, rr_cur. cbn [rr_req rr_byte rr_obj rr_cold]. intros [= -> -> -> ->].
  rewrite !cnt_app, app_length, fmap_app, zsum_app, !cnt_cons, !cnt_nil.
  cbn [length fmap list_fmap]. rewrite u32_add, u64_add.
  repeat f_equal.
  - lia.
  - unfold zsum. cbn. lia.
  - destruct (e_first e); [rewrite u32_add|]; f_equal; lia.
  - destruct (e_cold e); [rewrite u32_add|]; f_equal; lia.
Qed.

Lemma rr_run_ok tw es : forall w A s,
  0 < tw -> rr_next s = (w + 1) * tw -> rising w (ewin tw <$> es) ->
  shifted rr_rel w A (rr_rows s) (rr_cur s) ->
  exists s', rr_run tw s es = Ok s' /\
    shifted rr_rel (default w (last (ewin tw <$> es)))
            (A ++ zip (owners w (ewin tw <$> es)) es) (rr_rows s') (rr_cur s').
Proof.
  induction es as [|e es IH]; intros w A s Htw Hn Hr Hsh.
  { exists s. split; [done|]. cbn. by rewrite app_nil_r. }
  cbn [fmap list_fmap rising] in Hr. destruct Hr as [Hw Hr].
  pose proof (sh_w _ _ _ _ _ Hsh) as Hw0.
  cbn [rr_run]. unfold rr_add.
  rewrite decide_False by (rewrite Hn; nia). rewrite Hn.
  rewrite win_fuel_eq by done.
  set (s1 := mkRR ((w + 1) * tw) _ _ _ _ _).
  edestruct (rr_flush_ok tw (e_time e) (Z.to_nat (e_time e / tw - w)) w s1)
    as (s2 & -> & H1 & H2 & H3); [done|done|unfold ewin in Hw; lia|].
  cbn [rbind].
  destruct (IH (ewin tw e) (A ++ [(w, e)]) s2) as (s3 & -> & Hsh3); [done|done|done| |].
  { rewrite H2, H3. subst s1. cbn [rr_rows].
    apply (shifted_step rr_rel w (ewin tw e) A (rr_rows s) (rr_cur s)); try done.
    apply rr_rel_snoc. exact (sh_cur _ _ _ _ _ Hsh). }
  exists s3. split; [done|]. cbn [fmap list_fmap]. rewrite last_owner_cons.
  cbn [owners zip]. rewrite <- app_assoc in Hsh3. exact Hsh3.
Qed.

(** The first request sets the end of the first window. *)
Lemma req_rate_ok tw es :
  0 < tw -> rising 0 (ewin tw <$> es) -> (e_time <$> head es) = Some 0 ->
  exists s, req_rate tw es = Ok s /\
    shifted rr_rel (default 0 (last (ewin tw <$> es)))
            (zip (owners 0 (ewin tw <$> es)) es) (rr_rows s) (rr_cur s).
Proof.
  intros Htw Hr Hh.
  destruct es as [|e es]; [done|]. cbn in Hh. apply Some_inj in Hh.
  assert (req_rate tw (e :: es) = rr_run tw (mkRR ((0 + 1) * tw) 0 0 0 0 []) (e :: es)) as ->.
  { unfold req_rate. cbn [rr_run]. f_equal. unfold rr_add. cbn [rr_next].
    rewrite decide_True by done. rewrite decide_False by lia. rewrite Hh.
    replace ((0 + 1) * tw) with (0 + tw) by lia. done. }
  by apply (rr_run_ok tw (e :: es) 0 []).
Qed.

(** ** Vectors of counters *)
Lemma counts_row_nil n : counts_row (replicate n 0) [].
Proof.
  intros p. rewrite cnt_nil. destruct (replicate n 0 !! p) eqn:E; [|done].
  by apply lookup_replicate in E as [-> _].
Qed.
Lemma counts_row_empty : counts_row [] [].
Proof. apply (counts_row_nil 0). Qed.

Lemma vresize_length n v : (length v <= n)%nat -> length (vresize n v) = n.
Proof. intros H. unfold vresize. rewrite app_length, take_length, replicate_length. lia. Qed.
Lemma vresize_lookup n v p : (length v <= n)%nat -> default 0 (vresize n v !! p) = default 0 (v !! p).
Proof.
  intros H. unfold vresize. rewrite take_ge by lia.
  destruct (decide (p < length v)%nat) as [Hp|Hp].
  - by rewrite lookup_app_l by lia.
  - rewrite lookup_app_r by lia. rewrite (lookup_ge_None_2 v p) by lia.
    destruct (replicate _ 0 !! _) eqn:E; [|done]. by apply lookup_replicate in E as [-> _].
Qed.
Lemma counts_row_resize n v l : (length v <= n)%nat -> counts_row v l -> counts_row (vresize n v) l.
Proof. intros Hn H p. by rewrite vresize_lookup by done. Qed.
Lemma counts_row_incr v l b : (b < length v)%nat -> counts_row v l -> counts_row (vincr v b) (l ++ [b]).
Proof.
  intros Hb H p. unfold vincr. rewrite cnt_app, cnt_cons, cnt_nil.
  destruct (decide (p = b)) as [->|E].
  - rewrite list_lookup_alter, bool_decide_true by done.
    specialize (H b). destruct (v !! b) as [x|] eqn:Ex.
    + cbn in *. rewrite H, u32_add. f_equal.
    + apply lookup_ge_None in Ex. lia.
  - rewrite list_lookup_alter_ne by done. rewrite bool_decide_false by done.
    rewrite H. f_equal. lia.
Qed.
Lemma vincr_length v b : length (vincr v b) = length v.
Proof. apply alter_length. Qed.

(** ** Sizes per window *)
Section sizes.
  Context (lg : Z -> nat) (tw : Z) (Htw : 0 < tw).

  Definition sd_rel (r : list Z * list Z) (xs : list ereq) : Prop :=
    length r.1 = length r.2 /\
    counts_row r.1 ((fun e => lg (e_size e)) <$> xs) /\
    counts_row r.2 ((fun e => lg (e_size e)) <$> filter (fun e => e_first e = true) xs).
  Definition sd_cur (s : sdist) : list Z * list Z := (sd_wreq s, sd_wobj s).

  Lemma sd_flush_ok clock n : forall w s,
    sd_next s = (w + 1) * tw -> clock / tw = w + Z.of_nat n ->
    exists s', sd_flush n tw clock s = Ok s' /\
      sd_next s' = (clock / tw + 1) * tw /\ sd_req s' = sd_req s /\ sd_obj s' = sd_obj s /\
      sd_rows s' = (match n with O => sd_rows s
                   | S m => sd_rows s ++ sd_cur s :: replicate m (replicate 20 0, replicate 20 0) end) /\
      sd_cur s' = (match n with O => sd_cur s | S _ => (replicate 20 0, replicate 20 0) end).
  Proof using Htw.
    induction n as [|n IH]; intros w s Hs Hn; cbn [sd_flush].
    - rewrite decide_True by (rewrite Hs; apply div_window; lia).
      exists s. split; [done|]. split; [rewrite Hs; f_equal; lia|done].
    - rewrite decide_False by (rewrite Hs, div_window by lia; lia).
      edestruct (IH (w + 1) (mkSD (sd_req s) (sd_obj s) (sd_next s + tw)
                    (replicate 20 0) (replicate 20 0)
                    (sd_rows s ++ [(sd_wreq s, sd_wobj s)])))
        as (s' & -> & H1 & H1a & H1b & H2 & H3); [cbn [sd_next]; rewrite Hs; lia|lia|].
      exists s'. split; [done|]. split; [done|]. split; [done|]. split; [done|].
      rewrite H2, H3. cbn [sd_rows].
      unfold sd_cur. cbn [sd_wreq sd_wobj].
      destruct n as [|n]; rewrite <- ?app_assoc; done.
  Qed.

  Lemma sd_run_ok es : forall w A s,
    sd_next s = (w + 1) * tw -> rising w (ewin tw <$> es) ->
    shifted sd_rel w A (sd_rows s) (sd_cur s) ->
    exists s', sd_run lg tw s es = Ok s' /\
      sd_req s' = foldl bump (sd_req s) ((fun e => u32 (e_size e)) <$> es) /\
      sd_obj s' = foldl bump (sd_obj s)
                   ((fun e => u32 (e_size e)) <$> filter (fun e => e_cold e = true) es) /\
      shifted sd_rel (default w (last (ewin tw <$> es)))
              (A ++ zip (owners w (ewin tw <$> es)) es) (sd_rows s') (sd_cur s').
  Proof using Htw.
    induction es as [|e es IH]; intros w A s Hn Hr Hsh.
    { exists s. do 3 (split; [done|]). cbn. by rewrite app_nil_r. }
    cbn [fmap list_fmap rising] in Hr. destruct Hr as [Hw Hr].
    pose proof (sh_w _ _ _ _ _ Hsh) as Hw0.
    pose proof (sh_cur _ _ _ _ _ Hsh) as (Hlen & Hc1 & Hc2). cbn [sd_cur fst snd] in Hlen, Hc1, Hc2.
    cbn [sd_run]. unfold sd_add.
    rewrite decide_False by (rewrite Hn; nia). rewrite Hn.
    rewrite win_fuel_eq by done.
    set (grow := bool_decide (length (sd_wreq s) <= lg (e_size e))%nat).
    set (wreq := if grow then _ else sd_wreq s).
    set (wobj := if grow then _ else sd_wobj s).
    assert (Hg : (lg (e_size e) < length wreq)%nat /\ length wreq = length wobj /\
                 counts_row wreq ((fun e => lg (e_size e)) <$> proj w A) /\
                 counts_row wobj ((fun e => lg (e_size e)) <$> filter (fun e => e_first e = true) (proj w A))).
    { subst wreq wobj grow. case_bool_decide as Hg.
      - rewrite !vresize_length by lia. split; [lia|]. split; [done|].
        split; (apply counts_row_resize; [lia|done]).
      - split; [lia|]. done. }
    destruct Hg as (Hg1 & Hg2 & Hg3 & Hg4). clearbody wreq wobj. clear grow.
    destruct (lookup_lt_is_Some_2 wreq (lg (e_size e))) as [x Hx]; [done|].
    destruct (lookup_lt_is_Some_2 wobj (lg (e_size e))) as [y Hy]; [lia|].
    rewrite Hx, Hy.
    set (s1 := mkSD _ _ ((w + 1) * tw) _ _ _).
    edestruct (sd_flush_ok (e_time e) (Z.to_nat (e_time e / tw - w)) w s1)
      as (s2 & -> & H1 & H1a & H1b & H2 & H3); [done|unfold ewin in Hw; lia|].
    cbn [rbind].
    destruct (IH (ewin tw e) (A ++ [(w, e)]) s2) as (s3 & -> & Hq1 & Hq2 & Hsh3);
      [done|done| |].
    { rewrite H2, H3. subst s1. unfold sd_cur. cbn [sd_rows sd_wreq sd_wobj].
      apply (shifted_step sd_rel w (ewin tw e) A (sd_rows s) (sd_cur s)); [done|done| |].
      - unfold sd_rel. cbn [fst snd]. split; [|split].
        + destruct (e_first e); rewrite ?vincr_length; done.
        + rewrite fmap_app. cbn [fmap list_fmap]. by apply counts_row_incr.
        + rewrite filter_app, filter_cons, filter_nil.
          destruct (e_first e).
          * rewrite decide_True by done. rewrite fmap_app. cbn [fmap list_fmap].
            apply counts_row_incr; [lia|done].
          * rewrite decide_False by done. by rewrite app_nil_r.
      - split; [done|]. split; apply counts_row_nil. }
    exists s3. split; [done|].
    split. { rewrite Hq1, H1a. done. }
    split. { rewrite Hq2, H1b, filter_cons. subst s1. cbn [sd_obj]. destruct (e_cold e); done. }
    cbn [fmap list_fmap]. rewrite last_owner_cons.
    cbn [owners zip]. rewrite <- app_assoc in Hsh3. exact Hsh3.
  Qed.

  Lemma size_dist_ok es :
    rising 0 (ewin tw <$> es) -> (e_time <$> head es) = Some 0 ->
    exists s, size_dist lg tw es = Ok s /\
      sd_req s = foldl bump ∅ ((fun e => u32 (e_size e)) <$> es) /\
      sd_obj s = foldl bump ∅ ((fun e => u32 (e_size e)) <$> filter (fun e => e_cold e = true) es) /\
      shifted sd_rel (default 0 (last (ewin tw <$> es)))
              (zip (owners 0 (ewin tw <$> es)) es) (sd_rows s) (sd_cur s).
  Proof using Htw.
    intros Hr Hh.
    destruct es as [|e es]; [done|]. cbn in Hh. apply Some_inj in Hh.
    assert (size_dist lg tw (e :: es)
            = sd_run lg tw (mkSD ∅ ∅ ((0 + 1) * tw) [] [] []) (e :: es)) as ->.
    { unfold size_dist. cbn [sd_run]. f_equal. unfold sd_add. cbn [sd_next].
      rewrite decide_True by done. rewrite decide_False by lia. rewrite Hh.
      replace ((0 + 1) * tw) with (0 + tw) by lia. done. }
    by apply (sd_run_ok (e :: es) 0 []).
  Qed.
End sizes.

(** ** Reuse times per window *)
Section reuse.
  Context (lg : Z -> nat) (tw : Z) (Htw : 0 < tw).

  Definition rd_rel (r : list Z * list Z) (xs : list ereq) : Prop :=
    counts_row r.1 ((fun e => Z.to_nat (e_rt e / 5)) <$> xs) /\
    counts_row r.2 ((fun e => lg (e_vt e)) <$> xs).
  Definition rd_cur (s : rdist) : list Z * list Z := (rd_wrt s, rd_wvt s).
  (** the requests that are a reuse *)
  Definition reuses (es : list ereq) : list ereq := filter (fun e => e_cold e = false) es.
  Definition rt_key (e : ereq) : Z := if e_cold e then -1 else e_rt e / 5.
  Definition vt_key (e : ereq) : Z := if e_cold e then -1 else Z.of_nat (lg (e_vt e)).
  Definition rt_ok (e : ereq) : Prop :=
    if e_cold e then e_rt e = -1 else 0 <= e_rt e < 2 ^ 31.

  Lemma rd_flush_ok clock n : forall w s,
    rd_next s = (w + 1) * tw -> clock / tw = w + Z.of_nat n ->
    exists s', rd_flush n tw clock s = Ok s' /\
      rd_next s' = (clock / tw + 1) * tw /\ rd_rt s' = rd_rt s /\ rd_vt s' = rd_vt s /\
      rd_rows s' = (match n with O => rd_rows s
                   | S m => rd_rows s ++ rd_cur s :: replicate m ([], []) end) /\
      rd_cur s' = (match n with O => rd_cur s | S _ => ([], []) end).
  Proof using Htw.
    induction n as [|n IH]; intros w s Hs Hn; cbn [rd_flush].
    - rewrite decide_True by (rewrite Hs; apply div_window; lia).
      exists s. split; [done|]. split; [rewrite Hs; f_equal; lia|done].
    - rewrite decide_False by (rewrite Hs, div_window by lia; lia).
      edestruct (IH (w + 1) (mkRD (rd_rt s) (rd_vt s) (rd_next s + tw) [] []
                    (rd_rows s ++ [(rd_wrt s, rd_wvt s)])))
        as (s' & -> & H1 & H1a & H1b & H2 & H3); [cbn [rd_next]; rewrite Hs; lia|lia|].
      exists s'. split; [done|]. split; [done|]. split; [done|]. split; [done|].
      rewrite H2, H3. cbn [rd_rows].
      unfold rd_cur. cbn [rd_wrt rd_wvt].
      destruct n as [|n]; rewrite <- ?app_assoc; done.
  Qed.

  Lemma vector_incr_counts v l b : counts_row v l -> counts_row (vector_incr v b) (l ++ [b]).
  Proof.
    intros H. unfold vector_incr. destruct (decide (length v <= b)%nat) as [Hl|Hl].
    - apply counts_row_incr; [rewrite vresize_length; lia|]. by apply counts_row_resize; [lia|].
    - apply counts_row_incr; [lia|done].
  Qed.

  Lemma rd_run_ok es : forall w A s,
    rd_next s = (w + 1) * tw -> rising w (ewin tw <$> reuses es) -> Forall rt_ok es ->
    shifted rd_rel w A (rd_rows s) (rd_cur s) ->
    exists s', rd_run lg tw s es = Ok s' /\
      rd_rt s' = foldl bump (rd_rt s) (rt_key <$> es) /\
      rd_vt s' = foldl bump (rd_vt s) (vt_key <$> es) /\
      shifted rd_rel (default w (last (ewin tw <$> reuses es)))
              (A ++ zip (owners w (ewin tw <$> reuses es)) (reuses es)) (rd_rows s') (rd_cur s').
  Proof using Htw.
    induction es as [|e es IH]; intros w A s Hn Hr Hok Hsh.
    { exists s. do 3 (split; [done|]). cbn. by rewrite app_nil_r. }
    apply Forall_cons in Hok as [Hoke Hok].
    pose proof (sh_w _ _ _ _ _ Hsh) as Hw0.
    cbn [rd_run]. unfold rd_add.
    rewrite (decide_False (P := rd_next s = -1)) by (rewrite Hn; nia). rewrite Hn.
    assert (Hru : reuses (e :: es) = if e_cold e then reuses es else e :: reuses es).
    { unfold reuses. rewrite filter_cons. destruct (e_cold e); done. }
    rewrite Hru in Hr |- *.
    assert (Hk1 : rt_key e = if e_cold e then -1 else e_rt e / 5) by done.
    assert (Hk2 : vt_key e = if e_cold e then -1 else Z.of_nat (lg (e_vt e))) by done.
    cbn [fmap list_fmap foldl]. rewrite Hk1, Hk2.
    unfold rt_ok in Hoke. clear Hru Hk1 Hk2.
    destruct (e_cold e) eqn:Ec.
    - rewrite decide_True by lia. cbn [rbind].
      destruct (IH w A (mkRD (bump (rd_rt s) (-1)) (bump (rd_vt s) (-1)) ((w + 1) * tw)
                          (rd_wrt s) (rd_wvt s) (rd_rows s)))
        as (s3 & -> & Hq1 & Hq2 & Hsh3); [done|done|done|done|].
      exists s3. done.
    - rewrite decide_False by lia.
      assert (0 <= e_rt e / 5 < 2 ^ 31).
      { split; [apply Z.div_pos; lia|]. apply Z.div_lt_upper_bound; lia. }
      rewrite i32_small by lia. rewrite decide_False by lia.
      cbn [fmap list_fmap rising] in Hr. destruct Hr as [Hw Hr].
      rewrite win_fuel_eq by done.
      set (s1 := mkRD _ _ ((w + 1) * tw) _ _ _).
      edestruct (rd_flush_ok (e_time e) (Z.to_nat (e_time e / tw - w)) w s1)
        as (s2 & -> & H1 & H1a & H1b & H2 & H3); [done|unfold ewin in Hw; lia|].
      cbn [rbind].
      destruct (IH (ewin tw e) (A ++ [(w, e)]) s2) as (s3 & -> & Hq1 & Hq2 & Hsh3);
        [done|done|done| |].
      { rewrite H2, H3. subst s1. unfold rd_cur. cbn [rd_rows rd_wrt rd_wvt].
        pose proof (sh_cur _ _ _ _ _ Hsh) as (Hc1 & Hc2).
        apply (shifted_step rd_rel w (ewin tw e) A (rd_rows s) (rd_cur s)); [done|done| |].
        - unfold rd_rel. cbn [fst snd]. rewrite !fmap_app. cbn [fmap list_fmap].
          split; apply vector_incr_counts; done.
        - split; apply counts_row_empty. }
      exists s3. split; [done|].
      split. { rewrite Hq1, H1a. done. }
      split. { rewrite Hq2, H1b. done. }
      cbn [fmap list_fmap]. rewrite last_owner_cons.
      cbn [owners zip]. rewrite <- app_assoc in Hsh3. exact Hsh3.
  Qed.

  Lemma reuse_dist_ok es :
    rising 0 (ewin tw <$> reuses es) -> (e_time <$> head es) = Some 0 -> Forall rt_ok es ->
    exists s, reuse_dist lg tw es = Ok s /\
      rd_rt s = foldl bump ∅ (rt_key <$> es) /\
      rd_vt s = foldl bump ∅ (vt_key <$> es) /\
      shifted rd_rel (default 0 (last (ewin tw <$> reuses es)))
              (zip (owners 0 (ewin tw <$> reuses es)) (reuses es)) (rd_rows s) (rd_cur s).
  Proof using Htw.
    intros Hr Hh Hok.
    destruct es as [|e es]; [done|]. cbn in Hh. apply Some_inj in Hh.
    assert (reuse_dist lg tw (e :: es)
            = rd_run lg tw (mkRD ∅ ∅ ((0 + 1) * tw) [] [] []) (e :: es)) as ->.
    { unfold reuse_dist. cbn [rd_run]. f_equal. unfold rd_add. cbn [rd_next].
      rewrite (decide_True (P := -1 = -1)) by done.
      rewrite (decide_False (P := (0 + 1) * tw = -1)) by lia. rewrite Hh.
      replace ((0 + 1) * tw) with (0 + tw) by lia. done. }
    by apply (rd_run_ok (e :: es) 0 []).
  Qed.
End reuse.
