(** The statistics of the analyzer that are not windowed, and popularity
    decay. *)
From stdpp Require Import gmap list numbers fin_maps sorting.
From Verif Require Import Base ModelAnalyzer SpecAnalyzer AnalyzerFacts AnalyzerWin.
Open Scope Z_scope.

Lemma filter_nil_iff {A} (P : A -> Prop) `{forall x, Decision (P x)} (l : list A) :
  Forall (fun x => ~ P x) l -> filter P l = [].
Proof.
  induction l as [|x l IH]; [done|]. intros Hf. apply Forall_cons in Hf as [Hx Hf].
  rewrite filter_cons, decide_False by done. by apply IH.
Qed.

(** ** Histograms *)
Lemma bump_lookup m k j :
  bump m k !! j = if decide (k = j) then Some (u32 (default 0 (m !! j) + 1)) else m !! j.
Proof.
  unfold bump. destruct (decide (k = j)) as [->|E].
  - by rewrite lookup_insert.
  - by rewrite lookup_insert_ne.
Qed.

Lemma bump_fold keys : forall m j,
  foldl bump m keys !! j =
  if decide (j ∈ keys) then Some (u32 (default 0 (m !! j) + cnt (fun k => bool_decide (k = j)) keys))
  else m !! j.
Proof.
  induction keys as [|k keys IH]; intros m j; cbn [foldl].
  { rewrite decide_False; [done|]. apply not_elem_of_nil. }
  rewrite IH, bump_lookup, cnt_cons.
  destruct (decide (k = j)) as [->|E].
  - rewrite (decide_True (P := j ∈ j :: keys)) by left.
    rewrite bool_decide_true by done.
    destruct (decide (j ∈ keys)) as [Hj|Hj].
    + cbn [default from_option]. f_equal. unfold id. rewrite u32_add. f_equal; lia.
    + assert (cnt (fun k => bool_decide (k = j)) keys = 0) as ->.
      { unfold cnt. rewrite filter_nil_iff; [done|].
        apply Forall_forall. intros x Hx Hb. apply bool_decide_eq_true in Hb. by subst. }
      f_equal.
  - rewrite bool_decide_false by done.
    destruct (decide (j ∈ keys)) as [Hj|Hj].
    + rewrite (decide_True (P := j ∈ k :: keys)) by (by right). done.
    + rewrite (decide_False (P := j ∈ k :: keys)); [done|].
      rewrite not_elem_of_cons. auto.
Qed.

(** ** Counting objects *)
Lemma last_use_none past id : last_use past id = None <-> id ∉ (a_id <$> past).
Proof.
  unfold last_use. rewrite list_find_None, Forall_forall, elem_of_list_fmap. split.
  - intros H (q & -> & Hq). by destruct (H q Hq).
  - intros H q Hq <-. apply H. eauto.
Qed.

Lemma uses_perm tr tr' i : tr ≡ₚ tr' -> uses tr i = uses tr' i.
Proof. intros H. unfold uses, cnt. by rewrite H. Qed.

Lemma uses_rev tr i : uses (rev tr) i = uses tr i.
Proof. apply uses_perm. symmetry. apply Permutation_rev. Qed.

Lemma uses_pos tr i : i ∈ (a_id <$> tr) -> 0 < uses tr i <= Z.of_nat (length tr).
Proof.
  intros H. unfold uses, cnt. split.
  - destruct (filter _ tr) as [|x l] eqn:E; [|cbn; lia]. exfalso.
    apply elem_of_list_fmap in H as (q & -> & Hq).
    assert (q ∈ filter (fun x => bool_decide (a_id x = a_id q) = true) tr) as Hel.
    { apply elem_of_list_filter. by rewrite bool_decide_true. }
    rewrite E in Hel. by apply elem_of_nil in Hel.
  - apply inj_le. apply filter_length.
Qed.

Lemma core_dom tw t0 tr k : core_inv tw t0 (rev tr) k ->
  (map_to_list (k_map k)).*1 ≡ₚ objects tr.
Proof.
  intros Hk. apply NoDup_Permutation.
  - apply NoDup_fst_map_to_list.
  - apply NoDup_remove_dups.
  - intros i. unfold objects. rewrite elem_of_remove_dups.
    transitivity (is_Some (k_map k !! i)).
    + rewrite elem_of_list_fmap. split.
      * intros ([i' o] & -> & H). apply elem_of_map_to_list in H. by exists o.
      * intros [o H]. exists (i, o). split; [done|]. by apply elem_of_map_to_list.
    + rewrite (ci_map _ _ _ _ Hk). unfold info_of.
      destruct (last_use (rev tr) i) as [[j x]|] eqn:E.
      * split; [intros _|by eauto]. apply last_use_elem in E as [E <-].
        apply elem_of_list_fmap. exists x. split; [done|].
        apply elem_of_list_lookup_2 in E. by rewrite elem_of_list_In, in_rev, <- elem_of_list_In.
      * apply last_use_none in E. split; [by intros [? ?]|]. intros H. exfalso. apply E.
        apply elem_of_list_fmap in H as (q & -> & Hq). apply elem_of_list_fmap.
        exists q. split; [done|]. by rewrite elem_of_list_In, <- in_rev, <- elem_of_list_In.
Qed.

Lemma core_freqs tw t0 tr k infos : core_inv tw t0 (rev tr) k ->
  Z.of_nat (length tr) < 2 ^ 32 ->
  infos ≡ₚ (map_to_list (k_map k)).*2 ->
  (oi_freq <$> infos) ≡ₚ (uses tr <$> objects tr).
Proof.
  intros Hk Hlen ->. rewrite <- (core_dom _ _ _ _ Hk).
  rewrite <- !list_fmap_compose. apply Permutation_refl'. apply list_fmap_ext.
  intros n [i o] Hn. cbn. apply elem_of_list_lookup_2, elem_of_map_to_list in Hn.
  rewrite (ci_map _ _ _ _ Hk) in Hn. unfold info_of in Hn.
  destruct (last_use (rev tr) i) as [[j x]|] eqn:E; [|done].
  apply Some_inj in Hn as <-. cbn [oi_freq]. rewrite uses_rev. apply u32_small.
  assert (i ∈ (a_id <$> tr)) as Hi.
  { apply last_use_elem in E as [E <-]. apply elem_of_list_fmap. exists x. split; [done|].
    apply elem_of_list_lookup_2 in E. by rewrite elem_of_list_In, in_rev, <- elem_of_list_In. }
  pose proof (uses_pos tr i Hi). lia.
Qed.

(** ** X-hit counts *)
Lemma hit_cnt_ok track infos : forall cntv,
  0 <= track < 2 ^ 31 ->
  length cntv = Z.to_nat track ->
  Forall (fun o => 0 < oi_freq o < 2 ^ 32) infos ->
  exists l, hit_cnt track infos cntv = Ok l /\ length l = Z.to_nat track /\
    forall i x, cntv !! i = Some x ->
      exists y, l !! i = Some y /\
        u64 y = u64 (x + cnt (fun f => bool_decide (f = Z.of_nat i + 1)) (oi_freq <$> infos)).
Proof.
  induction infos as [|o infos IH]; intros cntv Ht Hl Hf; cbn [hit_cnt].
  { exists cntv. split; [done|]. split; [done|]. intros i x Hx. exists x. split; [done|].
    f_equal. cbn. rewrite cnt_nil. lia. }
  apply Forall_cons in Hf as [Ho Hf]. cbn [fmap list_fmap].
  destruct (decide (oi_freq o <= track)) as [Hle|Hgt].
  - rewrite (u32_small (oi_freq o - 1)) by lia.
    set (j := Z.to_nat (oi_freq o - 1)).
    destruct (lookup_lt_is_Some_2 cntv j) as [c Hc]; [lia|]. rewrite Hc.
    destruct (IH (<[j := u64 (c + 1)]> cntv)) as (l & -> & Hll & Hi); try done.
    { by rewrite insert_length. }
    exists l. split; [done|]. split; [done|]. intros i x Hx. rewrite cnt_cons.
    destruct (decide (i = j)) as [->|E].
    + destruct (Hi j (u64 (c + 1))) as (y & Hy & Hyu).
      { apply list_lookup_insert. lia. }
      exists y. split; [done|]. rewrite Hyu, u64_add.
      rewrite Hc in Hx. apply Some_inj in Hx as ->.
      rewrite bool_decide_true by lia. f_equal; lia.
    + destruct (Hi i x) as (y & Hy & Hyu). { by rewrite list_lookup_insert_ne. }
      exists y. split; [done|]. rewrite Hyu. rewrite bool_decide_false by lia. f_equal; lia.
  - destruct (IH cntv) as (l & -> & Hll & Hi); try done.
    exists l. split; [done|]. split; [done|]. intros i x Hx. rewrite cnt_cons.
    destruct (Hi i x Hx) as (y & Hy & Hyu). exists y. split; [done|]. rewrite Hyu.
    assert (i < length cntv)%nat by (by eapply lookup_lt_Some).
    rewrite bool_decide_false by lia. f_equal; lia.
Qed.

Lemma hit_cnt_u64 track infos : forall cntv l,
  Forall (fun x => 0 <= x < 2 ^ 64) cntv -> hit_cnt track infos cntv = Ok l ->
  Forall (fun x => 0 <= x < 2 ^ 64) l.
Proof.
  induction infos as [|o infos IH]; intros cntv l Hc; cbn [hit_cnt].
  { by intros [= <-]. }
  destruct (decide (oi_freq o <= track)); [|by apply IH].
  destruct (cntv !! _) eqn:E; [|done]. apply IH. apply Forall_insert; [done|].
  apply Z.mod_pos_bound. lia.
Qed.

(** ** Sorted frequencies *)
#[global] Instance ge_dec : RelDecision Z.ge.
Proof. intros x y. apply Z_ge_dec. Defined.
#[global] Instance ge_trans : Transitive Z.ge.
Proof. intros x y z. lia. Qed.
#[global] Instance ge_total : Total Z.ge.
Proof. intros x y. lia. Qed.

Lemma freq_vec_sorted infos : StronglySorted Z.ge (freq_vec infos).
Proof. apply StronglySorted_merge_sort; apply _. Qed.
Lemma freq_vec_perm infos : freq_vec infos ≡ₚ (oi_freq <$> infos).
Proof. apply merge_sort_Permutation. Qed.

Lemma popular_loop_ok n : forall i v,
  (i + n <= length v)%nat -> popular_loop n i v = Ok (take n (drop i v)).
Proof.
  induction n as [|n IH]; intros i v H; cbn [popular_loop]; [done|].
  destruct (lookup_lt_is_Some_2 v i) as [x Hx]; [lia|]. rewrite Hx.
  rewrite IH by lia. cbn [rbind]. rewrite (drop_S v x i Hx). done.
Qed.
Lemma popular_loop_err n : forall i v,
  (i <= length v)%nat -> (length v < i + n)%nat -> popular_loop n i v = Err OutOfBounds.
Proof.
  induction n as [|n IH]; intros i v H1 H2; [lia|]. cbn [popular_loop].
  destruct (v !! i) as [x|] eqn:Hx; [|done].
  apply lookup_lt_Some in Hx. rewrite IH by lia. done.
Qed.

Lemma pop_dump_loop_ok v : forall f c,
  StronglySorted Z.ge (f :: v) -> 0 <= c -> c + Z.of_nat (length v) < 2 ^ 32 ->
  let out := pop_dump_loop f c v in
  StronglySorted Z.gt out.*1 /\
  (forall x n, (x, n) ∈ out ->
     n = cnt (fun y => bool_decide (y = x)) v + (if decide (x = f) then c else 0)) /\
  (forall x, x ∈ f :: v <-> x ∈ out.*1).
Proof.
  induction v as [|g v IH]; intros f c Hs Hc Hb; cbn [pop_dump_loop].
  { split; [|split].
    - cbn. repeat constructor.
    - intros x n Hx. apply elem_of_list_singleton in Hx. injection Hx as -> ->.
      rewrite cnt_nil, decide_True by done. lia.
    - cbn. done. }
  apply StronglySorted_inv in Hs as [Hs Hf]. apply Forall_cons in Hf as [Hfg Hf].
  cbn [length] in Hb.
  destruct (decide (g = f)) as [->|E].
  - rewrite u32_small by lia.
    destruct (IH f (c + 1)) as (H1 & H2 & H3); [done|lia|lia|].
    split; [done|]. split.
    + intros x n Hx. rewrite (H2 x n Hx), cnt_cons.
      destruct (decide (x = f)) as [->|E].
      * rewrite bool_decide_true by done. lia.
      * rewrite bool_decide_false by (by intros ->). lia.
    + intros x. rewrite <- H3, !elem_of_cons. tauto.
  - destruct (IH g 1) as (H1 & H2 & H3); [done|lia|lia|].
    assert (Hlt : forall x, x ∈ (pop_dump_loop g 1 v).*1 -> f > x).
    { intros x Hx. apply H3, elem_of_cons in Hx as [->|Hx]; [lia|].
      apply StronglySorted_inv in Hs as [_ Hg]. rewrite Forall_forall in Hg.
      specialize (Hg x Hx). lia. }
    split; [|split].
    + cbn. constructor; [done|]. apply Forall_forall. done.
    + intros x n Hx. apply elem_of_cons in Hx as [Hx|Hx].
      * injection Hx as -> ->. rewrite cnt_cons, bool_decide_false by done.
        rewrite decide_True by done.
        assert (cnt (fun y => bool_decide (y = f)) v = 0) as ->; [|lia].
        unfold cnt. rewrite filter_nil_iff; [done|].
        apply Forall_forall. intros y Hy Hb'. apply bool_decide_eq_true in Hb' as ->.
        assert (f > f); [|lia]. apply Hlt, H3. by right.
      * rewrite (H2 x n Hx), cnt_cons.
        assert (f > x). { apply Hlt. apply elem_of_list_fmap. by exists (x, n). }
        rewrite (decide_False (P := x = f)) by lia.
        destruct (decide (x = g)) as [->|E'].
        -- rewrite bool_decide_true by done. lia.
        -- rewrite bool_decide_false by (by intros ->). lia.
    + intros x. cbn [fmap list_fmap fst]. specialize (H3 x).
      rewrite !(elem_of_cons _ x f). tauto.
Qed.

(** ** Operations *)
Lemma op_run_ok es : forall c o,
  length c = 16%nat -> Forall (fun e => 0 <= e_op e <= 15) es ->
  exists c' o', op_run (c, o) es = Ok (c', o') /\ length c' = 16%nat /\
    u64 o' = u64 (o + cnt e_over es) /\
    forall i x, c !! i = Some x -> exists y, c' !! i = Some y /\
      u64 y = u64 (x + cnt (fun e => bool_decide (e_op e = Z.of_nat i)) es).
Proof.
  induction es as [|e es IH]; intros c o Hl Hf; cbn [op_run].
  { exists c, o. split; [done|]. split; [done|]. split; [f_equal; rewrite cnt_nil; lia|].
    intros i x Hx. exists x. split; [done|]. f_equal. rewrite cnt_nil. lia. }
  apply Forall_cons in Hf as [He Hf]. unfold op_add.
  rewrite decide_False by lia.
  destruct (lookup_lt_is_Some_2 c (Z.to_nat (e_op e))) as [x Hx]; [lia|]. rewrite Hx.
  cbn [rbind].
  edestruct (IH (<[Z.to_nat (e_op e) := u64 (x + 1)]> c)
                (if e_over e then u64 (o + 1) else o)) as (c' & o' & -> & Hl' & Ho & Hi).
  { by rewrite insert_length. } { done. }
  exists c', o'. split; [done|]. split; [done|]. split.
  { rewrite Ho, cnt_cons. destruct (e_over e); [rewrite u64_add|]; f_equal; lia. }
  intros i y Hy. rewrite cnt_cons.
  destruct (decide (i = Z.to_nat (e_op e))) as [->|E].
  - destruct (Hi (Z.to_nat (e_op e)) (u64 (x + 1))) as (z & Hz & Hzu).
    { apply list_lookup_insert. lia. }
    exists z. split; [done|]. rewrite Hzu, u64_add. rewrite Hx in Hy. apply Some_inj in Hy as ->.
    rewrite bool_decide_true by lia. f_equal; lia.
  - destruct (Hi i y) as (z & Hz & Hzu). { by rewrite list_lookup_insert_ne. }
    exists z. split; [done|]. rewrite Hzu. rewrite bool_decide_false by lia. f_equal; lia.
Qed.

Lemma op_run_u64 es : forall c o c' o',
  Forall (fun x => 0 <= x < 2 ^ 64) c -> 0 <= o < 2 ^ 64 ->
  op_run (c, o) es = Ok (c', o') ->
  Forall (fun x => 0 <= x < 2 ^ 64) c' /\ 0 <= o' < 2 ^ 64.
Proof.
  induction es as [|e es IH]; intros c o c' o' Hc Ho; cbn [op_run].
  { by intros [= <- <-]. }
  unfold op_add. destruct (decide (e_op e < 0)); [done|].
  destruct (c !! _) eqn:E; [|done]. cbn [rbind]. apply IH.
  - apply Forall_insert; [done|]. apply Z.mod_pos_bound. lia.
  - destruct (e_over e); [apply Z.mod_pos_bound; lia|done].
Qed.

(** ** Time to live *)
Lemma ttl_fold es : forall m b,
  (foldl ttl_add (m, b) es).1
  = foldl bump m (e_ttl <$> filter (fun e => e_ttl e > 0) es).
Proof.
  induction es as [|e es IH]; intros m b; [done|]. cbn [foldl]. rewrite filter_cons.
  unfold ttl_add at 2.
  destruct (decide (e_ttl e > 0)) as [Hp|Hp]; [|by rewrite IH].
  cbn [fmap list_fmap foldl].
  destruct (m !! e_ttl e) as [c|] eqn:E.
  - rewrite IH. f_equal. unfold bump. by rewrite E.
  - rewrite IH. f_equal. unfold bump. by rewrite E.
Qed.

Lemma ttl_size_le es : forall m b,
  b = false -> Z.of_nat (size m) + Z.of_nat (length es) <= 1000000 ->
  (foldl ttl_add (m, b) es).2 = false.
Proof.
  induction es as [|e es IH]; intros m b -> Hs; [done|]. cbn [foldl length] in *.
  unfold ttl_add at 2. destruct (decide (e_ttl e > 0)) as [Hp|Hp]; [|apply IH; [done|lia]].
  destruct (m !! e_ttl e) as [c|] eqn:E.
  - apply IH; [done|]. rewrite map_size_insert_Some by (by eexists). lia.
  - assert (size (<[e_ttl e := 1]> m) = S (size m)) as Hsz.
    { by rewrite map_size_insert_None. }
    rewrite Hsz. apply IH; [|rewrite Hsz; lia].
    cbn [orb]. apply bool_decide_false. lia.
Qed.

(** ** Access pattern *)
Definition ap_pos (id : Z) (n : Z) (es : list ereq) : list Z :=
  (filter (fun p => e_id p.2 = id) (zip (seqZ n (Z.of_nat (length es))) es)).*1.

Lemma ap_pos_cons i n e es :
  ap_pos i n (e :: es) = (if decide (e_id e = i) then [n] else []) ++ ap_pos i (n + 1) es.
Proof.
  unfold ap_pos. cbn [length]. rewrite Nat2Z.inj_succ. rewrite seqZ_cons by lia.
  replace (Z.succ n) with (n + 1) by lia.
  replace (Z.pred (Z.succ (Z.of_nat (length es)))) with (Z.of_nat (length es)) by lia.
  cbn [zip zip_with]. rewrite filter_cons. cbn [snd].
  destruct (decide (e_id e = i)); done.
Qed.

Lemma ap_fold ratio es : forall s,
  0 <= ap_seen s -> ap_seen s + Z.of_nat (length es) <= 4294967281 -> ap_start s = 0 ->
  Forall (fun e => 0 <= e_time e < 2 ^ 32) es ->
  let s' := foldl (ap_add ratio) s es in
  (forall id, ap_vt s' !! id =
     if decide (id mod ratio = 0 /\ id ∈ (e_id <$> es))
     then Some (default [] (ap_vt s !! id) ++ ap_pos id (ap_seen s + 1) es) else ap_vt s !! id) /\
  (forall id, ap_rt s' !! id =
     if decide (id mod ratio = 0 /\ id ∈ (e_id <$> es))
     then Some (default [] (ap_rt s !! id) ++ (e_time <$> filter (fun e => e_id e = id) es))
     else ap_rt s !! id).
Proof.
  induction es as [|e es IH]; intros s Hs0 Hs Hst Ht; cbn [foldl].
  { split; intros i; (rewrite decide_False; [done|intros [_ H]; by apply elem_of_nil in H]). }
  apply Forall_cons in Ht as [He Ht]. cbn [length] in Hs.
  assert (Ha : ap_add ratio s e =
     if decide (e_id e mod ratio <> 0) then mkAP (ap_seen s + 1) 0 (ap_rt s) (ap_vt s)
     else mkAP (ap_seen s + 1) 0
        (<[e_id e := default [] (ap_rt s !! e_id e) ++ [e_time e]]> (ap_rt s))
        (<[e_id e := default [] (ap_vt s !! e_id e) ++ [ap_seen s + 1]]> (ap_vt s))).
  { unfold ap_add. rewrite decide_False by lia. rewrite Hst.
    rewrite (decide_False (P := 0 = -1)) by lia. rewrite Z.sub_0_r.
    rewrite (u32_small (e_time e)) by lia. rewrite u32_small by lia. done. }
  rewrite Ha. clear Ha.
  destruct (decide (e_id e mod ratio <> 0)) as [Hr|Hr].
  - edestruct (IH (mkAP (ap_seen s + 1) 0 (ap_rt s) (ap_vt s))) as [H1 H2];
      [cbn [ap_seen]; lia|cbn [ap_seen]; lia|done|done|].
    split; intros i.
    + rewrite H1. cbn [ap_vt ap_seen]. rewrite ap_pos_cons.
      destruct (decide (i mod ratio = 0 /\ i ∈ (e_id <$> es))) as [[Hi Hin]|Hn].
      * rewrite decide_True by (split; [done|by right]).
        rewrite decide_False by (intros Ei; by rewrite Ei in Hr). done.
      * rewrite decide_False; [done|]. intros [Hi Hin].
        apply elem_of_cons in Hin as [->|Hin]; [done|]. apply Hn. done.
    + rewrite H2. cbn [ap_rt]. rewrite filter_cons.
      destruct (decide (i mod ratio = 0 /\ i ∈ (e_id <$> es))) as [[Hi Hin]|Hn].
      * rewrite (decide_True (P := i mod ratio = 0 /\ _)) by (split; [done|by right]).
        rewrite decide_False by (intros Ei; by rewrite Ei in Hr). done.
      * rewrite (decide_False (P := i mod ratio = 0 /\ _)); [done|]. intros [Hi Hin].
        apply elem_of_cons in Hin as [->|Hin]; [done|]. apply Hn. done.
  - assert (Hr0 : e_id e mod ratio = 0) by lia.
    edestruct (IH (mkAP (ap_seen s + 1) 0
        (<[e_id e := default [] (ap_rt s !! e_id e) ++ [e_time e]]> (ap_rt s))
        (<[e_id e := default [] (ap_vt s !! e_id e) ++ [ap_seen s + 1]]> (ap_vt s)))) as [H1 H2];
      [cbn [ap_seen]; lia|cbn [ap_seen]; lia|done|done|].
    split; intros i.
    + rewrite H1. cbn [ap_vt ap_seen]. rewrite ap_pos_cons.
      destruct (decide (e_id e = i)) as [<-|E].
      * rewrite (decide_True (P := _ /\ e_id e ∈ e_id <$> e :: es)) by (split; [done|left]).
        rewrite lookup_insert. cbn [default from_option]. unfold id.
        destruct (decide (e_id e mod ratio = 0 /\ e_id e ∈ (e_id <$> es))) as [[_ Hin]|Hn].
        -- rewrite <- app_assoc. done.
        -- assert (ap_pos (e_id e) (ap_seen s + 1 + 1) es = []) as ->; [|done].
           assert (Hni : e_id e ∉ (e_id <$> es)) by tauto.
           unfold ap_pos. rewrite filter_nil_iff; [done|].
           apply Forall_forall. intros [n x] Hx Hb. apply elem_of_zip_r in Hx.
           apply Hni. rewrite <- Hb. cbn. by apply elem_of_list_fmap_1.
      * rewrite lookup_insert_ne by done.
        destruct (decide (i mod ratio = 0 /\ i ∈ (e_id <$> es))) as [[Hi Hin]|Hn].
        -- rewrite decide_True by (split; [done|by right]). done.
        -- rewrite decide_False; [done|]. intros [Hi Hin].
           apply elem_of_cons in Hin as [->|Hin]; [done|]. apply Hn. done.
    + rewrite H2. cbn [ap_rt]. rewrite filter_cons.
      destruct (decide (e_id e = i)) as [<-|E].
      * rewrite (decide_True (P := _ /\ e_id e ∈ e_id <$> e :: es)) by (split; [done|left]).
        rewrite lookup_insert. cbn [default from_option]. unfold id.
        destruct (decide (e_id e mod ratio = 0 /\ e_id e ∈ (e_id <$> es))) as [[_ Hin]|Hn].
        -- rewrite <- app_assoc. done.
        -- assert (filter (fun x => e_id x = e_id e) es = []) as ->; [|done].
           assert (Hni : e_id e ∉ (e_id <$> es)) by tauto.
           apply filter_nil_iff.
           apply Forall_forall. intros x Hx Hb.
           apply Hni. rewrite <- Hb. by apply elem_of_list_fmap_1.
      * rewrite lookup_insert_ne by done.
        destruct (decide (i mod ratio = 0 /\ i ∈ (e_id <$> es))) as [[Hi Hin]|Hn].
        -- rewrite (decide_True (P := i mod ratio = 0 /\ _)) by (split; [done|by right]). done.
        -- rewrite (decide_False (P := i mod ratio = 0 /\ _)); [done|]. intros [Hi Hin].
           apply elem_of_cons in Hin as [->|Hin]; [done|]. apply Hn. done.
Qed.
