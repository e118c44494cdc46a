(** LFU simulates the abstract LFU cache. *)
From stdpp Require Import gmap list numbers fin_maps sorting.
From Verif Require Import Base Driver Abs AbsFacts Sim ModelQueue QueueFacts SimQueue ClockFacts SimClock ModelLFU.
Open Scope Z_scope.

Definition last_lt (m : gmap Z entry) (x y : Z) : Prop :=
  forall ex ey, m !! x = Some ex -> m !! y = Some ey -> e_last ex < e_last ey.

Definition node_ok (m : gmap Z entry) (f : Z) (nd : fnode) : Prop :=
  fn_n nd = Z.of_nat (length (fn_q nd)) /\ NoDup (fn_q nd) /\
  (forall id, id ∈ fn_q nd <-> exists e, m !! id = Some e /\ e_cnt e = f) /\
  StronglySorted (last_lt m) (fn_q nd).

Definition buckets_ok (m : gmap Z entry) (fm : gmap Z fnode) : Prop :=
  (forall f nd, fm !! f = Some nd -> node_ok m f nd) /\
  (forall id e, m !! id = Some e -> is_Some (fm !! e_cnt e)).

Definition lrel (cap md : Z) (s : lfu_state) (a : abs) : Prop :=
  brel cap md (l_c s) a /\ buckets_ok (a_m a) (l_fm s) /\ is_Some (l_fm s !! 1) /\
  (forall id o e, c_tbl (l_c s) !! id = Some o -> a_m a !! id = Some e -> o_p1 o = e_cnt e) /\
  (1 <= l_max s /\ forall id e, a_m a !! id = Some e -> 1 <= e_cnt e <= l_max s) /\
  (l_min s = 0 \/
   1 <= l_min s /\ (forall id e, a_m a !! id = Some e -> l_min s <= e_cnt e) /\
   (a_m a <> ∅ -> exists id e, a_m a !! id = Some e /\ e_cnt e = l_min s)).

Lemma node_ok_frame m m' f nd :
  node_ok m f nd ->
  (forall id e, e_cnt e = f -> (m !! id = Some e <-> m' !! id = Some e)) ->
  node_ok m' f nd.
Proof.
  intros (H1 & H2 & H3 & H4) H. split_and!; auto.
  - intros id. rewrite H3. split; intros (e & He & Hf); exists e; (split; [|done]); by apply H.
  - eapply StronglySorted_impl; [|done]. intros x y Hx Hy Hxy ex ey Hex Hey.
    apply H3 in Hx as (ex0 & Hx & Hfx), Hy as (ey0 & Hy & Hfy).
    pose proof (proj1 (H x ex0 Hfx) Hx). pose proof (proj1 (H y ey0 Hfy) Hy).
    assert (ex = ex0) by congruence. assert (ey = ey0) by congruence. subst. auto.
Qed.

Lemma lfu_search_found fm n : forall f k,
  f <= k < f + Z.of_nat n ->
  (exists nd, fm !! k = Some nd /\ fn_n nd > 0) ->
  (forall j nd, f <= j < k -> fm !! j = Some nd -> fn_n nd <= 0) ->
  lfu_search n fm f = Some k.
Proof.
  induction n as [|n IH]; intros f k Hk (nd & Hnd & Hpos) Hlow; [lia|].
  cbn. destruct (decide (f = k)) as [->|Hne].
  - rewrite Hnd. by rewrite decide_True.
  - assert (Hrec : lfu_search n fm (f + 1) = Some k).
    { apply IH; [lia|eauto|]. intros j nd' Hj. apply Hlow. lia. }
    destruct (fm !! f) as [nd'|] eqn:E; [|done].
    rewrite decide_False; [done|]. specialize (Hlow f nd' ltac:(lia) E). lia.
Qed.

Lemma lfu_search_none fm n : forall f,
  (forall j nd, f <= j < f + Z.of_nat n -> fm !! j = Some nd -> fn_n nd <= 0) ->
  lfu_search n fm f = None.
Proof.
  induction n as [|n IH]; intros f H; [done|]. cbn.
  assert (Hrec : lfu_search n fm (f + 1) = None).
  { apply IH. intros j nd Hj. apply H. lia. }
  destruct (fm !! f) as [nd|] eqn:E; [|done].
  rewrite decide_False; [done|]. specialize (H f nd ltac:(lia) E). lia.
Qed.

(** Minimal count of a non-empty map. *)
Lemma min_count (m : gmap Z entry) : m <> ∅ ->
  exists id e, m !! id = Some e /\ forall id' e', m !! id' = Some e' -> e_cnt e <= e_cnt e'.
Proof.
  induction m as [|i x m Hn IH] using map_ind; [done|]. intros _.
  destruct (decide (m = ∅)) as [->|Hne].
  - exists i, x. rewrite lookup_insert. split; [done|]. intros id' e' H.
    apply lookup_insert_Some in H as [[_ <-]|[_ H]]; [lia|]. by rewrite lookup_empty in H.
  - destruct (IH Hne) as (id & e & He & Hmin).
    destruct (decide (e_cnt x <= e_cnt e)) as [Hle|Hgt].
    + exists i, x. rewrite lookup_insert. split; [done|]. intros id' e' H.
      apply lookup_insert_Some in H as [[_ <-]|[_ H]]; [lia|]. specialize (Hmin _ _ H). lia.
    + exists id, e. rewrite lookup_insert_ne by congruence. split; [done|]. intros id' e' H.
      apply lookup_insert_Some in H as [[_ <-]|[_ H]]; [lia|]. eauto.
Qed.

Lemma node_pos m f nd : node_ok m f nd ->
  fn_n nd > 0 <-> exists id e, m !! id = Some e /\ e_cnt e = f.
Proof.
  intros (H1 & H2 & H3 & H4). rewrite H1. split.
  - intros H. destruct (fn_q nd) as [|x q] eqn:E; [cbn in H; lia|].
    assert (x ∈ x :: q) as Hx by left. apply H3 in Hx as (e & He & Hf). eauto.
  - intros (id & e & He & Hf). assert (id ∈ fn_q nd) as Hin by (apply H3; eauto).
    destruct (fn_q nd); [by inversion Hin|]. cbn. lia.
Qed.

(** update_min_freq finds the minimal count when everything cached has a count
    above the old minimum. *)
Lemma lfu_update_min_spec m fm mn mx :
  buckets_ok m fm -> 0 <= mn ->
  (forall id e, m !! id = Some e -> mn < e_cnt e <= mx) ->
  (forall id e, m !! id = Some e -> lfu_update_min fm mn mx <= e_cnt e) /\
  (m = ∅ -> lfu_update_min fm mn mx = mn) /\
  (m <> ∅ -> exists id e, m !! id = Some e /\ e_cnt e = lfu_update_min fm mn mx).
Proof.
  intros [Hb1 Hb2] Hmn Hall. unfold lfu_update_min.
  destruct (decide (m = ∅)) as [->|Hne].
  - split_and!; [by intros ? ? ?%lookup_empty_Some| |done]. intros _.
    rewrite lfu_search_none; [done|]. intros j nd _ Hnd.
    destruct (decide (fn_n nd > 0)) as [Hp|]; [|lia].
    apply (node_pos _ _ _ (Hb1 _ _ Hnd)) in Hp as (id & e & He & _). by rewrite lookup_empty in He.
  - destruct (min_count m Hne) as (id & e & He & Hmin).
    pose proof (Hall _ _ He) as Hr.
    rewrite (lfu_search_found _ _ _ (e_cnt e)).
    + split_and!; [done|done|eauto].
    + lia.
    + destruct (Hb2 _ _ He) as [nd Hnd]. exists nd. split; [done|].
      apply (node_pos _ _ _ (Hb1 _ _ Hnd)). eauto.
    + intros j nd Hj Hnd. destruct (decide (fn_n nd > 0)) as [Hp|]; [|lia].
      apply (node_pos _ _ _ (Hb1 _ _ Hnd)) in Hp as (id' & e' & He' & Hf).
      specialize (Hmin _ _ He'). lia.
Qed.

Lemma StronglySorted_snoc {A} (R : A -> A -> Prop) l x :
  StronglySorted R l -> (forall y, y ∈ l -> R y x) -> StronglySorted R (l ++ [x]).
Proof.
  induction 1 as [|y l HS IH HF]; intros H; cbn.
  - repeat constructor.
  - constructor.
    + apply IH. intros z Hz. apply H. by right.
    + apply Forall_app. split; [done|]. repeat constructor. apply H. left.
Qed.

(** Taking one object out of its node. *)
Lemma node_ok_del m f nd id e :
  node_ok m f nd -> m !! id = Some e -> e_cnt e = f ->
  forall m', (forall i e', e_cnt e' = f -> (m' !! i = Some e' <-> i <> id /\ m !! i = Some e')) ->
  node_ok m' f (mkNode (fn_n nd - 1) (q_del id (fn_q nd))).
Proof.
  intros (H1 & H2 & H3 & H4) He Hf m' Hm'.
  assert (Hin : id ∈ fn_q nd) by (apply H3; eauto).
  split_and!; cbn.
  - apply elem_of_list_split in Hin as (q1 & q2 & Hq). rewrite Hq in *.
    rewrite q_del_mid by done. rewrite H1, !app_length. cbn. lia.
  - by apply NoDup_q_del.
  - intros i. rewrite elem_q_del, H3. split.
    + intros [(e' & He' & Hf') Hne]. exists e'. split; [|done]. by apply Hm'.
    + intros (e' & He' & Hf'). apply Hm' in He' as [? ?]; [|done]. eauto.
  - eapply StronglySorted_impl; [|by apply StronglySorted_filter].
    intros x y Hx Hy Hxy ex ey Hex Hey.
    apply elem_q_del in Hx as [Hx Hxn], Hy as [Hy Hyn].
    apply H3 in Hx as (ex0 & Hx & Hfx), Hy as (ey0 & Hy & Hfy).
    assert (m' !! x = Some ex0) by (apply Hm'; auto).
    assert (m' !! y = Some ey0) by (apply Hm'; auto).
    assert (ex = ex0) by congruence. assert (ey = ey0) by congruence. subst. auto.
Qed.

(** Adding one object, more recent than all others, to its node. *)
Lemma node_ok_add m f nd id e :
  node_ok m f nd -> m !! id = None -> e_cnt e = f ->
  (forall i e', m !! i = Some e' -> e_last e' < e_last e) ->
  node_ok (<[id := e]> m) f (mkNode (fn_n nd + 1) (fn_q nd ++ [id])).
Proof.
  intros (H1 & H2 & H3 & H4) Hn Hf Hl.
  assert (Hnin : id ∉ fn_q nd).
  { intros Hin. apply H3 in Hin as (e' & He' & _). congruence. }
  split_and!; cbn.
  - rewrite app_length. cbn. lia.
  - apply NoDup_app. split_and!; [done| |].
    + intros x Hx Hx'. apply elem_of_list_singleton in Hx' as ->. done.
    + apply NoDup_singleton.
  - intros i. rewrite elem_of_app, elem_of_list_singleton, H3.
    destruct (decide (i = id)) as [->|Hne].
    + rewrite lookup_insert. split; [eauto|]. by right.
    + rewrite lookup_insert_ne by done. naive_solver.
  - apply StronglySorted_snoc.
    + eapply StronglySorted_impl; [|done]. intros x y Hx Hy Hxy ex ey Hex Hey.
      rewrite lookup_insert_ne in Hex by congruence.
      rewrite lookup_insert_ne in Hey by congruence. auto.
    + intros y Hy ex ey Hex Hey. rewrite lookup_insert in Hey. injection Hey as <-.
      rewrite lookup_insert_ne in Hex by congruence. eauto.
Qed.

Lemma node_ok_empty m f : (forall id e, m !! id = Some e -> e_cnt e <> f) -> node_ok m f (mkNode 0 []).
Proof.
  intros H. split_and!; cbn; [done|constructor| |constructor].
  intros id. split; [by inversion 1|]. intros (e & He & Hf). by apply H in He.
Qed.

(** Taking an object out of the bucket structure. *)
Lemma lrel_take m fm id e nd :
  buckets_ok m fm -> m !! id = Some e -> fm !! e_cnt e = Some nd ->
  buckets_ok (delete id m) (<[e_cnt e := mkNode (fn_n nd - 1) (q_del id (fn_q nd))]> fm).
Proof.
  intros [Hb1 Hb2] He Hnd. split.
  - intros g nd' Hg. apply lookup_insert_Some in Hg as [[<- <-]|[Hne Hg]].
    + eapply node_ok_del; eauto. intros i x Hx. rewrite lookup_delete_Some. naive_solver.
    + eapply node_ok_frame; [by apply Hb1|]. intros i x Hx.
      rewrite lookup_delete_Some. split; [|naive_solver]. intros Hi. split; [|done].
      intros ->. congruence.
  - intros i x [_ Hx]%lookup_delete_Some.
    destruct (decide (e_cnt x = e_cnt e)) as [->|Hne]; [rewrite lookup_insert; eauto|].
    rewrite lookup_insert_ne by done. eauto.
Qed.

Section LFU.
  Context (cap md : Z).

  Lemma lrel_min_node s a : lrel cap md s a -> a_m a <> ∅ ->
    exists mn nd v q e,
      lfu_min_node s = Ok (mn, nd) /\ l_fm s !! mn = Some nd /\ fn_q nd = v :: q /\
      a_m a !! v = Some e /\ e_cnt e = mn /\ 1 <= mn /\
      (forall id e', a_m a !! id = Some e' -> mn <= e_cnt e') /\
      pol_lfu (a_m a) v.
  Proof.
    intros (H1 & [Hb1 Hb2] & H3 & H4 & [Hmx1 H5] & H6) Hne.
    set (mn := if decide (l_min s = 1) then 1
            else if decide (l_min s = 0) then lfu_update_min (l_fm s) 0 (l_max s) else l_min s).
    assert (Hmn : (forall id e', a_m a !! id = Some e' -> mn <= e_cnt e') /\
                  exists id e, a_m a !! id = Some e /\ e_cnt e = mn).
    { unfold mn. destruct H6 as [H6|(H6 & H7 & H8)].
      - rewrite decide_False by lia. rewrite decide_True by done.
        destruct (lfu_update_min_spec (a_m a) (l_fm s) 0 (l_max s)) as (Ha & _ & Hc).
        + by split.
        + done.
        + intros id e He. specialize (H5 _ _ He). lia.
        + split; auto.
      - destruct (decide (l_min s = 1)) as [E|E].
        + rewrite E in *. auto.
        + rewrite decide_False by lia. auto. }
    destruct Hmn as [Hmn1 (id & e & He & Hf)].
    destruct (Hb2 _ _ He) as [nd Hnd]. rewrite Hf in Hnd.
    pose proof (Hb1 _ _ Hnd) as (Hn1 & Hn2 & Hn3 & Hn4).
    assert (Hin : id ∈ fn_q nd) by (apply Hn3; eauto).
    destruct (fn_q nd) as [|v q] eqn:Eq; [by inversion Hin|].
    assert (v ∈ v :: q) as Hv by left. apply Hn3 in Hv as (ev & Hev & Hfv).
    exists mn, nd, v, q, ev. split_and!; auto.
    - unfold lfu_min_node. fold mn. by rewrite Hnd.
    - specialize (H5 _ _ He). lia.
    - intros e1 id' e' Hv' Hid'. rewrite Hev in Hv'. injection Hv' as <-.
      pose proof (Hmn1 _ _ Hid') as Hle.
      destruct (decide (e_cnt e' = mn)) as [Heq|]; [right|left; lia].
      split; [lia|].
      assert (id' ∈ v :: q) as Hin' by (apply Hn3; eauto).
      apply elem_of_cons in Hin' as [->|Hin']; [rewrite Hev in Hid'; injection Hid' as <-; lia|].
      inversion Hn4 as [|? ? _ HF]; subst. rewrite Forall_forall in HF.
      pose proof (HF _ Hin' ev e' Hev Hid'). lia.
  Qed.

  Lemma lfu_sim : simulation pol_lfu lfu_ops cap md (req_ok md) (lrel cap md).
  Proof.
    constructor; cbn.
    - done.
    - intros s a (H & _). apply H.
    - intros s a (H & _). apply H.
    - intros s a (H & _). apply H.
    - intros s a (H & _). apply H.
    - intros s a (H1 & H2). split; [by apply brel_tick|done].
    - intros s t m a (H1 & H2). split; [by eapply brel_clock|done].
    - intros s a r (H & _). unfold lfu_find. rewrite (brel_find_false _ _ _ _ _ H).
      rewrite andb_false_r. by destruct s.
    - (* hit *)
      intros s t m a r e Hok (H1 & [Hb1 Hb2] & H3 & H4 & [Hmx1 H5] & H6) He. unfold lfu_find.
      destruct (brel_find_hit _ _ _ _ _ _ _ _ H1 He) as (c' & -> & Hb & o & Ho & Hc').
      cbn in *. rewrite Hc'. cbn. rewrite lookup_insert. cbn. rewrite <- Hc'.
      pose proof (H4 _ _ _ Ho He) as Hp. rewrite Hp.
      set (f := e_cnt e + 1). replace (f - 1) with (e_cnt e) by lia.
      destruct (Hb2 _ _ He) as [old Hold]. rewrite Hold.
      pose proof (Hb1 _ _ Hold) as Hnold.
      set (id := r_id r) in *.
      set (e' := touch t r e).
      set (m' := <[id := e']> m).
      assert (Hf : e_cnt e' = f) by done.
      rewrite lookup_insert_ne by lia.
      set (new := match l_fm s !! f with Some nd => nd | None => mkNode 0 [] end).
      set (old' := mkNode (fn_n old - 1) (q_del id (fn_q old))).
      set (new' := mkNode (fn_n new + 1) (fn_q new ++ [id])).
      set (fm := <[f := new']> (<[e_cnt e := old']> (l_fm s))).
      set (mx := if decide (l_max s < f) then f else l_max s).
      assert (Htimes : forall i x, m !! i = Some x -> e_last x < t).
      { intros i x Hx. destruct Hok as (_ & Hok & _). specialize (Hok _ _ Hx). cbn in Hok. lia. }
      assert (Hnold' : node_ok m' (e_cnt e) old').
      { eapply node_ok_del; eauto. intros i x Hx. unfold m'.
        destruct (decide (i = id)) as [->|Hne].
        - rewrite lookup_insert. split; [intros [= <-]; lia|naive_solver].
        - rewrite lookup_insert_ne by done. naive_solver. }
      assert (Hnew : node_ok (delete id m) f new).
      { assert (Hfr : forall i x, e_cnt x = f -> (m !! i = Some x <-> delete id m !! i = Some x)).
        { intros i x Hx. destruct (decide (i = id)) as [->|Hne].
          - rewrite lookup_delete. split; [|done]. intros Hx'. rewrite He in Hx'.
            injection Hx' as <-. lia.
          - by rewrite lookup_delete_ne. }
        unfold new. destruct (l_fm s !! f) as [nd|] eqn:E.
        - eapply node_ok_frame; [by apply Hb1|done].
        - apply node_ok_empty. intros i x Hx Hcx.
          apply lookup_delete_Some in Hx as [_ Hx]. destruct (Hb2 _ _ Hx) as [? Hc]. congruence. }
      assert (Hnew' : node_ok m' f new').
      { unfold m'. rewrite <- insert_delete_insert. apply node_ok_add; [done|by rewrite lookup_delete|done|].
        intros i x Hx. apply lookup_delete_Some in Hx as [_ Hx]. cbn. eauto. }
      assert (Hbk : forall g nd, fm !! g = Some nd -> node_ok m' g nd).
      { intros g nd Hg. unfold fm in Hg.
        apply lookup_insert_Some in Hg as [[<- <-]|[Hne1 Hg]]; [done|].
        apply lookup_insert_Some in Hg as [[<- <-]|[Hne2 Hg]]; [done|].
        eapply node_ok_frame; [by apply Hb1|]. intros i x Hx. unfold m'.
        destruct (decide (i = id)) as [->|Hne].
        - rewrite lookup_insert. split; [rewrite He; intros [= <-]; congruence|].
          intros [= <-]. congruence.
        - by rewrite lookup_insert_ne. }
      assert (Hbk2 : forall i x, m' !! i = Some x -> is_Some (fm !! e_cnt x)).
      { intros i x Hx. unfold fm. unfold m' in Hx.
        destruct (decide (e_cnt x = f)) as [->|Hne1]; [rewrite lookup_insert; eauto|].
        rewrite lookup_insert_ne by done.
        destruct (decide (e_cnt x = e_cnt e)) as [->|Hne2]; [rewrite lookup_insert; eauto|].
        rewrite lookup_insert_ne by done.
        apply lookup_insert_Some in Hx as [[<- <-]|[_ Hx]]; [done|]. eauto. }
      assert (Hmx : forall i x, m' !! i = Some x -> 1 <= e_cnt x <= mx).
      { intros i x Hx. unfold m' in Hx. unfold mx.
        apply lookup_insert_Some in Hx as [[<- <-]|[_ Hx]].
        - specialize (H5 _ _ He). rewrite Hf. destruct (decide _); lia.
        - specialize (H5 _ _ Hx). destruct (decide _); lia. }
      assert (Hp1 : forall i o' x, c_tbl (c_upd c' id (fun o0 => o_set_p1 o0 f)) !! i = Some o' ->
                m' !! i = Some x -> o_p1 o' = e_cnt x).
      { intros i o' x. subst c'. cbn. unfold m'. destruct (decide (i = id)) as [->|Hne].
        - rewrite lookup_alter, !lookup_insert. cbn. intros [= <-] [= <-]. done.
        - rewrite lookup_alter_ne, !lookup_insert_ne by done. apply H4. }
      assert (Hmx1' : 1 <= mx) by (unfold mx; destruct (decide _); lia).
      assert (Hone : e_cnt e <> 1 -> is_Some (fm !! 1)).
      { intros Hne. unfold fm. rewrite lookup_insert_ne by (specialize (H5 _ _ He); lia).
        by rewrite lookup_insert_ne by done. }
      assert (Hone' : is_Some (fm !! 1)).
      { unfold fm. destruct (decide (e_cnt e = 1)) as [E|E]; [|auto].
        rewrite lookup_insert_ne by lia. rewrite E, lookup_insert. eauto. }
      assert (Hne' : m' <> ∅).
      { unfold m'. intros E. assert (m' !! id = None) as Hx by (unfold m'; rewrite E; apply lookup_empty).
        unfold m' in Hx. rewrite lookup_insert in Hx. done. }
      assert (Hbr : brel cap md (c_upd c' id (fun o0 => o_set_p1 o0 f)) (mkAbs (t + 1) m' a)).
      { by apply brel_upd. }
      assert (Hminold : l_min s <> 0 -> l_min s <= e_cnt e).
      { intros Hz. destruct H6 as [H6|(H6 & H7 & _)]; [lia|eauto]. }
      destruct (decide (fn_n old - 1 = 0)) as [Hz|Hz]; change (fn_n old - 1) with (fn_n old') in Hz.
      + (* old node became empty *)
        assert (Hnone : forall i x, m' !! i = Some x -> e_cnt x <> e_cnt e).
        { intros i x Hx Heq. assert (fn_n old' > 0); [|lia].
          apply (node_pos _ _ _ Hnold'). eauto. }
        set (fm' := if decide (e_cnt e <> 1) then delete (e_cnt e) fm else fm).
        assert (Hbk' : buckets_ok m' fm').
        { unfold fm'. destruct (decide (e_cnt e <> 1)) as [Hn1|]; [|by split].
          split.
          - intros g nd Hg. apply lookup_delete_Some in Hg as [_ Hg]. auto.
          - intros i x Hx. rewrite lookup_delete_ne; [eauto|]. intros E. by apply (Hnone i x). }
        assert (Hone'' : is_Some (fm' !! 1)).
        { unfold fm'. destruct (decide (e_cnt e <> 1)) as [Hn1|]; [|done].
          by rewrite lookup_delete_ne. }
        eexists. split; [done|]. split_and!; cbn [l_c l_fm l_min l_max a_m]; try done.
        destruct (decide (l_min s = e_cnt e)) as [Hm|Hm].
        * right. pose proof (H5 _ _ He) as Hr.
          destruct (lfu_update_min_spec m' fm (l_min s) mx) as (Ha & _ & Hc).
          -- by split.
          -- lia.
          -- intros i x Hx. split; [|by apply (Hmx i)].
             assert (l_min s <= e_cnt x).
             { unfold m' in Hx. apply lookup_insert_Some in Hx as [[<- <-]|[_ Hx]]; [lia|].
               destruct H6 as [H6|(H6 & H7 & _)]; [lia|eauto]. }
             specialize (Hnone _ _ Hx). lia.
          -- destruct (Hc Hne') as (i & x & Hx & Hcx). split_and!.
             ++ specialize (Hmx _ _ Hx). lia.
             ++ done.
             ++ eauto.
        * destruct H6 as [H6|(H6 & H7 & H8)]; [by left|right]. split_and!.
          -- done.
          -- intros i x Hx. unfold m' in Hx.
             apply lookup_insert_Some in Hx as [[<- <-]|[_ Hx]]; [|eauto]. specialize (H7 _ _ He). lia.
          -- intros _. destruct H8 as (i & x & Hx & Hcx); [intros ->; by rewrite lookup_empty in He|].
             exists i, x. split; [|done]. unfold m'. rewrite lookup_insert_ne; [done|].
             intros <-. congruence.
      + (* old node still has objects *)
        eexists. split; [done|]. split_and!; cbn [l_c l_fm l_min l_max a_m]; try done.
        destruct H6 as [H6|(H6 & H7 & H8)]; [by left|right]. split_and!.
        * done.
        * intros i x Hx. unfold m' in Hx.
          apply lookup_insert_Some in Hx as [[<- <-]|[_ Hx]]; [|eauto]. specialize (H7 _ _ He). lia.
        * intros _. destruct H8 as (i & x & Hx & Hcx); [intros ->; by rewrite lookup_empty in He|].
          destruct (decide (e_cnt e = l_min s)) as [Hem|Hem].
          -- assert (fn_n old' > 0) as Hp0.
             { destruct Hnold' as (Hl & _). lia. }
             apply (node_pos _ _ _ Hnold') in Hp0 as (j & y & Hy & Hcy).
             exists j, y. split; [done|lia].
          -- exists i, x. split; [|done]. unfold m'. rewrite lookup_insert_ne; [done|].
             intros <-. congruence.
    - intros s a r (H1 & H2) Hn. unfold lfu_find.
      rewrite (brel_find_miss _ _ _ _ _ _ H1 Hn). cbn. eexists. split; [done|]. by split.
    - intros s t m a r (H1 & H2). destruct (brel_can _ _ _ _ _ _ r H1) as (c' & Hc & Hb & Hc').
      unfold lfu_can_insert. rewrite Hc. eexists. split; [done|]. split; [done|]. by subst c'.
    - (* insert *)
      intros s t m a r Hok (H1 & [Hb1 Hb2] & [one Hone] & H4 & [Hmx1 H5] & H6) Hn Hr Hfit. unfold lfu_insert.
      rewrite Hone.
      destruct (brel_insert _ _ _ _ _ _ r H1 Hn Hr) as (c' & -> & Hb & Ht); [apply Hok|].
      cbn in *. eexists. split; [done|].
      assert (Hcm : forall i x, <[r_id r := fresh t r]> m !! i = Some x -> 1 <= e_cnt x).
      { intros i x Hx. apply lookup_insert_Some in Hx as [[<- <-]|[_ Hx]]; [done|]. by apply H5 in Hx as [? _]. }
      split_and!; cbn [l_c l_fm l_min l_max a_m].
      + by apply brel_upd.
      + split.
        * intros g nd Hg. apply lookup_insert_Some in Hg as [[<- <-]|[Hne1 Hg]].
          -- apply node_ok_add; auto. intros i x Hx. cbn.
             destruct Hok as (_ & Hok & _). specialize (Hok _ _ Hx). cbn in *. lia.
          -- eapply node_ok_frame; [by apply Hb1|]. intros i x Hx.
             destruct (decide (i = r_id r)) as [->|Hne].
             ++ rewrite lookup_insert. split; [congruence|]. intros [= <-]. cbn in Hx. congruence.
             ++ by rewrite lookup_insert_ne.
        * intros i x Hx. apply lookup_insert_Some in Hx as [[<- <-]|[_ Hx]]; cbn.
          -- rewrite lookup_insert. eauto.
          -- destruct (decide (e_cnt x = 1)) as [->|Hne]; [rewrite lookup_insert; eauto|].
             rewrite lookup_insert_ne by done. eauto.
      + rewrite lookup_insert. eauto.
      + intros i o x. cbn. rewrite Ht. destruct (decide (i = r_id r)) as [->|Hne].
        * rewrite lookup_alter, !lookup_insert. cbn. intros [= <-] [= <-]. done.
        * rewrite lookup_alter_ne, !lookup_insert_ne by done. apply H4.
      + done.
      + intros i x Hx. split; [by eapply Hcm|].
        apply lookup_insert_Some in Hx as [[<- <-]|[_ Hx]]; [|by apply H5 in Hx as [_ ?]].
        cbn. lia.
      + right. split_and!; [done|done|]. intros _. exists (r_id r), (fresh t r).
        by rewrite lookup_insert.
    - (* evict *)
      intros s t m a r Hok HR Hne.
      pose proof HR as (H1 & [Hb1 Hb2] & H3 & H4 & [Hmx1 H5] & H6). cbn in *.
      destruct (lrel_min_node s _ HR Hne) as (mn & nd & v & q & e & Hmn & Hnd & Hq & Hv & Hcv & Hmn1 & Hmin & Hpol).
      cbn in *.
      destruct (brel_remove _ _ _ _ _ _ _ _ Hok H1 Hv) as (c' & Hc & Hb & Ht).
      set (s1 := mkLfu (l_c s) (l_fm s) mn (l_max s)).
      set (nd' := mkNode (fn_n nd - 1) (q_del v (v :: q))).
      set (s2 := mkLfu c' (<[mn := nd']> (l_fm s)) (if decide (fn_n nd' = 0) then 0 else mn) (l_max s)).
      assert (HR1 : lrel cap md s1 (mkAbs t m a)).
      { split_and!; cbn; try done. right. split_and!; eauto. }
      assert (Hmn2 : lfu_min_node s1 = Ok (mn, nd)).
      { unfold lfu_min_node, s1. cbn. destruct (decide (mn = 1)) as [->|]; [by rewrite Hnd|].
        rewrite decide_False by lia. by rewrite Hnd. }
      assert (Hev : forall s0 r', lfu_min_node s0 = Ok (mn, nd) -> l_c s0 = l_c s ->
                 l_fm s0 = l_fm s -> l_max s0 = l_max s -> lfu_evict s0 r' = Ok s2).
      { intros s0 r' Hs0 E1 E2 E3. unfold lfu_evict. rewrite Hs0. cbn [rbind]. rewrite Hq, E1.
        unfold cache_evict_base. rewrite Hc. cbn [rbind]. by rewrite E2, E3. }
      assert (HR2 : lrel cap md s2 (mkAbs t (delete v m) a)).
      { destruct (lrel_take m (l_fm s) v e nd (conj Hb1 Hb2) Hv) as [Hk1 Hk2]; [by rewrite Hcv|].
        rewrite Hcv, Hq in Hk1, Hk2. fold nd' in Hk1, Hk2.
        split_and!; cbn [l_c l_fm l_min l_max a_m s2]; try done.
        - destruct (decide (mn = 1)) as [->|]; [rewrite lookup_insert; eauto|by rewrite lookup_insert_ne].
        - intros i o x. rewrite Ht. intros [_ Ho]%lookup_delete_Some [_ Hx]%lookup_delete_Some. eauto.
        - intros i x [_ Hx]%lookup_delete_Some. eauto.
        - assert (Hnok : node_ok (delete v m) mn nd') by (apply Hk1; by rewrite lookup_insert).
          destruct (decide (fn_n nd' = 0)) as [Hz|Hz]; [by left|right]. split_and!.
          + done.
          + intros i x [_ Hx]%lookup_delete_Some. eauto.
          + intros _. apply (node_pos _ _ _ Hnok). destruct Hnok as (Hl & _). lia. }
      exists s1, v, s2. split. { unfold lfu_to_evict. rewrite Hmn. cbn [rbind]. by rewrite Hq. }
      split; [done|]. split; [by eexists|]. split; [done|]. split; [by apply Hev|]. split; [done|].
      intros r'. exists s2. split; [by apply Hev|done].
    - (* remove *)
      intros s t m a id Hok (H1 & [Hb1 Hb2] & H3 & H4 & [Hmx1 H5] & H6). unfold lfu_remove. cbn in *.
      destruct (m !! id) as [e|] eqn:E.
      + destruct (brel_some _ _ _ _ _ _ H1 E) as (o & Ho & _). rewrite Ho.
        pose proof (H4 _ _ _ Ho E) as Hp. rewrite Hp.
        destruct (Hb2 _ _ E) as [nd Hnd]. rewrite Hnd.
        destruct (brel_remove _ _ _ _ _ _ _ _ Hok H1 E) as (c' & -> & Hb & Ht). cbn [rbind].
        destruct (lrel_take m (l_fm s) id e nd (conj Hb1 Hb2) E Hnd) as [Hk1 Hk2].
        set (nd' := mkNode (fn_n nd - 1) (q_del id (fn_q nd))) in *.
        cbn [fn_n] in *.
        assert (Hnok : node_ok (delete id m) (e_cnt e) nd') by (apply Hk1; by rewrite lookup_insert).
        eexists. split; [done|]. split_and!; cbn [l_c l_fm l_min l_max a_m]; try done.
        * destruct (decide (e_cnt e = 1)) as [->|]; [rewrite lookup_insert; eauto|by rewrite lookup_insert_ne].
        * intros i o' x. rewrite Ht. intros [_ Ho']%lookup_delete_Some [_ Hx]%lookup_delete_Some. eauto.
        * intros i x [_ Hx]%lookup_delete_Some. eauto.
        * destruct (decide (e_cnt e = l_min s /\ fn_n nd - 1 = 0)) as [[Hm Hz]|Hnm].
          -- right. pose proof (H5 _ _ E) as Hr.
             assert (Hnone : forall i x, delete id m !! i = Some x -> l_min s < e_cnt x <= l_max s).
             { intros i x Hx. pose proof Hx as [_ Hx']%lookup_delete_Some.
               assert (e_cnt x <> e_cnt e).
               { intros Heq. assert (fn_n nd' > 0); [|cbn in *; lia]. apply (node_pos _ _ _ Hnok). eauto. }
               destruct H6 as [H6|(H6 & H7 & _)]; [lia|]. specialize (H7 _ _ Hx'). specialize (H5 _ _ Hx'). lia. }
             destruct (lfu_update_min_spec (delete id m) (<[e_cnt e := nd']> (l_fm s)) (l_min s) (l_max s))
               as (Ha & Hb' & Hc); [by split|lia|done|].
             split_and!; [|done|done].
             destruct (decide (delete id m = ∅)) as [Hem|Hem]; [rewrite Hb' by done; lia|].
             destruct (Hc Hem) as (i & x & Hx & Hcx). apply Hnone in Hx. lia.
          -- destruct H6 as [H6|(H6 & H7 & H8)]; [by left|right]. split_and!; [done| |].
             ++ intros i x [_ Hx]%lookup_delete_Some. eauto.
             ++ intros _. destruct H8 as (i & x & Hx & Hcx); [intros ->; by rewrite lookup_empty in E|].
                destruct (decide (i = id)) as [->|Hne].
                ** assert (x = e) as -> by congruence.
                   rewrite <- Hcx in *. apply (node_pos _ _ _ Hnok). destruct Hnok as (Hl & _).
                   destruct (decide (fn_n nd - 1 = 0)); [|cbn in *; lia]. exfalso. by apply Hnm.
                ** exists i, x. by rewrite lookup_delete_ne.
      + rewrite (brel_none _ _ _ _ _ H1 E). cbn. eexists. split; [done|].
        rewrite delete_notin by done. by split_and!.
  Qed.

  Lemma lfu_init_rel (b : bool) adm : md = (if b then 16 else 0) ->
    lrel cap md (lfu_init b cap adm) (abs_init adm).
  Proof.
    intros ->. split_and!; cbn.
    - apply brel_init.
    - split.
      + intros f nd [<- <-]%lookup_singleton_Some. apply node_ok_empty. intros id e. by rewrite lookup_empty.
      + intros id e. by rewrite lookup_empty.
    - rewrite lookup_singleton. eauto.
    - intros id o e. by rewrite lookup_empty.
    - done.
    - intros id e. by rewrite lookup_empty.
    - right. split_and!; [done| |done]. intros id e. by rewrite lookup_empty.
  Qed.
End LFU.
