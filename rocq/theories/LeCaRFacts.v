(** The model of LeCaR does what SpecLeCaR.v says. *)
From stdpp Require Import gmap list numbers fin_maps sorting.
From Verif Require Import Base Driver ModelQueue ModelLFU SimLFU ModelLeCaR SpecLeCaR.
Open Scope Z_scope.

(** ** Lists *)

Lemma l_bytes_cons x l : l_bytes (x :: l) = lo_w x + l_bytes l. Proof. done. Qed.
Lemma g_bytes_cons x l : g_bytes (x :: l) = lg_w x + g_bytes l. Proof. done. Qed.

Lemma l_find_elem id l x : NoDup (lo_id <$> l) ->
  l_find id l = Some x <-> x ∈ l /\ lo_id x = id.
Proof.
  intros Hnd. unfold l_find. split.
  - destruct (list_find _ l) as [[i y]|] eqn:E; cbn; [|done]. intros [= <-].
    apply list_find_Some in E as (E & <- & _). split; [by apply elem_of_list_lookup; exists i|done].
  - intros [Hx <-]. destruct (list_find (fun y => lo_id y = lo_id x) l) as [[i y]|] eqn:E; cbn.
    + apply list_find_Some in E as (E & Hy & _). f_equal.
      apply elem_of_list_lookup in Hx as [j Hj].
      assert (i = j) as ->.
      { eapply (NoDup_lookup _ _ _ (lo_id x) Hnd); rewrite list_lookup_fmap; [rewrite E; cbn; by rewrite Hy|by rewrite Hj]. }
      congruence.
    + exfalso. apply (list_find_None (fun y => lo_id y = lo_id x)) in E. rewrite Forall_forall in E. by apply (E x Hx).
Qed.

Lemma l_find_none id l : l_find id l = None <-> id ∉ lo_id <$> l.
Proof.
  unfold l_find. destruct (list_find _ l) as [[i y]|] eqn:E; cbn.
  - split; [done|]. intros H. exfalso. apply H. apply list_find_Some in E as (E & <- & _).
    apply elem_of_list_fmap. exists y. split; [done|]. apply elem_of_list_lookup. by exists i.
  - split; [|done]. intros _ H. apply elem_of_list_fmap in H as (y & -> & Hy).
    apply list_find_None in E. rewrite Forall_forall in E. by apply (E y Hy).
Qed.

Lemma g_find_elem id l x : NoDup (lg_id <$> l) ->
  g_find id l = Some x <-> x ∈ l /\ lg_id x = id.
Proof.
  intros Hnd. unfold g_find. split.
  - destruct (list_find _ l) as [[i y]|] eqn:E; cbn; [|done]. intros [= <-].
    apply list_find_Some in E as (E & <- & _). split; [by apply elem_of_list_lookup; exists i|done].
  - intros [Hx <-]. destruct (list_find (fun y => lg_id y = lg_id x) l) as [[i y]|] eqn:E; cbn.
    + apply list_find_Some in E as (E & Hy & _). f_equal.
      apply elem_of_list_lookup in Hx as [j Hj].
      assert (i = j) as ->.
      { eapply (NoDup_lookup _ _ _ (lg_id x) Hnd); rewrite list_lookup_fmap; [rewrite E; cbn; by rewrite Hy|by rewrite Hj]. }
      congruence.
    + exfalso. apply (list_find_None (fun y => lg_id y = lg_id x)) in E. rewrite Forall_forall in E. by apply (E x Hx).
Qed.

Lemma g_find_none id l : g_find id l = None <-> id ∉ lg_id <$> l.
Proof.
  unfold g_find. destruct (list_find _ l) as [[i y]|] eqn:E; cbn.
  - split; [done|]. intros H. exfalso. apply H. apply list_find_Some in E as (E & <- & _).
    apply elem_of_list_fmap. exists y. split; [done|]. apply elem_of_list_lookup. by exists i.
  - split; [|done]. intros _ H. apply elem_of_list_fmap in H as (y & -> & Hy).
    apply list_find_None in E. rewrite Forall_forall in E. by apply (E y Hy).
Qed.

Lemma map_l_drop id l : lo_id <$> l_drop id l = q_del id (lo_id <$> l).
Proof.
  unfold l_drop, q_del. induction l as [|x l IH]; [done|]. rewrite fmap_cons, !filter_cons.
  destruct (decide (lo_id x <> id)); [|exact IH]. rewrite fmap_cons. by f_equal.
Qed.
Lemma map_g_drop id l : lg_id <$> g_drop id l = q_del id (lg_id <$> l).
Proof.
  unfold g_drop, q_del. induction l as [|x l IH]; [done|]. rewrite fmap_cons, !filter_cons.
  destruct (decide (lg_id x <> id)); [|exact IH]. rewrite fmap_cons. by f_equal.
Qed.

Lemma NoDup_q_del id q : NoDup q -> NoDup (q_del id q).
Proof. apply NoDup_filter. Qed.
Lemma elem_q_del id q x : x ∈ q_del id q <-> x <> id /\ x ∈ q.
Proof. unfold q_del. by rewrite elem_of_list_filter. Qed.
Lemma elem_l_drop id l x : x ∈ l_drop id l <-> lo_id x <> id /\ x ∈ l.
Proof. unfold l_drop. by rewrite elem_of_list_filter. Qed.
Lemma elem_g_drop id l x : x ∈ g_drop id l <-> lg_id x <> id /\ x ∈ l.
Proof. unfold g_drop. by rewrite elem_of_list_filter. Qed.

Lemma l_drop_absent id l : id ∉ lo_id <$> l -> l_drop id l = l.
Proof.
  intros H. unfold l_drop. induction l as [|x l IH]; [done|]. rewrite fmap_cons in H.
  apply not_elem_of_cons in H as [H1 H2]. rewrite filter_cons_True by done. by rewrite IH.
Qed.
Lemma q_del_absent id q : id ∉ q -> q_del id q = q.
Proof.
  intros H. unfold q_del. induction q as [|x q IH]; [done|].
  apply not_elem_of_cons in H as [H1 H2]. rewrite filter_cons_True by done. by rewrite IH.
Qed.

Lemma l_bytes_drop x l : NoDup (lo_id <$> l) -> x ∈ l ->
  l_bytes (l_drop (lo_id x) l) = l_bytes l - lo_w x.
Proof.
  induction l as [|y l IH]; intros Hnd Hx; [by apply elem_of_nil in Hx|].
  rewrite fmap_cons in Hnd. apply NoDup_cons in Hnd as [Hy Hnd].
  unfold l_drop. rewrite filter_cons. apply elem_of_cons in Hx as [->|Hx].
  - rewrite decide_False by (intros H; by apply H). fold (l_drop (lo_id y) l). rewrite l_drop_absent by done. rewrite l_bytes_cons. lia.
  - rewrite decide_True. 2:{ intros E. apply Hy. rewrite E. by apply elem_of_list_fmap_1. }
    fold (l_drop (lo_id x) l). rewrite !l_bytes_cons, IH by done. lia.
Qed.
Lemma l_length_drop x l : NoDup (lo_id <$> l) -> x ∈ l ->
  Z.of_nat (length (l_drop (lo_id x) l)) = Z.of_nat (length l) - 1.
Proof.
  induction l as [|y l IH]; intros Hnd Hx; [by apply elem_of_nil in Hx|].
  rewrite fmap_cons in Hnd. apply NoDup_cons in Hnd as [Hy Hnd].
  unfold l_drop. rewrite filter_cons. apply elem_of_cons in Hx as [->|Hx].
  - rewrite decide_False by (intros H; by apply H). fold (l_drop (lo_id y) l). rewrite l_drop_absent by done. cbn [length]. lia.
  - rewrite decide_True. 2:{ intros E. apply Hy. rewrite E. by apply elem_of_list_fmap_1. }
    cbn [length]. fold (l_drop (lo_id x) l). specialize (IH Hnd Hx). lia.
Qed.
Lemma g_bytes_drop x l : NoDup (lg_id <$> l) -> x ∈ l ->
  g_bytes (g_drop (lg_id x) l) = g_bytes l - lg_w x.
Proof.
  induction l as [|y l IH]; intros Hnd Hx; [by apply elem_of_nil in Hx|].
  rewrite fmap_cons in Hnd. apply NoDup_cons in Hnd as [Hy Hnd].
  unfold g_drop. rewrite filter_cons. apply elem_of_cons in Hx as [->|Hx].
  - rewrite decide_False by (intros H; by apply H).
    assert (E : forall l : list lghost, lg_id y ∉ lg_id <$> l -> filter (fun x => lg_id x <> lg_id y) l = l).
    { clear. intros l H. induction l as [|x l IH]; [done|]. rewrite fmap_cons in H.
      apply not_elem_of_cons in H as [H1 H2]. rewrite filter_cons_True by congruence. by rewrite IH. }
    rewrite E by done. rewrite g_bytes_cons. lia.
  - rewrite decide_True. 2:{ intros E. apply Hy. rewrite E. by apply elem_of_list_fmap_1. }
    fold (g_drop (lg_id x) l). rewrite !g_bytes_cons, IH by done. lia.
Qed.

(** ** Buckets *)

Definition of_freq (f : Z) (l : list lobj) : list Z := lo_id <$> filter (fun x => lo_n x = f) l.

Record buck (l : list lobj) (fm : gmap Z fnode) : Prop := {
  bk_node : forall f nd, fm !! f = Some nd ->
    fn_q nd = reverse (of_freq f l) /\ fn_n nd = Z.of_nat (length (of_freq f l));
  bk_some : forall x, x ∈ l -> is_Some (fm !! lo_n x);
  bk_one : is_Some (fm !! 1) }.

Record mins (l : list lobj) (mn mx : Z) : Prop := {
  mi_all : forall x, x ∈ l -> 1 <= lo_n x /\ mn <= lo_n x <= mx;
  mi_min : l <> [] -> exists x, x ∈ l /\ lo_n x = mn;
  mi_bnd : 1 <= mn /\ 1 <= mx < 2 ^ 22 }.

Lemma of_freq_drop f id l : of_freq f (l_drop id l) = q_del id (of_freq f l).
Proof.
  unfold of_freq, l_drop, q_del. induction l as [|x l IH]; [done|].
  rewrite !filter_cons. destruct (decide (lo_id x <> id)) as [H1|H1], (decide (lo_n x = f)) as [H2|H2].
  - rewrite filter_cons_True by done. rewrite !fmap_cons. rewrite filter_cons_True by done. by rewrite IH.
  - rewrite filter_cons_False by done. exact IH.
  - rewrite fmap_cons, filter_cons_False by done. exact IH.
  - exact IH.
Qed.
Lemma q_del_reverse id q : q_del id (reverse q) = reverse (q_del id q).
Proof.
  unfold q_del. induction q as [|x q IH]; [done|]. rewrite reverse_cons, filter_app, IH, !filter_cons.
  destruct (decide (x <> id)); [by rewrite reverse_cons|]. by rewrite app_nil_r.
Qed.
Lemma q_del_length id q : NoDup q -> id ∈ q -> Z.of_nat (length (q_del id q)) = Z.of_nat (length q) - 1.
Proof.
  induction q as [|x q IH]; intros Hnd Hi; [by apply elem_of_nil in Hi|].
  apply NoDup_cons in Hnd as [Hx Hnd]. unfold q_del. rewrite filter_cons. apply elem_of_cons in Hi as [->|Hi].
  - rewrite decide_False by (intros H; by apply H). fold (q_del x q). rewrite q_del_absent by done. cbn [length]. lia.
  - rewrite decide_True by (intros ->; done). cbn [length]. fold (q_del id q). specialize (IH Hnd Hi). lia.
Qed.
Lemma of_freq_elem f l id : id ∈ of_freq f l <-> exists x, x ∈ l /\ lo_id x = id /\ lo_n x = f.
Proof.
  unfold of_freq. rewrite elem_of_list_fmap. split.
  - intros (x & -> & Hx). apply elem_of_list_filter in Hx as [? ?]. eauto.
  - intros (x & Hx & <- & Hf). exists x. split; [done|]. by apply elem_of_list_filter.
Qed.
Lemma of_freq_nodup f l : NoDup (lo_id <$> l) -> NoDup (of_freq f l).
Proof.
  unfold of_freq. induction l as [|x l IH]; intros H; [constructor|]. rewrite fmap_cons in H. apply NoDup_cons in H as [H1 H2].
  rewrite filter_cons. destruct (decide _); [|by apply IH]. rewrite fmap_cons. constructor; [|by apply IH].
  intros H. apply H1. apply elem_of_list_fmap in H as (y & -> & Hy). apply elem_of_list_filter in Hy as [_ Hy].
  by apply elem_of_list_fmap_1.
Qed.
Lemma elem_same x y l : NoDup (lo_id <$> l) -> x ∈ l -> y ∈ l -> lo_id x = lo_id y -> x = y.
Proof.
  intros Hnd Hx Hy E. assert (H : l_find (lo_id x) l = Some x) by (by apply l_find_elem).
  assert (H' : l_find (lo_id x) l = Some y) by (apply l_find_elem; done). congruence.
Qed.

Lemma update_min_ok l fm mn mx : buck l fm ->
  (forall x, x ∈ l -> 1 <= lo_n x /\ mn < lo_n x <= mx) -> 1 <= mn /\ 1 <= mx < 2 ^ 22 ->
  exists mn', lc_update_min fm mn mx = Ok mn' /\ mins l mn' mx /\ (l = [] -> mn' = mn).
Proof.
  intros Hb Hall Hm. unfold lc_update_min. destruct l as [|x0 l0].
  - rewrite lfu_search_none.
    + rewrite decide_False by lia. exists mn. split; [done|]. split; [|done].
      split; [intros x Hx; by apply elem_of_nil in Hx|done|lia].
    + intros j nd _ Hj. destruct (bk_node _ _ Hb j nd Hj) as [_ ->]. cbn. lia.
  - remember (x0 :: l0) as l eqn:El. assert (Hne : l <> []) by by subst l. clear El x0 l0.
    assert (exists x, x ∈ l /\ forall y, y ∈ l -> lo_n x <= lo_n y) as (x & Hx & Hlow).
    { clear -Hne. induction l as [|x l IH]; [done|]. destruct l as [|z l'].
      - exists x. split; [by left|]. intros y Hy. apply elem_of_list_singleton in Hy as ->. lia.
      - destruct (IH ltac:(done)) as (y & Hy & H). destruct (decide (lo_n x <= lo_n y)) as [G|G].
        + exists x. split; [by left|]. intros u Hu. apply elem_of_cons in Hu as [->|Hu]; [lia|]. specialize (H u Hu). lia.
        + exists y. split; [by right|]. intros u Hu. apply elem_of_cons in Hu as [->|Hu]; [lia|]. exact (H u Hu). }
    rewrite (lfu_search_found _ _ _ (lo_n x)).
    + exists (lo_n x). split; [done|]. split; [|done]. split.
      * intros y Hy. specialize (Hall y Hy). specialize (Hlow y Hy). lia.
      * intros _. by exists x.
      * specialize (Hall x Hx). lia.
    + specialize (Hall x Hx). lia.
    + destruct (bk_some _ _ Hb x Hx) as [nd Hnd]. exists nd. split; [done|].
      destruct (bk_node _ _ Hb _ _ Hnd) as [_ ->].
      assert (lo_id x ∈ of_freq (lo_n x) l) as Hin by (apply of_freq_elem; eauto).
      destruct (of_freq _ l); [by apply elem_of_nil in Hin|]. cbn [length]. lia.
    + intros j nd Hj Hnd. destruct (bk_node _ _ Hb _ _ Hnd) as [_ ->].
      destruct (of_freq j l) as [|y o] eqn:E; [cbn; lia|].
      assert (y ∈ of_freq j l) as Hy by (rewrite E; by left). apply of_freq_elem in Hy as (z & Hz & _ & <-).
      specialize (Hlow z Hz). lia.
Qed.

Lemma unbucket_ok l fm mn mx x : buck l fm -> mins l mn mx -> NoDup (lo_id <$> l) -> x ∈ l ->
  exists fm' mn', lc_unbucket fm mn mx (lo_id x) (lo_n x) = Ok (fm', mn') /\
    buck (l_drop (lo_id x) l) fm' /\ mins (l_drop (lo_id x) l) mn' mx /\
    (l_drop (lo_id x) l = [] -> mn' = mn).
Proof.
  intros Hb Hm Hnd Hx. unfold lc_unbucket.
  destruct (bk_some _ _ Hb x Hx) as [nd E]. rewrite E. destruct (bk_node _ _ Hb _ _ E) as [Eq En].
  set (fm' := <[lo_n x := _]> fm). cbn [fn_n].
  assert (Hin : lo_id x ∈ of_freq (lo_n x) l) by (apply of_freq_elem; eauto).
  assert (Hb' : buck (l_drop (lo_id x) l) fm').
  { split.
    - intros f nd' Hf. unfold fm' in Hf. apply lookup_insert_Some in Hf as [[<- <-]|[Hne Hf]]; cbn [fn_q fn_n].
      + rewrite Eq, of_freq_drop, q_del_reverse. split; [done|].
        rewrite q_del_length by (try apply of_freq_nodup; done). rewrite En. lia.
      + destruct (bk_node _ _ Hb f nd' Hf) as [-> ->]. rewrite of_freq_drop, q_del_absent; [done|].
        intros Hi. apply of_freq_elem in Hi as (y & Hy & Hyi & <-). apply Hne. f_equal.
        by apply (elem_same x y l).
    - intros y Hy. apply elem_l_drop in Hy as [_ Hy]. unfold fm'. destruct (decide (lo_n x = lo_n y)) as [<-|Hne].
      + rewrite lookup_insert. by eexists.
      + rewrite lookup_insert_ne by done. by apply (bk_some _ _ Hb).
    - unfold fm'. destruct (decide (lo_n x = 1)) as [->|Hne]; [rewrite lookup_insert; by eexists|].
      rewrite lookup_insert_ne by done. apply (bk_one _ _ Hb). }
  destruct (decide _) as [[E1 E2]|Hno].
  - destruct (update_min_ok (l_drop (lo_id x) l) fm' mn mx Hb') as (mn' & -> & H1 & H2).
    + intros y Hy. destruct (mi_all _ _ _ Hm y) as [? ?]; [by apply elem_l_drop in Hy as [_ ?]|]. split; [done|].
      enough (lo_n y <> mn) by lia. intros E3.
      assert (lo_id y ∈ of_freq (lo_n x) (l_drop (lo_id x) l)) as Hy' by (apply of_freq_elem; exists y; split_and!; [done|done|lia]).
      rewrite of_freq_drop in Hy'. assert (Z.of_nat (length (q_del (lo_id x) (of_freq (lo_n x) l))) = 0) as HL.
      { rewrite q_del_length by (try apply of_freq_nodup; done). rewrite En in E2. lia. }
      destruct (q_del (lo_id x) (of_freq (lo_n x) l)); [by apply elem_of_nil in Hy'|cbn in HL; lia].
    + apply (mi_bnd _ _ _ Hm).
    + cbn [rbind]. exists fm', mn'. done.
  - exists fm', mn. split; [done|]. split; [done|]. split; [|done]. split.
    + intros y Hy. apply elem_l_drop in Hy as [_ Hy]. by apply (mi_all _ _ _ Hm).
    + intros _. destruct (mi_min _ _ _ Hm) as (y & Hy & Ey); [intros ->; by apply elem_of_nil in Hx|].
      destruct (decide (lo_id y = lo_id x)) as [Eid|Hne].
      * assert (y = x) as -> by (by apply (elem_same y x l)).
        assert (Z.of_nat (length (q_del (lo_id x) (of_freq (lo_n x) l))) <> 0) as HL.
        { rewrite q_del_length by (try apply of_freq_nodup; done). intros HL. apply Hno. split; [done|]. lia. }
        destruct (q_del (lo_id x) (of_freq (lo_n x) l)) as [|z zs] eqn:Ez; [done|].
        assert (z ∈ of_freq (lo_n x) (l_drop (lo_id x) l)) as Hz by (rewrite of_freq_drop, Ez; by left).
        apply of_freq_elem in Hz as (u & Hu & _ & Eu). exists u. split; [done|lia].
      * exists y. split; [by apply elem_l_drop|done].
    + apply (mi_bnd _ _ _ Hm).
Qed.

Lemma bucket_ok l fm id w k : buck l fm -> buck (mkLO id w k :: l) (lc_bucket fm id k).
Proof.
  intros Hb. unfold lc_bucket. split.
  - intros f nd Hf. apply lookup_insert_Some in Hf as [[<- <-]|[Hne Hf]]; cbn [fn_q fn_n].
    + unfold of_freq. rewrite filter_cons_True by done. rewrite fmap_cons. cbn [lo_id]. rewrite reverse_cons. cbn [length].
      destruct (fm !! k) as [nd|] eqn:E; cbn [default fn_q fn_n].
      * destruct (bk_node _ _ Hb _ _ E) as [Eq En]. unfold Datatypes.id. rewrite Eq, En. unfold of_freq. split; [done|]. lia.
      * assert (E0 : filter (fun x => lo_n x = k) l = []).
        { destruct (filter _ l) as [|y ys] eqn:E0; [done|].
          assert (y ∈ filter (fun x => lo_n x = k) l) as Hy by (rewrite E0; by left).
          apply elem_of_list_filter in Hy as [<- Hy]. destruct (bk_some _ _ Hb y Hy). congruence. }
        rewrite E0. done.
    + unfold of_freq. rewrite filter_cons_False by (cbn; congruence). apply (bk_node _ _ Hb _ _ Hf).
  - intros x Hx. destruct (decide (lo_n x = k)) as [->|Hne]; [rewrite lookup_insert; by eexists|].
    rewrite lookup_insert_ne by done. apply elem_of_cons in Hx as [->|Hx]; [done|]. by apply (bk_some _ _ Hb).
  - destruct (decide (k = 1)) as [->|Hne]; [rewrite lookup_insert; by eexists|].
    rewrite lookup_insert_ne by done. apply (bk_one _ _ Hb).
Qed.

(** The head of the lowest bucket is the choice of the LFU expert. *)
Lemma lfu_choice_ok l mn mx : mins l mn mx -> lfu_choice l = last (filter (fun x => lo_n x = mn) l).
Proof.
  intros Hm. unfold lfu_choice. f_equal.
  destruct (decide (l = [])) as [->|Hne]; [done|]. destruct (mi_min _ _ _ Hm Hne) as (m & Hm1 & Hm2).
  assert (H : forall x, x ∈ l -> Forall (fun y => lo_n x <= lo_n y) l <-> lo_n x = mn).
  { intros x Hx. rewrite Forall_forall. split.
    - intros H. specialize (H m Hm1). destruct (mi_all _ _ _ Hm x Hx). lia.
    - intros E y Hy. destruct (mi_all _ _ _ Hm y Hy). lia. }
  clear -H. set (P := fun x => Forall (fun y => lo_n x <= lo_n y) l) in *.
  change (filter P l = filter (fun x => lo_n x = mn) l).
  assert (G : forall x, x ∈ l -> P x <-> lo_n x = mn) by exact H. clear H.
  assert (Q : forall l' : list lobj, (forall x, x ∈ l' -> P x <-> lo_n x = mn) -> filter P l' = filter (fun x => lo_n x = mn) l').
  { induction l' as [|x l' IH]; intros H; [done|]. rewrite !filter_cons.
    destruct (H x ltac:(by left)) as [H1 H2]. rewrite IH by (intros y Hy; apply H; by right).
    destruct (decide (P x)) as [p|p], (decide (lo_n x = mn)) as [q|q]; try done; exfalso; auto. }
  by apply Q.
Qed.

(** ** Ghost lists *)

Definition nonneg (g : list lghost) : Prop := Forall (fun x => 0 <= lg_w x) g.

Lemma g_bytes_app g g' : g_bytes (g ++ g') = g_bytes g + g_bytes g'.
Proof. induction g as [|x g IH]; [done|]. cbn [app]. rewrite !g_bytes_cons, IH. lia. Qed.
Lemma g_bytes_nonneg g : nonneg g -> 0 <= g_bytes g.
Proof. intros H. induction H as [|x g Hx H IH]; [done|]. rewrite g_bytes_cons. lia. Qed.
Lemma keep_all m g : nonneg g -> g_bytes g <= m -> keep m g = g.
Proof.
  intros H. revert m. induction H as [|x g Hx H IH]; intros m Hm; [done|]. rewrite g_bytes_cons in Hm.
  cbn [keep]. assert (0 <= g_bytes g) by by apply g_bytes_nonneg. rewrite decide_True by lia. by rewrite IH by lia.
Qed.
Lemma keep_snoc m g x : nonneg (g ++ [x]) -> g_bytes (g ++ [x]) > m -> keep m (g ++ [x]) = keep m g.
Proof.
  revert m. induction g as [|y g IH]; intros m H Hm; cbn [app keep].
  - cbn in Hm. by rewrite decide_False by lia.
  - cbn [app] in H, Hm. apply Forall_cons in H as [Hy H]. rewrite g_bytes_cons in Hm.
    destruct (decide _); [|done]. f_equal. apply IH; [done|lia].
Qed.
Lemma keep_bytes m g : 0 <= m -> g_bytes (keep m g) <= m.
Proof.
  revert m. induction g as [|x g IH]; intros m Hm; [done|]. cbn [keep]. destruct (decide _); [|done].
  rewrite g_bytes_cons. specialize (IH (m - lg_w x) ltac:(lia)). lia.
Qed.
Lemma keep_elem m g x : x ∈ keep m g -> x ∈ g.
Proof.
  revert m. induction g as [|y g IH]; intros m; [done|]. cbn [keep]. destruct (decide _).
  - intros H. apply elem_of_cons in H as [->|H]; [by left|right; by apply (IH _ H)].
  - intros H. by apply elem_of_nil in H.
Qed.
Lemma keep_prefix m g : exists g', g = keep m g ++ g'.
Proof.
  revert m. induction g as [|y g IH]; intros m; [by exists []|]. cbn [keep]. destruct (decide _).
  - destruct (IH (m - lg_w y)) as [g' E]. exists g'. cbn [app]. by rewrite <- E.
  - by eexists.
Qed.
Lemma keep_nodup m g : NoDup (lg_id <$> g) -> NoDup (lg_id <$> keep m g).
Proof.
  intros H. destruct (keep_prefix m g) as [g' E]. rewrite E, fmap_app in H. by apply NoDup_app in H as (H & _ & _).
Qed.

Lemma destruct_end (g : list lghost) : g = [] \/ exists g' x, g = g' ++ [x].
Proof. destruct g using rev_ind; [by left|right; eauto]. Qed.

Lemma trim_ok lim md fuel : 0 <= lim -> forall (G : list lghost) c b,
  (length G <= fuel)%nat -> NoDup (lg_id <$> G) -> c_md c = md -> b = g_bytes G ->
  (forall x, x ∈ G -> exists o, c_tbl c !! lg_id x = Some o /\ o_size o + md = lg_w x /\ 0 <= lg_w x < 2 ^ 32) ->
  exists t, lc_trim fuel lim c (lg_id <$> G) b = Ok (c_set_tbl c t, lg_id <$> keep lim G, g_bytes (keep lim G)) /\
    forall id, t !! id = if decide (id ∈ lg_id <$> G /\ id ∉ lg_id <$> keep lim G) then None else c_tbl c !! id.
Proof.
  intros Hlim. induction fuel as [|fuel IH]; intros G c b Hf Hnd Hmd -> Ht.
  - destruct G; [|cbn in Hf; lia]. cbn [lc_trim fmap list_fmap]. rewrite decide_False by (cbn; lia).
    exists (c_tbl c). split; [by destruct c|]. intros id. rewrite decide_False; [done|]. intros [H _]. by apply elem_of_nil in H.
  - assert (Hnn : nonneg G) by (apply Forall_forall; intros x Hx; destruct (Ht x Hx) as (_ & _ & _ & ?); lia).
    cbn [lc_trim]. destruct (decide (g_bytes G > lim)) as [Hgt|Hle].
    + destruct (destruct_end G) as [->|(G' & x & ->)].
      * cbn in Hgt. lia.
      * rewrite fmap_app. cbn [fmap list_fmap]. rewrite last_snoc.
        destruct (Ht x ltac:(apply elem_of_app; right; by left)) as (o & Eo & Ew & Hw). rewrite Eo.
        rewrite removelast_last. rewrite fmap_app in Hnd. apply NoDup_app in Hnd as (Hnd & Hdisj & _).
        destruct (IH G' (lc_forget c (lg_id x)) (g_bytes (G' ++ [x]) - u32 (o_size o + c_md c))) as (t & E & Et).
        { rewrite app_length in Hf. cbn in Hf. lia. }
        { done. }
        { done. }
        { rewrite g_bytes_app. cbn. unfold u32. rewrite Hmd, Z.mod_small by lia. lia. }
        { intros y Hy. destruct (Ht y ltac:(apply elem_of_app; by left)) as (o' & Eo' & ?). exists o'. split; [|done].
          cbn. rewrite lookup_delete_ne; [done|]. intros E. apply (Hdisj (lg_id y)); [by apply elem_of_list_fmap_1|].
          rewrite <- E. by left. }
        exists t. rewrite keep_snoc by done. split.
        { exact E. }
        intros id. rewrite Et. cbn [fmap list_fmap lc_forget c_set_tbl c_tbl].
        destruct (decide (id = lg_id x)) as [->|Hne].
        { rewrite lookup_delete. rewrite (decide_True (P := lg_id x ∈ (lg_id <$> G') ++ [lg_id x] /\ lg_id x ∉ lg_id <$> keep lim G')).
          - by destruct (decide _).
          - split; [apply elem_of_app; right; by left|]. intros H. apply (Hdisj (lg_id x)); [|by left].
            apply elem_of_list_fmap in H as (y & -> & Hy). apply elem_of_list_fmap_1. by apply keep_elem in Hy. }
        rewrite lookup_delete_ne by done.
        assert (id ∈ (lg_id <$> G') ++ [lg_id x] <-> id ∈ lg_id <$> G') as Hiff.
        { rewrite elem_of_app, elem_of_list_singleton. tauto. }
        destruct (decide _) as [H1|H1], (decide (_ /\ _)) as [H2|H2]; try done; exfalso; tauto.
    + exists (c_tbl c). rewrite keep_all by (done || lia). split; [by destruct c|].
      intros id. rewrite decide_False; [done|]. tauto.
Qed.
