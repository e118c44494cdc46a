(** The shared cache record against the abstract map, as [brel] in Sim.v but
    keeping only the sizes: for caches that write misc.freq or
    misc.next_access_vtime themselves. *)
From stdpp Require Import gmap list numbers fin_maps.
From Verif Require Import Base Driver Abs AbsFacts Sim.
Open Scope Z_scope.

Record srel (cap md : Z) (c : cache) (a : abs) : Prop := {
  sr_size : c_size c = cap;
  sr_md : c_md c = md;
  sr_occ : c_occ c = msum md (a_m a);
  sr_nobj : c_nobj c = Z.of_nat (size (a_m a));
  sr_adm : c_adm c = a_adm a;
  sr_tbl : forall id, option_Forall2 (fun o e => o_size o = e_size e) (c_tbl c !! id) (a_m a !! id)
}.

Section Base.
  Context (cap md : Z).

  Lemma srel_tick c a : srel cap md c a -> srel cap md (c_incr_nreq c) a.
  Proof. intros []; constructor; done. Qed.

  Lemma srel_clock c t m a t' : srel cap md c (mkAbs t m a) -> srel cap md c (mkAbs t' m a).
  Proof. intros []; constructor; done. Qed.

  Lemma srel_some c a id e :
    srel cap md c a -> a_m a !! id = Some e -> exists o, c_tbl c !! id = Some o /\ o_size o = e_size e.
  Proof.
    intros H He. pose proof (sr_tbl _ _ _ _ H id) as Hb. rewrite He in Hb.
    inversion Hb; subst. eauto.
  Qed.

  Lemma srel_some_inv c a id o :
    srel cap md c a -> c_tbl c !! id = Some o -> exists e, a_m a !! id = Some e /\ o_size o = e_size e.
  Proof.
    intros H He. pose proof (sr_tbl _ _ _ _ H id) as Hb. rewrite He in Hb.
    inversion Hb; subst. eauto.
  Qed.

  Lemma srel_none c a id : srel cap md c a -> a_m a !! id = None -> c_tbl c !! id = None.
  Proof.
    intros H He. pose proof (sr_tbl _ _ _ _ H id) as Hb. rewrite He in Hb. by inversion Hb.
  Qed.

  Lemma srel_none_inv c a id : srel cap md c a -> c_tbl c !! id = None -> a_m a !! id = None.
  Proof.
    intros H He. pose proof (sr_tbl _ _ _ _ H id) as Hb. rewrite He in Hb. by inversion Hb.
  Qed.

  Lemma srel_is_Some c a id :
    srel cap md c a -> is_Some (c_tbl c !! id) <-> is_Some (a_m a !! id).
  Proof.
    intros H. pose proof (sr_tbl _ _ _ _ H id) as Hb. inversion Hb.
    - split; intros; eauto.
    - split; intros []; done.
  Qed.

  Lemma srel_dom c a : srel cap md c a -> dom (c_tbl c) = dom (a_m a).
  Proof.
    intros H. apply set_eq. intros id. rewrite !elem_of_dom. by eapply srel_is_Some.
  Qed.

  Lemma srel_find_false c a r : srel cap md c a ->
    cache_find_base c r false = (c, bool_decide (is_Some (a_m a !! r_id r))).
  Proof.
    intros H. unfold cache_find_base. destruct (c_tbl c !! r_id r) eqn:E.
    - rewrite bool_decide_true; [done|]. eapply srel_is_Some; eauto.
    - rewrite bool_decide_false; [done|]. erewrite srel_none_inv by eauto. by intros [].
  Qed.

  Lemma srel_find_miss c a r u : srel cap md c a -> a_m a !! r_id r = None ->
    cache_find_base c r u = (c, false).
  Proof.
    intros H Hn. unfold cache_find_base. by erewrite srel_none by eauto.
  Qed.

  Lemma srel_find_hit c t m a r e : srel cap md c (mkAbs t m a) -> m !! r_id r = Some e ->
    exists c', cache_find_base c r true = (c', true) /\
      srel cap md c' (mkAbs (t + 1) (<[r_id r := touch t r e]> m) a) /\
      exists o, c_tbl c !! r_id r = Some o /\
        c' = c_set_tbl c (<[r_id r := o_set_freq (o_set_next o (r_next r)) (o_freq o + 1)]> (c_tbl c)).
  Proof.
    intros H He. destruct (srel_some _ _ _ _ H He) as (o & Ho & Hor).
    unfold cache_find_base. rewrite Ho. eexists. split; [done|]. split.
    - destruct H; constructor; cbn in *; auto.
      + by rewrite (msum_update _ _ _ e).
      + by rewrite map_size_insert_Some by eauto.
      + intros id. destruct (decide (id = r_id r)) as [->|Hne].
        * rewrite lookup_alter, lookup_insert, Ho. by constructor.
        * rewrite lookup_alter_ne, lookup_insert_ne by done. auto.
    - exists o. split; [done|]. unfold c_upd. f_equal.
      apply map_eq. intros i. destruct (decide (i = r_id r)) as [->|Hne].
      + by rewrite lookup_alter, lookup_insert, Ho.
      + by rewrite lookup_alter_ne, lookup_insert_ne.
  Qed.

  Lemma srel_can c t m a r : srel cap md c (mkAbs t m a) ->
    exists c', cache_can_insert_default c r =
       (c', (admit a r).2 && bool_decide (r_size r + md <= cap)) /\
      srel cap md c' (mkAbs t m (admit a r).1) /\ c' = c_set_adm c (admit a r).1.
  Proof.
    intros []; cbn in *. unfold cache_can_insert_default. rewrite sr_adm0.
    destruct (admit a r) as [a' ok] eqn:E. cbn. exists (c_set_adm c a'). split_and!; auto.
    - destruct ok; cbn; [|done]. subst cap md.
      destruct (decide _); [rewrite bool_decide_false by lia|rewrite bool_decide_true by lia]; done.
    - constructor; auto.
  Qed.

  Lemma srel_insert c t m a r : srel cap md c (mkAbs t m a) -> m !! r_id r = None ->
    req_ok md r -> 0 <= md ->
    exists c', cache_insert_base c r = Ok c' /\
      srel cap md c' (mkAbs (t + 1) (<[r_id r := fresh t r]> m) a) /\
      c_tbl c' = <[r_id r := obj_of_req r]> (c_tbl c).
  Proof.
    intros H Hn [Hr1 Hr2] Hmd. unfold cache_insert_base.
    erewrite srel_none by eauto. eexists. split; [done|]. split; [|done].
    assert (Hu : u32 (r_size r) = r_size r) by (unfold u32; apply Z.mod_small; lia).
    destruct H; constructor; cbn in *; auto.
    - rewrite msum_insert by done. cbn. rewrite Hu. lia.
    - rewrite map_size_insert_None by done. lia.
    - intros id. destruct (decide (id = r_id r)) as [->|Hne].
      + rewrite !lookup_insert. by constructor.
      + rewrite !lookup_insert_ne by done. auto.
  Qed.

  Lemma srel_remove c t m a id e : abs_ok cap md (mkAbs t m a) ->
    srel cap md c (mkAbs t m a) -> m !! id = Some e ->
    exists c', cache_remove_obj_base c id = Ok c' /\
      srel cap md c' (mkAbs t (delete id m) a) /\ c_tbl c' = delete id (c_tbl c).
  Proof.
    intros Hok H He. destruct (srel_some _ _ _ _ H He) as (o & Ho & Hor).
    unfold cache_remove_obj_base. rewrite Ho. eexists. split; [done|]. split; [|done].
    destruct Hok as (_ & Hok & _ & _ & Hmd). specialize (Hok _ _ He). cbn in *.
    assert (Hu : u32 (o_size o + c_md c) = e_size e + md).
    { unfold u32. rewrite Hor, (sr_md _ _ _ _ H). apply Z.mod_small. lia. }
    destruct H; constructor; cbn in *; auto.
    - rewrite (msum_delete _ _ _ e) by done. lia.
    - assert (is_Some (m !! id)) as HS by eauto.
      rewrite map_size_delete_Some by done.
      assert (size m <> 0%nat) by (intros Hz%map_size_empty_inv; subst m; rewrite lookup_empty in He; done). lia.
    - intros i. destruct (decide (i = id)) as [->|Hne].
      + rewrite !lookup_delete. constructor.
      + rewrite !lookup_delete_ne by done. auto.
  Qed.

  Lemma srel_init adm : srel cap md (cache_init cap md adm) (abs_init adm).
  Proof.
    constructor; try done. intros id. cbn. rewrite !lookup_empty. constructor.
  Qed.

  Lemma srel_upd c a id f : (forall o, o_size (f o) = o_size o) ->
    srel cap md c a -> srel cap md (c_upd c id f) a.
  Proof.
    intros Hf []; constructor; try done. intros i. cbn. specialize (sr_tbl0 i).
    destruct (decide (i = id)) as [->|Hne].
    - rewrite lookup_alter. inversion sr_tbl0; cbn; constructor. by rewrite Hf.
    - by rewrite lookup_alter_ne.
  Qed.
End Base.
