(** The queues of the composite caches as lists of (id, object), head first:
    what each operation of ModelQueue.v on one FIFO or LRU queue does to that
    list.  The queues of a composite cache may hold more than their nominal
    size, so nothing here bounds the occupancy by the size. *)
From stdpp Require Import gmap list numbers fin_maps.
From Verif Require Import Base Driver ModelQueue QueueFacts.
Open Scope Z_scope.

Notation qlist := (list (Z * cobj)).

Definition ids (l : qlist) : list Z := l.*1.
Definition bytes (md : Z) (l : qlist) : Z := foldr (fun x acc => o_size x.2 + md + acc) 0 l.
Definition osz_ok (md : Z) (o : cobj) : Prop := 0 <= o_size o /\ o_size o + md < 2 ^ 32.

Record qok (sz md : Z) (s : qstate) (l : qlist) : Prop := mkQok {
  qok_q    : q_q s = ids l;
  qok_tbl  : c_tbl (q_c s) = list_to_map l;
  qok_nd   : NoDup (ids l);
  qok_occ  : c_occ (q_c s) = bytes md l;
  qok_nobj : c_nobj (q_c s) = Z.of_nat (length l);
  qok_size : c_size (q_c s) = sz;
  qok_md   : c_md (q_c s) = md;
  qok_adm  : c_adm (q_c s) = AdmNone;
  qok_osz  : Forall (fun x => osz_ok md x.2) l
}.

Definition l_upd (f : cobj -> cobj) (id : Z) (l : qlist) : qlist :=
  (fun x => if decide (x.1 = id) then (x.1, f x.2) else x) <$> l.
Definition l_del (id : Z) (l : qlist) : qlist := filter (fun x => x.1 <> id) l.
(** what cache_find_base with update does to the object it finds *)
Definition o_hit (r : req) (o : cobj) : cobj := o_set_freq (o_set_next o (r_next r)) (o_freq o + 1).

Lemma bytes_app md l1 l2 : bytes md (l1 ++ l2) = bytes md l1 + bytes md l2.
Proof. unfold bytes. induction l1 as [|x l1 IH]; cbn in *; lia. Qed.

Lemma bytes_cons md x l : bytes md (x :: l) = o_size x.2 + md + bytes md l.
Proof. done. Qed.

Lemma bytes_nonneg md l : 0 <= md -> Forall (fun x => osz_ok md x.2) l -> 0 <= bytes md l.
Proof.
  intros ?. unfold bytes. induction 1 as [|x l [? ?] _ IH]; cbn in *; lia.
Qed.

Lemma ids_upd f id l : ids (l_upd f id l) = ids l.
Proof.
  unfold ids, l_upd. rewrite <- list_fmap_compose. apply list_fmap_ext.
  intros ? x ?. cbn. by destruct (decide _).
Qed.

Lemma bytes_upd md f id l : (forall o, o_size (f o) = o_size o) -> bytes md (l_upd f id l) = bytes md l.
Proof.
  intros Hf. induction l as [|x l IH]; [done|].
  cbn [l_upd fmap list_fmap]. fold (l_upd f id l). rewrite !bytes_cons, IH.
  destruct (decide _); cbn; [rewrite Hf|]; lia.
Qed.

Lemma l_upd_notin f id l : id ∉ ids l -> l_upd f id l = l.
Proof.
  intros Hni. unfold l_upd. rewrite <- (list_fmap_id l) at 2. apply list_fmap_ext.
  intros i x Hx. cbn. destruct (decide _) as [<-|]; [|by destruct x].
  exfalso. apply Hni. apply elem_of_list_fmap. exists x. split; [done|]. by eapply elem_of_list_lookup_2.
Qed.

Lemma l_upd_app f id l1 l2 : l_upd f id (l1 ++ l2) = l_upd f id l1 ++ l_upd f id l2.
Proof. unfold l_upd. by rewrite fmap_app. Qed.

Lemma elem_l_del id x l : x ∈ l_del id l <-> x ∈ l /\ x.1 <> id.
Proof. unfold l_del. rewrite elem_of_list_filter. tauto. Qed.

Lemma l_del_app id l1 l2 : l_del id (l1 ++ l2) = l_del id l1 ++ l_del id l2.
Proof. apply filter_app. Qed.

Lemma l_del_notin id l : id ∉ ids l -> l_del id l = l.
Proof.
  intros Hni. induction l as [|x l IH]; [done|]. unfold l_del. rewrite filter_cons_True.
  - f_equal. apply IH. intros ?. apply Hni. by right.
  - intros <-. apply Hni. by left.
Qed.

Lemma ids_del id l : ids (l_del id l) = q_del id (ids l).
Proof.
  induction l as [|x l IH]; [done|]. unfold l_del, q_del in *. cbn [ids fmap list_fmap].
  destruct (decide (x.1 = id)) as [He|He].
  - rewrite filter_cons_False by tauto. rewrite (filter_cons_False (fun y => y <> id)) by tauto. done.
  - rewrite filter_cons_True by done. rewrite (filter_cons_True (fun y => y <> id)) by done. cbn.
    f_equal. done.
Qed.

Lemma ids_app l1 l2 : ids (l1 ++ l2) = ids l1 ++ ids l2.
Proof. apply fmap_app. Qed.

Lemma ids_elem id l : id ∈ ids l <-> exists o, (id, o) ∈ l.
Proof.
  unfold ids. rewrite elem_of_list_fmap. split.
  - intros ([j o] & -> & H). by exists o.
  - intros (o & H). by exists (id, o).
Qed.

Lemma elem_ids_del j id l : j ∈ ids (l_del id l) <-> j ∈ ids l /\ j <> id.
Proof. rewrite ids_del. apply elem_q_del. Qed.

Lemma split_at id o (l : qlist) : (id, o) ∈ l -> exists l1 l2, l = l1 ++ (id, o) :: l2.
Proof. apply elem_of_list_split. Qed.

Lemma NoDup_ids_mid l1 id o l2 : NoDup (ids (l1 ++ (id, o) :: l2)) ->
  id ∉ ids l1 /\ id ∉ ids l2 /\ NoDup (ids (l1 ++ l2)).
Proof.
  rewrite !ids_app. cbn [ids fmap list_fmap]. intros (H1 & H2 & H3)%NoDup_app.
  apply NoDup_cons in H3 as [H3 H4]. split_and!.
  - intros Hx. apply (H2 _ Hx). by left.
  - done.
  - apply NoDup_app. split_and!; [done| |done]. intros x Hx Hx2. apply (H2 _ Hx). by right.
Qed.

Lemma l_del_mid l1 id o l2 : NoDup (ids (l1 ++ (id, o) :: l2)) ->
  l_del id (l1 ++ (id, o) :: l2) = l1 ++ l2.
Proof.
  intros (H1 & H2 & _)%NoDup_ids_mid. rewrite l_del_app, (l_del_notin _ _ H1). f_equal.
  unfold l_del. rewrite filter_cons_False by (cbn; tauto). apply l_del_notin, H2.
Qed.

Lemma bytes_del md id o l : NoDup (ids l) -> (id, o) ∈ l ->
  bytes md (l_del id l) = bytes md l - (o_size o + md).
Proof.
  intros Hnd (l1 & l2 & ->)%split_at. rewrite (l_del_mid _ _ _ _ Hnd), !bytes_app, bytes_cons. cbn. lia.
Qed.

Lemma length_del id o l : NoDup (ids l) -> (id, o) ∈ l -> S (length (l_del id l)) = length l.
Proof.
  intros Hnd (l1 & l2 & ->)%split_at. rewrite (l_del_mid _ _ _ _ Hnd), !app_length. cbn. lia.
Qed.

Lemma tbl_lookup_Some (l : qlist) id o : NoDup (ids l) ->
  (list_to_map l : gmap Z cobj) !! id = Some o <-> (id, o) ∈ l.
Proof. intros H. symmetry. by apply elem_of_list_to_map. Qed.

Lemma tbl_lookup_None (l : qlist) id :
  (list_to_map l : gmap Z cobj) !! id = None <-> id ∉ ids l.
Proof. symmetry. apply not_elem_of_list_to_map. Qed.

Lemma tbl_upd f id l : NoDup (ids l) ->
  alter f id (list_to_map l : gmap Z cobj) = list_to_map (l_upd f id l).
Proof.
  intros Hnd. induction l as [|[j o] l IH]; cbn [l_upd fmap list_fmap list_to_map foldr].
  - apply map_eq. intros i. destruct (decide (i = id)) as [->|]; [by rewrite lookup_alter|by rewrite lookup_alter_ne].
  - fold (l_upd f id l). apply NoDup_cons in Hnd as [Hj Hnd]. cbn [fst snd].
    destruct (decide (j = id)) as [->|Hne]; cbn [fst snd].
    + unfold list_to_map. cbn [foldr uncurry fst snd]. fold (list_to_map (M := gmap Z cobj) l).
      rewrite l_upd_notin by done. apply map_eq. intros i.
      destruct (decide (i = id)) as [->|]; [by rewrite lookup_alter, !lookup_insert|].
      by rewrite lookup_alter_ne, !lookup_insert_ne by done.
    + cbn. rewrite <- (IH Hnd). apply map_eq. intros i.
      destruct (decide (i = id)) as [->|].
      * by rewrite lookup_alter, lookup_insert_ne, lookup_insert_ne, lookup_alter by done.
      * rewrite lookup_alter_ne by done. destruct (decide (i = j)) as [->|]; [by rewrite !lookup_insert|].
        by rewrite !lookup_insert_ne, lookup_alter_ne by done.
Qed.

Lemma tbl_del id l : NoDup (ids l) ->
  delete id (list_to_map l : gmap Z cobj) = list_to_map (l_del id l).
Proof.
  intros Hnd. assert (Hnd' : NoDup (ids (l_del id l))) by (rewrite ids_del; by apply NoDup_q_del).
  apply map_eq. intros i. destruct (decide (i = id)) as [->|Hne].
  - rewrite lookup_delete. symmetry. apply tbl_lookup_None. rewrite elem_ids_del. tauto.
  - rewrite lookup_delete_ne by done. destruct (list_to_map l !! i) as [o|] eqn:E.
    + symmetry. apply tbl_lookup_Some; [done|]. apply elem_l_del. split; [|done]. by apply tbl_lookup_Some.
    + symmetry. apply tbl_lookup_None. rewrite elem_ids_del. apply tbl_lookup_None in E. tauto.
Qed.

Lemma Forall_upd (P : Z * cobj -> Prop) f id l :
  (forall i o, P (i, o) -> P (i, f o)) -> Forall P l -> Forall P (l_upd f id l).
Proof.
  intros Hf H. unfold l_upd. apply Forall_fmap. apply (Forall_impl _ _ _ H).
  intros [i o] Hp. unfold compose. cbn. destruct (decide _); auto.
Qed.

Lemma Forall_del (P : Z * cobj -> Prop) id l : Forall P l -> Forall P (l_del id l).
Proof. rewrite !Forall_forall. intros H x [Hx _]%elem_l_del. by apply H. Qed.

Section Ops.
  Context (sz md : Z) (s : qstate) (l : qlist) (HQ : qok sz md s l).

  Lemma qok_lookup id o : c_tbl (q_c s) !! id = Some o <-> (id, o) ∈ l.
  Proof. rewrite (qok_tbl _ _ _ _ HQ). apply tbl_lookup_Some, HQ. Qed.
  Lemma qok_lookup_None id : c_tbl (q_c s) !! id = None <-> id ∉ ids l.
  Proof. rewrite (qok_tbl _ _ _ _ HQ). apply tbl_lookup_None. Qed.

  Lemma qok_find_false r : fifo_find s r false = Ok (s, bool_decide (r_id r ∈ ids l)).
  Proof.
    unfold fifo_find, cache_find_base. destruct (c_tbl (q_c s) !! r_id r) as [o|] eqn:E.
    - apply qok_lookup in E. rewrite bool_decide_eq_true_2 by (apply ids_elem; eauto). by destruct s.
    - apply qok_lookup_None in E. rewrite bool_decide_eq_false_2 by done. by destruct s.
  Qed.

  Lemma qok_find_miss r u : r_id r ∉ ids l -> fifo_find s r u = Ok (s, false).
  Proof.
    intros E%qok_lookup_None. unfold fifo_find, cache_find_base. rewrite E. by destruct s.
  Qed.

  Lemma qok_upd f id : (forall o, o_size (f o) = o_size o) ->
    qok sz md (mkQ (c_upd (q_c s) id f) (q_q s)) (l_upd f id l).
  Proof.
    intros Hf. destruct HQ. split; cbn; try done.
    - by rewrite ids_upd.
    - rewrite qok_tbl0. by apply tbl_upd.
    - by rewrite ids_upd.
    - by rewrite bytes_upd.
    - unfold l_upd. by rewrite fmap_length.
    - apply Forall_upd; [|done]. cbn. intros ? o [? ?]. split; by rewrite Hf.
  Qed.

  Lemma qok_find_hit r : r_id r ∈ ids l -> exists s', fifo_find s r true = Ok (s', true) /\
    qok sz md s' (l_upd (o_hit r) (r_id r) l).
  Proof.
    intros (o & Ho)%ids_elem. unfold fifo_find, cache_find_base. rewrite (proj2 (qok_lookup _ _) Ho).
    eexists. split; [done|]. by apply (qok_upd (o_hit r)).
  Qed.

  Lemma qok_lru_false r : lru_find s r false = Ok (s, bool_decide (r_id r ∈ ids l)).
  Proof.
    unfold lru_find. pose proof (qok_find_false r) as H. unfold fifo_find in H.
    destruct (cache_find_base _ _ _) as [c b]. rewrite andb_false_r. exact H.
  Qed.

  Lemma qok_lru_miss r u : r_id r ∉ ids l -> lru_find s r u = Ok (s, false).
  Proof.
    intros Hn. unfold lru_find. pose proof (qok_find_miss r u Hn) as H. unfold fifo_find in H.
    destruct (cache_find_base _ _ _) as [c b]. assert (b = false) as -> by congruence. exact H.
  Qed.

  Lemma qok_to_head id o : (id, o) ∈ l ->
    qok sz md (mkQ (q_c s) (q_to_head id (q_q s))) ((id, o) :: l_del id l).
  Proof.
    intros Ho. pose proof Ho as (l1 & l2 & El)%split_at. destruct HQ.
    assert (Hnd' : NoDup (ids (l_del id l))) by (rewrite ids_del; by apply NoDup_q_del).
    assert (Hnd2 : NoDup (ids ((id, o) :: l_del id l))).
    { cbn. apply NoDup_cons. split; [|done]. intros H. apply elem_ids_del in H. tauto. }
    split; cbn; try done.
    - unfold q_to_head. by rewrite ids_del, qok_q0.
    - rewrite qok_tbl0. unfold list_to_map at 2. cbn [foldr uncurry fst snd].
      fold (list_to_map (M := gmap Z cobj) (l_del id l)). rewrite <- tbl_del by done.
      rewrite insert_delete; [done|]. by apply tbl_lookup_Some.
    - rewrite qok_occ0. fold (bytes md (l_del id l)). rewrite (bytes_del md id o) by done. lia.
    - rewrite qok_nobj0. f_equal. symmetry. by apply length_del with o.
    - apply Forall_cons. split; [|by apply Forall_del]. rewrite Forall_forall in qok_osz0.
      by apply (qok_osz0 (id, o)).
  Qed.

  Lemma qok_can_insert r : q_can_insert s r = Ok (s, bool_decide (r_size r + md <= sz)).
  Proof.
    unfold q_can_insert, cache_can_insert_default. destruct HQ. rewrite qok_adm0. cbn.
    rewrite qok_md0, qok_size0.
    assert (c_set_adm (q_c s) AdmNone = q_c s) as ->.
    { unfold c_set_adm. rewrite <- qok_adm0. by destruct (q_c s). }
    destruct (decide _).
    - rewrite bool_decide_eq_false_2 by lia. by destruct s.
    - rewrite bool_decide_eq_true_2 by lia. by destruct s.
  Qed.

  Lemma qok_insert r : r_id r ∉ ids l -> req_ok md r -> 0 <= md -> exists s', q_insert s r = Ok s' /\
    qok sz md s' ((r_id r, obj_of_req r) :: l).
  Proof.
    intros Hn [? ?] ?. unfold q_insert, cache_insert_base. rewrite (proj2 (qok_lookup_None _) Hn). cbn.
    assert (Hu : u32 (r_size r) = r_size r) by (unfold u32; rewrite Z.mod_small; lia).
    eexists. split; [done|]. destruct HQ. split; cbn; try done.
    - by rewrite qok_q0.
    - by rewrite qok_tbl0.
    - by apply NoDup_cons.
    - fold (bytes md l). rewrite qok_occ0, Hu, qok_md0. lia.
    - lia.
    - apply Forall_cons. split; [|done]. unfold osz_ok. cbn. rewrite Hu. lia.
  Qed.

  Lemma qok_remove_miss id : id ∉ ids l -> q_remove s id = Ok (s, false).
  Proof. intros E%qok_lookup_None. unfold q_remove. by rewrite E. Qed.

  Lemma u32_osz o id : 0 <= md -> (id, o) ∈ l -> u32 (o_size o + md) = o_size o + md.
  Proof.
    intros ? Ho. pose proof (qok_osz _ _ _ _ HQ) as H9. rewrite Forall_forall in H9. apply H9 in Ho as [? ?].
    unfold u32. cbn in *. rewrite Z.mod_small; lia.
  Qed.

  Lemma qok_remove_hit id : 0 <= md -> id ∈ ids l -> exists s', q_remove s id = Ok (s', true) /\
    qok sz md s' (l_del id l).
  Proof.
    intros Hmd (o & Ho)%ids_elem. unfold q_remove, cache_remove_obj_base.
    rewrite (proj2 (qok_lookup _ _) Ho). cbn. eexists. split; [done|].
    pose proof (u32_osz _ _ Hmd Ho) as Hu. destruct HQ. split; cbn; try done.
    - by rewrite qok_q0, ids_del.
    - rewrite qok_tbl0. by apply tbl_del.
    - rewrite ids_del. by apply NoDup_q_del.
    - rewrite qok_occ0, qok_md0, Hu. by rewrite (bytes_del md id o) by done.
    - rewrite qok_nobj0. rewrite <- (length_del id o l) by done. lia.
    - by apply Forall_del.
  Qed.
End Ops.

Lemma l_del_upd f id l : l_del id (l_upd f id l) = l_del id l.
Proof.
  unfold l_del, l_upd. induction l as [|[j p] l IH]; [done|]. cbn [fmap list_fmap fst snd].
  destruct (decide (j = id)) as [->|Hne]; cbn [fst].
  - by rewrite !filter_cons_False by (cbn; tauto).
  - by rewrite !filter_cons_True, IH by done.
Qed.

Lemma elem_l_upd f id o l : (id, o) ∈ l -> (id, f o) ∈ l_upd f id l.
Proof.
  intros Ho. unfold l_upd. apply elem_of_list_fmap. exists (id, o). split; [|done]. cbn.
  by rewrite decide_True.
Qed.

Lemma qok_lru_hit sz md s l r : qok sz md s l -> r_id r ∈ ids l ->
  exists s' o', lru_find s r true = Ok (s', true) /\ (exists o, (r_id r, o) ∈ l /\ o' = o_hit r o) /\
    qok sz md s' ((r_id r, o') :: l_del (r_id r) l).
Proof.
  intros HQ Hin. pose proof Hin as (o & Ho)%ids_elem.
  unfold lru_find, cache_find_base. rewrite (proj2 (qok_lookup _ _ _ _ HQ _ _) Ho). cbn.
  eexists _, (o_hit r o). split; [done|]. split; [by exists o|].
  pose proof (qok_upd _ _ _ _ HQ (o_hit r) (r_id r) ltac:(done)) as HU.
  pose proof (qok_to_head _ _ _ _ HU (r_id r) (o_hit r o) (elem_l_upd _ _ _ _ Ho)) as HT.
  rewrite l_del_upd in HT. exact HT.
Qed.

Lemma qok_tick sz md s l : qok sz md s l -> qok sz md (q_tick s) l.
Proof. intros []. by split. Qed.

Lemma qok_init sz md : qok sz md (q_init sz md AdmNone) [].
Proof. split; cbn; try done; constructor. Qed.

Lemma removelast_snoc {A} (l : list A) x : removelast (l ++ [x]) = l.
Proof. by rewrite removelast_last. Qed.

Lemma qok_evict sz md s l id o r : 0 <= md -> qok sz md s (l ++ [(id, o)]) ->
  exists s', q_evict_tail s r = Ok s' /\ qok sz md s' l.
Proof.
  intros Hmd HQ. unfold q_evict_tail, cache_evict_base, cache_remove_obj_base.
  assert (Hin : (id, o) ∈ l ++ [(id, o)]) by (apply elem_of_app; right; left).
  pose proof (u32_osz _ _ _ _ HQ _ _ Hmd Hin) as Hu.
  rewrite (qok_q _ _ _ _ HQ), ids_app. cbn [ids fmap list_fmap]. rewrite last_snoc. cbn [fst].
  rewrite (proj2 (qok_lookup _ _ _ _ HQ _ _) Hin). cbn. eexists. split; [done|].
  pose proof (l_del_mid l id o [] (qok_nd _ _ _ _ HQ)) as Hd. rewrite app_nil_r in Hd.
  pose proof (NoDup_ids_mid l id o [] (qok_nd _ _ _ _ HQ)) as (_ & _ & Hnd). rewrite app_nil_r in Hnd.
  destruct HQ. split; cbn; try done.
  - by rewrite removelast_snoc.
  - by rewrite qok_tbl0, tbl_del, Hd.
  - rewrite qok_occ0, qok_md0, Hu, bytes_app. cbn. lia.
  - rewrite qok_nobj0, app_length. cbn. lia.
  - by apply Forall_app in qok_osz0 as [? _].
Qed.

Lemma qok_to_evict sz md s l id o r : qok sz md s (l ++ [(id, o)]) ->
  q_to_evict_tail s r = Ok (s, Some id).
Proof.
  intros HQ. unfold q_to_evict_tail. rewrite (qok_q _ _ _ _ HQ), ids_app. cbn. by rewrite last_snoc.
Qed.

Lemma qok_evict_nil sz md s r : qok sz md s [] -> q_evict_tail s r = Err NullDeref.
Proof. intros HQ. unfold q_evict_tail. by rewrite (qok_q _ _ _ _ HQ). Qed.

(** The longest prefix (the youngest objects) that leaves [need] bytes free. *)
Definition fits (sz md need : Z) (l1 l : qlist) : Prop :=
  exists l2, l = l1 ++ l2 /\ bytes md l1 + need <= sz /\
    match l2 with [] => True | x :: _ => bytes md (l1 ++ [x]) + need > sz end.

(** The eviction loop of cache_get_base on one FIFO or LRU queue. *)
Section GetQ.
  Context (O : ops qstate).
  Context (Oe : op_evict O = q_evict_tail) (Oocc : op_occupied O = q_occ)
          (Osz : op_size O = q_size) (Omd : op_md O = q_md).

  Lemma qok_evict_loop sz md r : 0 <= md -> forall l s fuel, (length l <= fuel)%nat ->
    qok sz md s l -> r_size r + md <= sz ->
    exists s' l1, evict_loop O fuel s r = Ok s' /\ qok sz md s' l1 /\ fits sz md (r_size r + md) l1 l.
  Proof.
    intros Hmd l. induction l as [|[id o] l IH] using rev_ind; intros s fuel Hf HQ Hr.
    - exists s, []. split_and!; [|done|].
      + assert (Hl : op_occupied O s + r_size r + op_md O s <= op_size O s).
        { rewrite Oocc, Omd, Osz. unfold q_occ, q_md, q_size. destruct HQ. cbn in *. lia. }
        destruct fuel; cbn; by rewrite decide_False by lia.
      + exists []. cbn. split_and!; [done|lia|done].
    - rewrite app_length in Hf. cbn in Hf. destruct fuel as [|fuel]; [lia|]. cbn [evict_loop].
      assert (Hocc : op_occupied O s + r_size r + op_md O s = bytes md (l ++ [(id, o)]) + (r_size r + md)).
      { rewrite Oocc, Omd. unfold q_occ, q_md. destruct HQ. lia. }
      assert (Hs : op_size O s = sz) by (rewrite Osz; apply HQ).
      destruct (decide _) as [Hgt|Hle].
      + rewrite Oe. destruct (qok_evict _ _ _ _ _ _ r Hmd HQ) as (s1 & -> & HQ1). cbn [rbind].
        destruct (IH s1 fuel ltac:(lia) HQ1 Hr) as (s' & l1 & He & HQ' & (l2 & -> & Hb & Hm)).
        exists s', l1. split_and!; [done|done|]. exists (l2 ++ [(id, o)]).
        split_and!; [by rewrite app_assoc|done|]. destruct l2 as [|x l2]; cbn.
        * rewrite app_nil_r in *. lia.
        * done.
      + exists s, (l ++ [(id, o)]). split_and!; [done|done|]. exists [].
        split_and!; [by rewrite app_nil_r|lia|done].
  Qed.
End GetQ.

(** A get on a ghost queue or on a segment, when the object is not there. *)
Lemma qok_get_miss (O : ops qstate) sz md s l r fuel :
  op_tick O = q_tick -> op_can_insert O = q_can_insert -> op_insert O = q_insert ->
  op_evict O = q_evict_tail -> op_occupied O = q_occ -> op_size O = q_size -> op_md O = q_md ->
  op_find O (q_tick s) r true = Ok (q_tick s, false) ->
  0 <= md -> qok sz md s l -> req_ok md r -> r_id r ∉ ids l -> (length l <= fuel)%nat ->
  exists s' l', cache_get_base O fuel s r = Ok (s', false) /\ qok sz md s' l' /\
    (if decide (r_size r + md <= sz)
     then exists l1, fits sz md (r_size r + md) l1 l /\ l' = (r_id r, obj_of_req r) :: l1
     else l' = l).
Proof.
  intros Ot Oc Oi Oe Oo Os Om Hfind Hmd HQ Hr Hn Hf. apply qok_tick in HQ.
  unfold cache_get_base. rewrite Ot, Hfind. cbn [rbind]. rewrite Oc, (qok_can_insert _ _ _ _ HQ). cbn [rbind].
  destruct (decide _) as [Hfit|Hfit].
  - rewrite bool_decide_eq_true_2 by done.
    destruct (qok_evict_loop O Oe Oo Os Om sz md r Hmd l _ fuel Hf HQ Hfit) as (s1 & l1 & -> & HQ1 & Hl1).
    cbn [rbind]. rewrite Oi. destruct (qok_insert _ _ _ _ HQ1 r) as (s2 & -> & HQ2); [|done|done|].
    { destruct Hl1 as (l2 & -> & _). intros H. apply Hn. rewrite ids_app. apply elem_of_app. by left. }
    cbn [rbind]. eexists _, _. split_and!; [done|exact HQ2|]. by exists l1.
  - rewrite bool_decide_eq_false_2 by done. eexists _, _. split_and!; [done|exact HQ|done].
Qed.

Lemma fifo_get_miss sz md s l r fuel :
  0 <= md -> qok sz md s l -> req_ok md r -> r_id r ∉ ids l -> (length l <= fuel)%nat ->
  exists s' l', cache_get_base fifo_ops fuel s r = Ok (s', false) /\ qok sz md s' l' /\
    (if decide (r_size r + md <= sz)
     then exists l1, fits sz md (r_size r + md) l1 l /\ l' = (r_id r, obj_of_req r) :: l1
     else l' = l).
Proof.
  intros ? HQ ? ? ?. apply (qok_get_miss fifo_ops); try done.
  cbn [op_find fifo_ops]. by apply (qok_find_miss _ _ _ _ (qok_tick _ _ _ _ HQ)).
Qed.

Lemma lru_get_miss sz md s l r fuel :
  0 <= md -> qok sz md s l -> req_ok md r -> r_id r ∉ ids l -> (length l <= fuel)%nat ->
  exists s' l', cache_get_base lru_ops fuel s r = Ok (s', false) /\ qok sz md s' l' /\
    (if decide (r_size r + md <= sz)
     then exists l1, fits sz md (r_size r + md) l1 l /\ l' = (r_id r, obj_of_req r) :: l1
     else l' = l).
Proof.
  intros ? HQ ? ? ?. apply (qok_get_miss lru_ops); try done.
  cbn [op_find lru_ops]. by apply (qok_lru_miss _ _ _ _ (qok_tick _ _ _ _ HQ)).
Qed.
