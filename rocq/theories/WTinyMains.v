(** The main caches of W-TinyLFU that meet [main_ok]. *)
From stdpp Require Import gmap list numbers fin_maps.
From Verif Require Import Base Driver Abs AbsFacts Sim ModelQueue QueueFacts QList SpecApi SpecComp CompFacts ModelTwoQ S3Facts
  ModelSLRU SpecSLRU SLRUFacts PropsSLRU SpecWTiny WTinyFacts.
Open Scope Z_scope.

(** Any cache that keeps the contract of a single-queue cache (Sim.v). *)
Section OfSim.
  Context {M : Type} (pol : policy) (O : ops M) (R : M -> abs -> Prop) (msz : Z).
  Context (HS : simulation pol O msz 0 (req_ok 0) R).

  Definition sim_MR (m : M) (L : gmap Z Z) : Prop :=
    exists t mm, R m (mkAbs t mm AdmNone) /\ abs_ok msz 0 (mkAbs t mm AdmNone) /\ L = e_size <$> mm.

  Lemma zsum_msum (mm : gmap Z entry) : zsum (e_size <$> mm) = msum 0 mm.
  Proof.
    induction mm as [|id e mm Hn IH] using map_ind.
    - by rewrite fmap_empty, zsum_empty, msum_empty.
    - rewrite fmap_insert, zsum_insert, msum_insert, IH; [lia|done|]. by rewrite lookup_fmap, Hn.
  Qed.

  Lemma sim_some (mm : gmap Z entry) id : is_Some ((e_size <$> mm) !! id) <-> is_Some (mm !! id).
  Proof. by rewrite lookup_fmap, fmap_is_Some. Qed.

  Theorem main_of_sim : main_ok O msz (fun _ => True) (fun z => z <= msz) false true true sim_MR.
  Proof.
    split.
    - done.
    - intros m L (t & mm & HR & _). by apply (sim_size _ _ _ _ _ _ HS _ _ HR).
    - intros m L (t & mm & HR & _ & ->). rewrite zsum_msum. by apply (sim_occ _ _ _ _ _ _ HS _ _ HR).
    - intros m L (t & mm & HR & _ & ->). rewrite map_size_fmap. by apply (sim_nobj _ _ _ _ _ _ HS _ _ HR).
    - intros m L id z (t & mm & HR & Hok & ->). rewrite lookup_fmap_Some. intros (e & <- & He).
      destruct Hok as (_ & Hx & _). specialize (Hx _ _ He). lia.
    - intros m L (t & mm & HR & Hok & ->) _. rewrite zsum_msum. apply Hok.
    - intros m L r (t & mm & HR & _ & ->). rewrite (sim_find_false _ _ _ _ _ _ HS _ _ r HR). cbn [a_m].
      do 2 f_equal. apply bool_decide_ext. by rewrite sim_some.
    - intros m L r (t & mm & HR & Hok & ->). destruct (mm !! r_id r) as [e|] eqn:E.
      + destruct (sim_find_hit _ _ _ _ _ _ HS _ _ _ _ r e Hok HR E) as (m' & Hf & HR').
        assert (Heq : e_size <$> <[r_id r := touch t r e]> mm = e_size <$> mm).
        { rewrite fmap_insert. apply insert_id. rewrite lookup_fmap, E. done. }
        exists m', (e_size <$> mm). rewrite bool_decide_eq_true_2 by (rewrite sim_some, E; eauto).
        split_and!; try done. exists (t + 1), (<[r_id r := touch t r e]> mm). split_and!; try done. by apply abs_ok_touch.
      + destruct (sim_find_miss _ _ _ _ _ _ HS _ _ r HR E) as (m' & Hf & HR').
        exists m', (e_size <$> mm). rewrite bool_decide_eq_false_2 by (rewrite sim_some, E; by intros [? ?]).
        split_and!; try done. by exists t, mm.
    - intros m L r (t & mm & HR & Hok & ->) _. destruct (sim_can _ _ _ _ _ _ HS _ _ _ _ r HR) as (m' & Hc & HR').
      cbn in Hc. exists m', (bool_decide (r_size r + 0 <= msz)). split_and!; try done.
      + rewrite bool_decide_eq_true. lia.
      + by exists t, mm.
    - intros m L r (t & mm & HR & Hok & ->) Hn Hr Hf [?|Hroom]; [done|]. rewrite zsum_msum in Hroom.
      assert (Hn' : mm !! r_id r = None).
      { rewrite lookup_fmap in Hn. by destruct (mm !! r_id r). }
      destruct (sim_insert _ _ _ _ _ _ HS _ _ _ _ r Hok HR Hn' Hr ltac:(lia)) as (m' & Hi & HR').
      exists m', (e_size <$> mm). split_and!; try done.
      exists (t + 1), (<[r_id r := fresh t r]> mm). split_and!; try done.
      + eapply (abs_ok_fresh _ _ _ _ AdmNone); [done..|lia].
      + by rewrite fmap_insert.
    - intros m L r (t & mm & HR & Hok & ->) Hne.
      assert (Hne' : mm <> ∅) by (intros ->; by rewrite fmap_empty in Hne).
      destruct (sim_evict _ _ _ _ _ _ HS _ _ _ _ r Hok HR Hne') as (m1 & v & m2 & Ht & HR1 & Hv & _ & He & HR2 & H3).
      destruct (H3 r) as (m3 & He3 & HR3).
      assert (Hd : forall m', R m' (mkAbs t (delete v mm) AdmNone) -> sim_MR m' (delete v (e_size <$> mm))).
      { intros m' Hm'. exists t, (delete v mm). split_and!; try done; [by apply abs_ok_delete|]. by rewrite fmap_delete. }
      exists m1, v, m2. split_and!; try done.
      + by exists t, mm.
      + by rewrite sim_some.
      + by apply Hd.
      + exists m3. split; [done|]. by apply Hd.
    - intros m L id _ (t & mm & HR & Hok & ->).
      destruct (sim_remove _ _ _ _ _ _ HS _ _ _ _ id Hok HR) as (m' & Hrm & HR').
      exists m'. split; [rewrite Hrm; do 2 f_equal; apply bool_decide_ext; by rewrite sim_some|].
      exists t, (delete id mm). split_and!; try done; [by apply abs_ok_delete|]. by rewrite fmap_delete.
  Qed.
End OfSim.

(** LRU and FIFO, which can also be given an object they have no room for. *)
Section OfQueue.
  Context (O : ops qstate) (msz : Z).
  Context (HO : (O = fifo_ops) \/ (O = lru_ops)).

  Definition q_MR (m : qstate) (L : gmap Z Z) : Prop :=
    exists l, qok msz 0 m l /\ L = list_to_map (szs l).

  Lemma szs_nodup sz md m l : qok sz md m l -> NoDup (szs l).*1.
  Proof. intros H. rewrite szs_ids. apply H. Qed.

  Lemma szs_lookup (l : qlist) id z : NoDup (szs l).*1 ->
    (list_to_map (szs l) : gmap Z Z) !! id = Some z <-> exists o, (id, o) ∈ l /\ o_size o = z.
  Proof.
    intros Hnd. rewrite <- elem_of_list_to_map by done. unfold szs. rewrite elem_of_list_fmap. split.
    - intros ([j o] & [= -> ->] & Hj). eauto.
    - intros (o & Ho & <-). by exists (id, o).
  Qed.

  Lemma szs_is_Some (l : qlist) id : is_Some ((list_to_map (szs l) : gmap Z Z) !! id) <-> id ∈ ids l.
  Proof.
    rewrite <- (szs_ids l). destruct ((list_to_map (szs l) : gmap Z Z) !! id) eqn:E.
    - split; [intros _|eauto]. apply elem_of_list_to_map_2 in E. by apply (elem_of_list_fmap_1 fst) in E.
    - apply not_elem_of_list_to_map in E. split; [by intros [? ?]|done].
  Qed.
  Lemma szs_None (l : qlist) id : (list_to_map (szs l) : gmap Z Z) !! id = None <-> id ∉ ids l.
  Proof. rewrite <- szs_is_Some, eq_None_not_Some. done. Qed.

  Lemma szs_zsum (l : qlist) : NoDup (szs l).*1 -> zsum (list_to_map (szs l)) = bytes 0 l.
  Proof.
    induction l as [|[j o] l IH]; [done|]. rewrite bytes_cons. cbn [szs fmap list_fmap list_to_map fst snd foldr uncurry].
    fold (szs l). intros [Hn Hnd]%NoDup_cons. rewrite zsum_insert, IH by (done || by apply not_elem_of_list_to_map).
    cbn. lia.
  Qed.
  Lemma szs_size (l : qlist) : NoDup (szs l).*1 -> size (list_to_map (szs l) : gmap Z Z) = length l.
  Proof.
    induction l as [|[j o] l IH]; [done|]. cbn [szs fmap list_fmap list_to_map fst snd foldr uncurry length].
    fold (szs l). intros [Hn Hnd]%NoDup_cons. rewrite map_size_insert_None, IH by (done || by apply not_elem_of_list_to_map).
    done.
  Qed.
  Lemma szs_delete id (l : qlist) : list_to_map (szs (l_del id l)) = delete id (list_to_map (szs l) : gmap Z Z).
  Proof.
    induction l as [|[j o] l IH]; [cbn; by rewrite delete_empty|]. unfold l_del in *. rewrite filter_cons. cbn [fst].
    destruct (decide (j <> id)) as [Hne|He]; cbn [szs fmap list_fmap list_to_map fst snd foldr uncurry].
    - fold (szs l) (szs (filter (fun x : Z * cobj => x.1 <> id) l)). rewrite delete_insert_ne by done. by rewrite <- IH.
    - fold (szs l). assert (j = id) as -> by (by apply dec_stable). by rewrite delete_insert_delete, <- IH.
  Qed.

  Lemma szs_upd f id (l : qlist) : (forall o, o_size (f o) = o_size o) -> szs (l_upd f id l) = szs l.
  Proof.
    intros Hf. unfold szs, l_upd. rewrite <- list_fmap_compose. apply list_fmap_ext. intros ? [j o] _. cbn.
    destruct (decide _); cbn; [by rewrite Hf|done].
  Qed.
  Lemma szs_head id o o' (l : qlist) : NoDup (szs l).*1 -> (id, o) ∈ l -> o_size o' = o_size o ->
    list_to_map (szs ((id, o') :: l_del id l)) = (list_to_map (szs l) : gmap Z Z).
  Proof.
    intros Hnd Ho He. cbn [szs fmap list_fmap list_to_map fst snd foldr uncurry]. fold (szs (l_del id l)).
    rewrite szs_delete, insert_delete_insert. apply insert_id. apply szs_lookup; [done|]. exists o. by rewrite He.
  Qed.

  Theorem main_of_queue : main_ok O msz (fun _ => True) (fun z => z <= msz) true true true q_MR.
  Proof.
    assert (EO : op_can_insert O = q_can_insert /\ op_insert O = q_insert /\ op_evict O = q_evict_tail /\
      op_to_evict O = q_to_evict_tail /\ op_remove O = q_remove /\ op_occupied O = q_occ /\ op_nobj O = q_nobj /\
      op_size O = q_size) by (destruct HO as [-> | ->]; done).
    destruct EO as (E1 & E2 & E3 & E4 & E5 & E6 & E7 & E8).
    split; rewrite ?E1, ?E2, ?E3, ?E4, ?E5, ?E6, ?E7, ?E8; unfold q_size, q_occ, q_nobj.
    - done.
    - intros m L (l & Hq & _). apply Hq.
    - intros m L (l & Hq & ->). rewrite szs_zsum by (by eapply szs_nodup). apply Hq.
    - intros m L (l & Hq & ->). rewrite szs_size by (by eapply szs_nodup). apply Hq.
    - intros m L id z (l & Hq & ->). rewrite szs_lookup by (by eapply szs_nodup). intros (o & Ho & <-).
      pose proof (osz_elem _ _ _ _ _ Hq Ho). lia.
    - done.
    - intros m L r (l & Hq & ->). assert (Hf : op_find O m r false = Ok (m, bool_decide (r_id r ∈ ids l))).
      { destruct HO as [-> | ->]; [by apply qok_find_false with (sz := msz) (md := 0)|by apply qok_lru_false with (sz := msz) (md := 0)]. }
      rewrite Hf. do 2 f_equal. apply bool_decide_ext. by rewrite szs_is_Some.
    - intros m L r (l & Hq & ->).
      rewrite (bool_decide_ext _ _ (szs_is_Some l (r_id r))).
      pose proof (szs_nodup _ _ _ _ Hq) as Hnd.
      destruct (decide (r_id r ∈ ids l)) as [Hi|Hi].
      + rewrite bool_decide_eq_true_2 by done.
        assert (exists m', op_find O m r true = Ok (m', true) /\ q_MR m' (list_to_map (szs l))) as (m' & Hf & Hm').
        { destruct HO as [-> | ->].
          - destruct (qok_find_hit _ _ _ _ Hq r Hi) as (m' & Hf & Hq'). exists m'. split; [exact Hf|].
            eexists. split; [exact Hq'|]. by rewrite szs_upd.
          - destruct (qok_lru_hit _ _ _ _ r Hq Hi) as (m' & o' & Hf & (o & Ho & ->) & Hq'). exists m'. split; [exact Hf|].
            eexists. split; [exact Hq'|]. by rewrite (szs_head _ o). }
        exists m', (list_to_map (szs l)). done.
      + rewrite bool_decide_eq_false_2 by done. exists m, (list_to_map (szs l)). split_and!; try done.
        * destruct HO as [-> | ->]; [by apply (qok_find_miss _ _ _ _ Hq)|by apply (qok_lru_miss _ _ _ _ Hq)].
        * by exists l.
    - intros m L r (l & Hq & ->) _. eexists _, _. split; [by apply (qok_can_insert _ _ _ _ Hq)|]. split.
      + rewrite bool_decide_eq_true. lia.
      + by exists l.
    - intros m L r (l & Hq & ->) Hn Hr _ _. rewrite szs_None in Hn.
      destruct (qok_insert _ _ _ _ Hq r Hn Hr (Z.le_refl 0)) as (m' & Hi & Hq').
      exists m', (list_to_map (szs l)). split_and!; try done. eexists. split; [exact Hq'|].
      pose proof (o_size_of_req _ _ Hr (Z.le_refl 0)) as Hos. set (o := obj_of_req r) in *. clearbody o.
      cbn [szs fmap list_fmap list_to_map fst snd foldr uncurry]. by rewrite Hos.
    - intros m L r (l & Hq & ->) Hne. destruct l as [|[v o] l _] using rev_ind; [done|].
      destruct (qok_evict _ _ _ _ _ _ r (Z.le_refl 0) Hq) as (m2 & He & Hq2).
      assert (Hd : delete v (list_to_map (szs (l ++ [(v, o)]))) = (list_to_map (szs l) : gmap Z Z)).
      { rewrite <- szs_delete. rewrite (l_del_mid l v o []); [by rewrite app_nil_r|]. apply Hq. }
      assert (Hm2 : q_MR m2 (delete v (list_to_map (szs (l ++ [(v, o)]))))) by (rewrite Hd; by exists l).
      exists m, v, m2. split_and!; try done.
      + by apply (qok_to_evict _ _ _ _ _ _ r Hq).
      + by exists (l ++ [(v, o)]).
      + rewrite szs_is_Some, ids_app. apply elem_of_app. right. left.
      + exists m2. done.
    - intros m L id _ (l & Hq & ->). rewrite (bool_decide_ext _ _ (szs_is_Some l id)). rewrite <- szs_delete.
      destruct (decide (id ∈ ids l)) as [Hi|Hi].
      + rewrite bool_decide_eq_true_2 by done.
        destruct (qok_remove_hit _ _ _ _ Hq id (Z.le_refl 0) Hi) as (m' & Hrm & Hq'). exists m'. split; [done|]. by exists (l_del id l).
      + rewrite bool_decide_eq_false_2 by done. exists m. split; [by apply (qok_remove_miss _ _ _ _ Hq)|].
        exists l. by rewrite l_del_notin.
  Qed.

  Lemma q_MR_init : q_MR (q_init msz 0 AdmNone) ∅.
  Proof. exists []. split; [apply qok_init|done]. Qed.
End OfQueue.

(** Segmented LRU, the default: no remove, all sizes positive. *)
Section OfSLRU.
  Context (ms : list Z) (msz : Z).
  Context (Hms : Forall (fun m => 0 <= m) ms) (Hn : (0 < length ms)%nat).

  Definition sl_MR (m : slru) (L : gmap Z Z) : Prop :=
    exists a, srel ms msz m a /\ PropsSLRU.good ms msz a /\ ss_adm a = AdmNone /\ L = list_to_map (concat (ss_segs a)).

  Lemma ltm_perm (l l' : list (Z * Z)) : NoDup l.*1 -> l ≡ₚ l' -> (list_to_map l : gmap Z Z) = list_to_map l'.
  Proof. intros. by apply list_to_map_proper. Qed.
  Lemma ltm_zsum (l : list (Z * Z)) : NoDup l.*1 -> zsum (list_to_map l) = total_bytes l.
  Proof.
    induction l as [|[j z] l IH]; [done|]. cbn [fmap list_fmap list_to_map fst foldr uncurry].
    intros [Hx Hnd]%NoDup_cons. rewrite zsum_insert, IH by (done || by apply not_elem_of_list_to_map). done.
  Qed.
  Lemma ltm_size (l : list (Z * Z)) : NoDup l.*1 -> size (list_to_map l : gmap Z Z) = length l.
  Proof.
    induction l as [|[j z] l IH]; [done|]. cbn [fmap list_fmap list_to_map fst foldr uncurry length].
    intros [Hx Hnd]%NoDup_cons. rewrite map_size_insert_None, IH by (done || by apply not_elem_of_list_to_map). done.
  Qed.

  Lemma sl_lookup m a id : srel ms msz m a ->
    is_Some ((list_to_map (concat (ss_segs a)) : gmap Z Z) !! id) <-> is_Some (c_tbl (sl_c m) !! id).
  Proof.
    intros H. split.
    - intros [z Hz]. apply elem_of_list_to_map_2, concat_inseg in Hz as [i Hz]. apply (sr_tbl _ _ _ _ H) in Hz as (o & Ho & _). eauto.
    - intros [o Ho]. pose proof (srel_find _ _ _ _ _ _ H Ho) as Hin%inseg_concat.
      exists (o_size o). by apply elem_of_list_to_map_1; [apply H|].
  Qed.

  Lemma ltm_sub out (l l' : list (Z * Z)) : NoDup l.*1 -> l ≡ₚ out ++ l' ->
    (list_to_map l' : gmap Z Z) ⊆ list_to_map l.
  Proof.
    intros Hnd HP. apply map_subseteq_spec. intros id z Hz. apply elem_of_list_to_map_2 in Hz.
    apply elem_of_list_to_map_1; [done|]. rewrite HP. apply elem_of_app. by right.
  Qed.

  Lemma hit_keeps m a id o : srel ms msz m a -> c_tbl (sl_c m) !! id = Some o ->
    (id, o_size o) ∈ concat (spec_hit ms (ss_segs a) id (Z.to_nat (o_p1 o)) (o_size o)).
  Proof.
    intros H E. pose proof (srel_find _ _ _ _ _ _ H E) as (l & El & Hl). set (i := Z.to_nat (o_p1 o)) in *.
    pose proof (lookup_lt_Some _ _ _ El) as Hlt. pose proof (sr_len _ _ _ _ H) as Hlen.
    assert (Hc : forall segs j M, (j < length segs)%nat -> segs !!! j = (id, o_size o) :: M -> (id, o_size o) ∈ concat segs).
    { intros segs j M Hj Ej. eapply inseg_concat. exists (segs !!! j).
      split; [by apply list_lookup_lookup_total_lt|]. rewrite Ej. left. }
    unfold spec_hit. case_decide as Hd.
    - eapply (Hc _ i); [by rewrite insert_length|]. by rewrite list_lookup_total_insert.
    - destruct (settle_head ms Hms (S i) (<[S i:=(id, o_size o) :: ss_segs a !!! S i]>
                    (<[i:=without id (ss_segs a !!! i)]> (ss_segs a))) (id, o_size o)
                    (ss_segs a !!! S i)) as (j & M & Hj & E1 & _).
      + rewrite !insert_length. lia.
      + by rewrite list_lookup_total_insert by (rewrite insert_length; lia).
      + assert (A := sr_ok _ _ m a H). rewrite Forall_forall in A.
        assert (osz_ok ms (id, o_size o)) as (_ & ? & _); [|done]. apply A.
        eapply inseg_concat. exists l. done.
      + eapply (Hc _ j); [|exact E1]. by rewrite settle_length, !insert_length in *.
  Qed.

  Theorem main_of_slru : main_ok slru_ops msz (fun z => 0 < z < 2 ^ 32) (fun z => 0 < z < 2 ^ 32 /\ z <= msz /\ z <= ms !!! 0%nat) false false false sl_MR.
  Proof.
    split.
    - lia.
    - intros m L (a & H & _). apply H.
    - intros m L (a & H & _ & _ & ->). rewrite ltm_zsum by apply H. apply H.
    - intros m L (a & H & _ & _ & ->). rewrite ltm_size by apply H. apply H.
    - intros m L id z (a & H & _ & _ & ->) Hz%elem_of_list_to_map_2. pose proof (sr_ok _ _ _ _ H) as HF.
      rewrite Forall_forall in HF. apply HF in Hz as (? & _). cbn in *. lia.
    - intros m L (a & H & [_ Hh] & _ & ->) _. by rewrite ltm_zsum by apply H.
    - intros m L r (a & H & _ & _ & ->). cbn [op_find slru_ops]. unfold slru_find.
      rewrite (bool_decide_ext _ _ (sl_lookup m a (r_id r) H)). destruct (c_tbl (sl_c m) !! r_id r) eqn:E.
      + by rewrite bool_decide_eq_true_2 by eauto.
      + by rewrite bool_decide_eq_false_2 by (by intros [? ?]).
    - intros m L r (a & H & Hg & Ha & ->). cbn [op_find slru_ops].
      rewrite (bool_decide_ext _ _ (sl_lookup m a (r_id r) H)).
      destruct (c_tbl (sl_c m) !! r_id r) as [o|] eqn:E.
      + rewrite bool_decide_eq_true_2 by eauto.
        destruct (rel_hit ms msz Hms Hn m a r o H Hg E) as (m' & Hf & H' & Hg' & _).
        pose proof (srel_find _ _ _ _ _ _ H E) as Hin.
        destruct (hit_sub ms Hn (ss_segs a) (r_id r) (Z.to_nat (o_p1 o)) (o_size o)) as [out P]; [apply H|apply H|done|].
        eexists m', _. split; [exact Hf|]. split; [eexists; split; [exact H'|]; split_and!; done|].
        split; [eapply ltm_sub; [apply H|exact P]|]. split; [|intros [?|HN]].
        * intros _. exists (o_size o). apply elem_of_list_to_map_1; [apply H'|]. by apply (hit_keeps m a).
        * done.
        * apply not_elem_of_list_to_map in HN. exfalso. apply HN. apply inseg_concat in Hin.
          by apply (elem_of_list_fmap_1 fst) in Hin.
      + rewrite bool_decide_eq_false_2 by (by intros [? ?]).
        eexists m, _. split; [unfold slru_find; by rewrite E|]. split; [by exists a|]. done.
    - intros m L r (a & H & Hg & Ha & ->) Hr. cbn [op_can_insert slru_ops]. unfold slru_can_insert, cache_can_insert_default.
      rewrite (sr_adm _ _ _ _ H), Ha. cbn [admit].
      rewrite (sr_md _ _ _ _ H), (sr_cap _ _ _ _ H), Z.add_0_r.
      assert (HR : srel ms msz (sl_set_c m (c_set_adm (sl_c m) AdmNone)) (mkSS (ss_segs a) AdmNone)) by (by apply srel_adm).
      destruct (decide (r_size r > msz)).
      + eexists _, false. split; [done|]. split; [split; [done|lia]|]. eexists. split; [exact HR|]. done.
      + cbn [sl_set_c sl_max c_md c_set_adm]. rewrite (sr_max _ _ _ _ H). unfold at_.
        destruct (lookup_lt_is_Some_2 ms 0%nat Hn) as [m0 Em]. rewrite Em. cbn [rbind].
        rewrite (list_lookup_total_correct _ _ _ Em), (sr_md _ _ _ _ H), Z.add_0_r.
        eexists _, _. split; [done|]. split; [rewrite bool_decide_eq_true; lia|]. eexists. split; [exact HR|]. done.
    - intros m L r (a & H & Hg & Ha & ->) HN Hr (Hz & Hs & Hs0) [?|Hroom]; [done|].
      rewrite ltm_zsum in Hroom by apply H. cbn [op_insert slru_ops].
      assert (En : c_tbl (sl_c m) !! r_id r = None).
      { destruct (c_tbl (sl_c m) !! r_id r) eqn:E; [|done]. exfalso. apply eq_None_not_Some in HN. apply HN.
        apply (sl_lookup m a _ H). rewrite E. eauto. }
      destruct (srel_insert ms msz m a r H Hn En Hz Hs0 Hroom) as (m' & Hi & H').
      pose proof (place_perm ms Hn (ss_segs a) (r_id r) (r_size r) (sr_len _ _ _ _ H)) as HP.
      exists m', (list_to_map (concat (ss_segs a))). split; [exact Hi|]. split; [|done].
      eexists. split; [exact H'|]. cbn [ss_segs ss_adm]. split_and!; [split; cbn [ss_segs]|done|].
      + apply place_limits; [done|apply H|apply Hg].
      + unfold held. rewrite (total_perm _ _ HP), total_cons. cbn. unfold held in Hroom. lia.
      + assert (Hnd : NoDup (concat (place ms (ss_segs a) (r_id r) (r_size r))).*1) by (destruct H'; done). by rewrite (ltm_perm _ _ Hnd HP).
    - intros m L r (a & H & Hg & Ha & ->) Hne.
      assert (Hc : concat (ss_segs a) <> []) by (intros E; by rewrite E in Hne).
      destruct (srel_evict ms msz m a r H Hc) as (m2 & He & H2).
      pose proof (srel_victim ms msz m a H) as Hv.
      destruct (evict_low_spec (ss_segs a)) as [(A & _)|(i & l & [v z] & A & B & C & _)].
      { exfalso. apply Hc. clear -A. induction A as [|l segs -> A IH]; done. }
      assert (HP : concat (ss_segs a) ≡ₚ (v, z) :: concat (evict_low (ss_segs a))).
      { rewrite C. pose proof (concat_pop (ss_segs a) i l [(v, z)] []) as P. rewrite !app_nil_r in P. by apply P. }
      assert (Hnd : NoDup (concat (ss_segs a)).*1) by apply H.
      assert (Hd : delete v (list_to_map (concat (ss_segs a))) = (list_to_map (concat (evict_low (ss_segs a))) : gmap Z Z)).
      { rewrite (ltm_perm _ _ Hnd HP). cbn. apply delete_insert. apply not_elem_of_list_to_map.
        rewrite HP in Hnd. cbn in Hnd. apply NoDup_cons in Hnd. tauto. }
      assert (HM2 : sl_MR m2 (delete v (list_to_map (concat (ss_segs a))))).
      { eexists. split; [exact H2|]. rewrite Hd. split_and!; try done. split; cbn [ss_segs].
        - apply evict_limits; [done|by eapply srel_nonneg|apply Hg].
        - pose proof (evict_held ms Hn (ss_segs a)) as Hh. specialize (Hh ltac:(by eapply srel_nonneg)). destruct Hg as [_ ?]. lia. }
      exists m, v, m2. split_and!; try done.
      + cbn. unfold slru_to_evict. by rewrite Hv, B.
      + by exists a.
      + exists z. apply elem_of_list_to_map_1; [done|]. rewrite HP. left.
      + exists m2. done.
    - done.
  Qed.

  Lemma sl_MR_init : 0 <= msz -> sl_MR (slru_init false msz ms AdmNone) ∅.
  Proof.
    intros Hz. exists (spec_start ms AdmNone). split; [by apply rel_init|]. split; [by apply good_init|]. split; [done|].
    cbn [spec_start ss_segs]. by rewrite concat_nils.
  Qed.
End OfSLRU.
