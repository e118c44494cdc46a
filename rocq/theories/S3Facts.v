(** What every operation of the S3-FIFO model does to the three queues, and the
    invariant that all client programs preserve. *)
From stdpp Require Import gmap list numbers fin_maps.
From Verif Require Import Base Driver ModelQueue QueueFacts QList CompFacts ModelTwoQ ModelS3FIFO.
Open Scope Z_scope.

(** The optional ghost queue. *)
Definition gok (gsz : Z) (g : option qstate) (l : qlist) : Prop :=
  match g with
  | Some q => qok gsz 0 q l /\ bytes 0 l <= gsz
  | None => l = []
  end.

(** [H id]: the number of hits that [id] should have on its counter while it is
    in the small queue. *)
Definition allH (H : Z -> Z) (l : qlist) : Prop := Forall (fun x => o_p1 x.2 = H x.1) l.

Record sok (G : Z -> Z -> Prop) (H : Z -> Z) (cap fsz gsz thr : Z) (s : s3) (lf lg lm : qlist) : Prop := mkSok {
  sok_f   : qok fsz 0 (s_fifo s) lf;
  sok_g   : gok gsz (s_gq s) lg;
  sok_m   : qok (cap - fsz) 0 (s_main s) lm;
  sok_sz  : s_size s = cap;
  sok_thr : s_thr s = thr;
  sok_fg  : disj lf lg;
  sok_fm  : disj lf lm;
  sok_gm  : disj lg lm;
  sok_cap : bytes 0 lf + bytes 0 lm <= cap;
  sok_Gf  : allG G lf;
  sok_Gg  : allG G lg;
  sok_Gm  : allG G lm;
  sok_H   : allH H lf
}.

(** What the scan of the main queue needs: the sum of its counters. *)
Definition wsum (l : qlist) : Z := foldr (fun x acc => Z.max 0 (o_p1 x.2) + acc) 0 l.

Lemma wsum_app l1 l2 : wsum (l1 ++ l2) = wsum l1 + wsum l2.
Proof. unfold wsum. induction l1 as [|x l1 IH]; cbn in *; lia. Qed.
Lemma wsum_cons x l : wsum (x :: l) = Z.max 0 (o_p1 x.2) + wsum l.
Proof. done. Qed.
Lemma wsum_nonneg l : 0 <= wsum l.
Proof. unfold wsum. induction l; cbn in *; lia. Qed.

Lemma clock_bound_wsum sz md q l : qok sz md q l -> clock_bound (q_c q) (q_q q) = Z.to_nat (wsum l).
Proof.
  intros HQ. unfold clock_bound. f_equal. rewrite (qok_q _ _ _ _ HQ).
  assert (Hl : forall l', (forall x, x ∈ l' -> x ∈ l) ->
    foldr (fun x acc => match c_tbl (q_c q) !! x with Some o => Z.max 0 (o_p1 o) + acc | None => acc end) 0 (ids l')
    = wsum l').
  { induction l' as [|[j o] l' IH]; intros Hs; [done|]. cbn [ids fmap list_fmap foldr].
    fold (ids l'). rewrite IH by (intros; apply Hs; by right).
    assert (Hj : (j, o) ∈ l) by (apply Hs; left).
    cbn [fst]. rewrite (proj2 (qok_lookup _ _ _ _ HQ j o) Hj). done. }
  by apply Hl.
Qed.

Lemma qok_snoc_lookup sz md q l v o : qok sz md q (l ++ [(v, o)]) ->
  last (q_q q) = Some v /\ c_tbl (q_c q) !! v = Some o.
Proof.
  intros HQ. split.
  - rewrite (qok_q _ _ _ _ HQ), ids_app. cbn. by rewrite last_snoc.
  - apply (qok_lookup _ _ _ _ HQ). apply elem_of_app. right. left.
Qed.

Lemma qok_snoc_remove sz md q l v o : 0 <= md -> qok sz md q (l ++ [(v, o)]) ->
  exists q', q_remove q v = Ok (q', true) /\ qok sz md q' l.
Proof.
  intros Hmd HQ. destruct (qok_remove_hit _ _ _ _ HQ v Hmd) as (q' & He & HQ').
  - rewrite ids_app. apply elem_of_app. right. left.
  - exists q'. split; [done|]. rewrite (l_del_mid l v o []) in HQ' by apply HQ. by rewrite app_nil_r in HQ'.
Qed.

Lemma l_upd_head f id o l : id ∉ ids l -> l_upd f id ((id, o) :: l) = (id, f o) :: l.
Proof.
  intros Hn. cbn [l_upd fmap list_fmap]. cbn [fst snd]. rewrite decide_True by done.
  f_equal. by apply l_upd_notin.
Qed.

Lemma qok_q_upd sz md q l f id : qok sz md q l -> (forall o, o_size (f o) = o_size o) ->
  qok sz md (q_upd q id f) (l_upd f id l).
Proof. intros HQ Hf. by apply qok_upd. Qed.

Lemma osz_elem sz q l id o : qok sz 0 q l -> (id, o) ∈ l -> 0 <= o_size o < 2 ^ 32.
Proof.
  intros HQ Ho. pose proof (qok_osz _ _ _ _ HQ) as Hosz. rewrite Forall_forall in Hosz.
  apply Hosz in Ho as [? ?]. cbn in *. lia.
Qed.

Lemma req_of_obj_ok sz q l id o : qok sz 0 q l -> (id, o) ∈ l -> req_ok 0 (req_of_obj id o).
Proof. intros HQ Ho. pose proof (osz_elem _ _ _ _ _ HQ Ho). split; cbn; lia. Qed.

Lemma o_size_req_of_obj sz q l id o : qok sz 0 q l -> (id, o) ∈ l ->
  o_size (obj_of_req (req_of_obj id o)) = o_size o.
Proof. intros HQ Ho. apply (o_size_of_req (req_of_obj id o) 0); [by eapply req_of_obj_ok|lia]. Qed.

(** The scan of the main queue: the objects whose counter is positive go back
    to the head with a smaller counter; the first one found with a counter of
    zero leaves. *)
Lemma s3_main_loop_spec G sz : forall n lm m fuel, (Z.to_nat (wsum lm) <= n)%nat -> (n < fuel)%nat ->
  qok sz 0 m lm -> allG G lm ->
  exists m' lm', s3_main_loop fuel m = Ok m' /\ qok sz 0 m' lm' /\ allG G lm' /\
    (forall id, id ∈ ids lm' -> id ∈ ids lm) /\
    (if decide (bytes 0 lm > 0)
     then S (length lm') = length lm /\ bytes 0 lm' <= bytes 0 lm
     else m' = m /\ lm' = lm).
Proof.
  intros n. induction n as [|n IH]; intros lm m fuel Hn Hf HQ HG; (destruct fuel as [|fuel]; [lia|]);
    cbn [s3_main_loop]; unfold q_occ; rewrite (qok_occ _ _ _ _ HQ).
  all: destruct (decide (bytes 0 lm > 0)) as [Hpos|Hz]; [|exists m, lm; by split_and!].
  all: destruct lm as [|[v o] lm _] using rev_ind; [by cbn in Hpos|].
  all: destruct (qok_snoc_lookup _ _ _ _ _ _ HQ) as [-> ->].
  all: destruct (qok_snoc_remove _ _ _ _ _ _ (Z.le_refl 0) HQ) as (m1 & Hrm & HQ1).
  all: rewrite wsum_app, wsum_cons in Hn; cbn [snd] in Hn; pose proof (wsum_nonneg lm);
       change (wsum []) with 0 in Hn.
  all: assert (Hin : (v, o) ∈ lm ++ [(v, o)]) by (apply elem_of_app; right; left).
  all: pose proof (osz_elem _ _ _ _ _ HQ Hin) as Hosz.
  all: apply allG_app in HG as [HG HGv].
  all: destruct (decide (o_p1 o >= 1)) as [Hge|Hlt]; [|
    rewrite Hrm; cbn [rbind]; exists m1, lm; split_and!; try done;
    [intros id Hid; rewrite ids_app; apply elem_of_app; by left
    |rewrite app_length; cbn; lia
    |rewrite bytes_app, bytes_cons; cbn; lia]].
  { exfalso. lia. }
  rewrite Hrm. cbn [rbind].
  pose proof (NoDup_ids_mid lm v o [] (qok_nd _ _ _ _ HQ)) as (Hv & _).
  destruct (qok_insert _ _ _ _ HQ1 (req_of_obj v o) Hv (req_of_obj_ok _ _ _ _ _ HQ Hin) (Z.le_refl 0)) as (m2 & -> & HQ2).
  cbn [rbind].
  set (fu := fun x => o_set_freq (o_set_p1 x (Z.min (o_p1 o) 3 - 1)) (o_p1 o)).
  pose proof (qok_q_upd _ _ _ _ fu v HQ2 ltac:(done)) as HQ3. cbn [r_id req_of_obj] in HQ3.
  rewrite l_upd_head in HQ3 by done.
  set (o' := fu (obj_of_req (req_of_obj v o))) in *.
  assert (Ho' : o_size o' = o_size o) by (subst o'; cbn; unfold u32; rewrite Z.mod_small; lia).
  assert (Hw : o_p1 o' = Z.min (o_p1 o) 3 - 1) by done. clearbody o'.
  destruct (IH ((v, o') :: lm) (q_upd m2 v fu) fuel) as (m' & lm' & He & HQ' & HG' & Hids & Hcase).
  - rewrite wsum_cons. cbn [snd]. lia.
  - lia.
  - done.
  - apply allG_cons; [|done]. cbn. rewrite Ho'. apply (allG_elem _ _ _ _ HGv). left.
  - exists m', lm'. split_and!; try done.
    + intros id Hid. apply Hids in Hid. change (ids (?x :: ?y)) with (x.1 :: ids y) in Hid.
      rewrite ids_app. apply elem_of_app. apply elem_of_cons in Hid as [->|?]; [right; left|by left].
    + rewrite bytes_cons in Hcase. rewrite bytes_app, bytes_cons in Hpos. cbn [snd] in *.
      change (bytes 0 []) with 0 in Hpos. rewrite decide_True in Hcase by lia.
      rewrite app_length. cbn [length] in *. lia.
    + rewrite bytes_cons in Hcase. rewrite bytes_app, bytes_cons in Hpos |- *. cbn [snd] in *.
      change (bytes 0 []) with 0 in *. rewrite decide_True in Hcase by lia. lia.
Qed.

Lemma ghost_get_spec G gsz g lg r : gok gsz g lg -> req_ok 0 r -> r_id r ∉ ids lg -> allG G lg ->
  G (r_id r) (r_size r) ->
  exists g' lg', ghost_get g r = Ok g' /\ gok gsz g' lg' /\ allG G lg' /\
    (forall id, id ∈ ids lg' -> id = r_id r \/ id ∈ ids lg) /\
    (r_size r <= gsz -> is_Some g -> r_id r ∈ ids lg').
Proof.
  intros Hg Hr Hn HG HGr. unfold ghost_get. destruct g as [q|].
  - destruct Hg as [HQ Hb]. unfold sub_get. cbn [op_nobj fifo_ops].
    destruct (fifo_get_miss _ _ _ _ r _ (Z.le_refl 0) HQ Hr Hn (subget_fuel _ _ _ _ HQ)) as (q' & l' & -> & HQ' & Hcase).
    cbn [rbind]. eexists _, l'. split; [done|]. pose proof Hr as [? ?].
    destruct (decide (r_size r + 0 <= gsz)) as [Hfit|Hfit].
    + destruct Hcase as (l1 & Hf & ->). split_and!.
      * split; [done|]. rewrite bytes_cons. cbn [snd]. rewrite (o_size_of_req _ _ Hr (Z.le_refl 0)).
        destruct Hf as (l2 & _ & Hb2 & _). lia.
      * apply allG_cons; [|by eapply allG_fits]. cbn [fst snd]. by rewrite (o_size_of_req _ _ Hr (Z.le_refl 0)).
      * intros id [->|Hid]%elem_of_cons; [by left|]. right. by apply (fits_ids _ _ _ _ _ Hf).
      * intros _ _. left.
    + subst l'. split_and!; try done; [by right|lia].
  - cbn in Hg. subst. eexists _, []. split_and!; try done; [by right|by intros _ [? ?]].
Qed.

Lemma ghost_remove_spec gsz g lg id : gok gsz g lg ->
  exists g', ghost_remove g id = Ok (g', bool_decide (id ∈ ids lg)) /\ gok gsz g' (l_del id lg) /\ (is_Some g' <-> is_Some g).
Proof.
  intros Hg. unfold ghost_remove. destruct g as [q|].
  - destruct Hg as [HQ Hb]. destruct (decide (id ∈ ids lg)) as [Hin|Hn].
    + destruct (qok_remove_hit _ _ _ _ HQ id (Z.le_refl 0) Hin) as (q' & -> & HQ'). cbn [rbind].
      rewrite bool_decide_eq_true_2 by done. eexists. split; [done|]. split; [|split; by eexists]. split; [done|].
      pose proof (bytes_del_le _ _ _ _ id (Z.le_refl 0) HQ). lia.
    + rewrite (qok_remove_miss _ _ _ _ HQ _ Hn). cbn [rbind]. rewrite bool_decide_eq_false_2 by done.
      eexists. split; [done|]. rewrite l_del_notin by done. split; [by split|]. split; by eexists.
  - cbn in Hg. subst. rewrite bool_decide_eq_false_2 by (apply not_elem_of_nil). by exists None.
Qed.

(** The scan of the small queue: from the tail, objects with enough hits move
    to the main queue until one with fewer hits leaves, or nothing is left. *)
Lemma s3_fifo_loop_spec G H fsz gsz msz thr : forall lf f g lg m lm fuel, (length lf <= fuel)%nat ->
  qok fsz 0 f lf -> gok gsz g lg -> qok msz 0 m lm ->
  disj lf lg -> disj lf lm -> disj lg lm -> allG G lf -> allG G lg -> allG G lm -> allH H lf ->
  exists f' g' m' lf' lg' lm', s3_fifo_loop fuel thr f g m = Ok (f', g', m') /\
    qok fsz 0 f' lf' /\ gok gsz g' lg' /\ qok msz 0 m' lm' /\
    disj lf' lg' /\ disj lf' lm' /\ disj lg' lm' /\ allG G lf' /\ allG G lg' /\ allG G lm' /\ allH H lf' /\
    (exists d, lf = lf' ++ d) /\
    (forall id, id ∈ ids lm -> id ∈ ids lm') /\
    (forall id, id ∈ ids lm' -> id ∈ ids lm \/ (id ∈ ids lf /\ H id >= thr)) /\
    (forall id, id ∈ ids lg' -> id ∈ ids lg \/ (id ∈ ids lf /\ H id < thr)) /\
    (forall id, id ∈ ids lf -> id ∈ ids lf' \/ id ∈ ids lm' \/ H id < thr) /\
    bytes 0 lf' + bytes 0 lm' <= bytes 0 lf + bytes 0 lm /\
    (length lf' + length lm' <= length lf + length lm)%nat /\
    (2 * length lf' + length lm' <= 2 * length lf + length lm)%nat /\
    (bytes 0 lf > 0 -> (2 * length lf' + length lm' < 2 * length lf + length lm)%nat).
Proof.
  intros lf. induction lf as [|[v o] lf IH] using rev_ind;
    intros f g lg m lm fuel Hfu Hf Hg Hm Dfg Dfm Dgm Gf Gg Gm HH.
  - assert (He : s3_fifo_loop fuel thr f g m = Ok (f, g, m)).
    { destruct fuel; cbn [s3_fifo_loop]; unfold q_occ; rewrite (qok_occ _ _ _ _ Hf); done. }
    exists f, g, m, [], lg, lm. split_and!; try done; try lia; try (by exists []); intros; by left.
  - rewrite app_length in Hfu. cbn in Hfu. destruct fuel as [|fuel]; [lia|]. cbn [s3_fifo_loop].
    unfold q_occ. rewrite (qok_occ _ _ _ _ Hf).
    destruct (decide (bytes 0 (lf ++ [(v, o)]) > 0)) as [Hpos|Hz].
    2:{ exists f, g, m, (lf ++ [(v, o)]), lg, lm. split_and!; try done; try lia; try (by exists []; rewrite app_nil_r); intros; by left. }
    destruct (qok_snoc_lookup _ _ _ _ _ _ Hf) as [-> ->].
    destruct (qok_snoc_remove _ _ _ _ _ _ (Z.le_refl 0) Hf) as (f1 & Hrm & Hf1).
    assert (Hin : (v, o) ∈ lf ++ [(v, o)]) by (apply elem_of_app; right; left).
    assert (Hvin : v ∈ ids (lf ++ [(v, o)])) by (apply ids_elem; eauto).
    pose proof (osz_elem _ _ _ _ _ Hf Hin) as Hosz.
    pose proof (NoDup_ids_mid lf v o [] (qok_nd _ _ _ _ Hf)) as (Hv & _).
    assert (Hvg : v ∉ ids lg) by (intros ?; by apply (Dfg v)).
    assert (Hvm : v ∉ ids lm) by (intros ?; by apply (Dfm v)).
    assert (Hsub : forall id, id ∈ ids lf -> id ∈ ids (lf ++ [(v, o)])).
    { intros id ?. rewrite ids_app. apply elem_of_app. by left. }
    apply allG_app in Gf as [Gf Gv]. apply Forall_app in HH as [HH HHv].
    assert (Hp1 : o_p1 o = H v) by (by apply Forall_cons in HHv as [? _]).
    assert (HGv : G v (o_size o)) by (apply (allG_elem _ _ _ _ Gv); left).
    pose proof (req_of_obj_ok _ _ _ _ _ Hf Hin) as Hrok.
    destruct (decide (o_p1 o >= thr)) as [Hge|Hlt].
    + destruct (qok_insert _ _ _ _ Hm (req_of_obj v o) Hvm Hrok (Z.le_refl 0)) as (m1 & -> & Hm1). cbn [rbind].
      rewrite Hrm. cbn [rbind].
      set (fu := fun x => o_set_freq x (o_freq o)).
      pose proof (qok_q_upd _ _ _ _ fu v Hm1 ltac:(done)) as Hm2. cbn [r_id req_of_obj] in Hm2.
      rewrite l_upd_head in Hm2 by done. set (o' := fu (obj_of_req (req_of_obj v o))) in *.
      assert (Ho' : o_size o' = o_size o) by (subst o'; cbn; unfold u32; rewrite Z.mod_small; lia).
      clearbody o'.
      assert (Hids : forall id, id ∈ ids ((v, o') :: lm) <-> id = v \/ id ∈ ids lm) by (intros id; apply elem_of_cons).
      destruct (IH f1 g lg (q_upd m1 v fu) ((v, o') :: lm) fuel) as
        (f' & g' & m' & lf' & lg' & lm' & -> & H1 & H2 & H3 & H4 & H5 & H6 & H7 & H8 & H9 & H10 & (d & Hd) & H12 & H13 & H14 & H15 & H16 & H16b & H17 & H18);
        try done.
      * lia.
      * eapply disj_sub; [exact Hsub|done|exact Dfg].
      * intros id Hi1 [->|Hi2]%Hids; [done|]. by apply (Dfm id); [apply Hsub|].
      * intros id Hi1 [->|Hi2]%Hids; [done|]. by apply (Dgm id).
      * apply allG_cons; [|done]. cbn. by rewrite Ho'.
      * exists f', g', m', lf', lg', lm'. split_and!; try done.
        -- exists (d ++ [(v, o)]). by rewrite Hd, app_assoc.
        -- intros id Hid. apply H12. apply Hids. by right.
        -- intros id Hid. apply H13 in Hid as [[->|Hid]%Hids|[Hid ?]]; [right; split; [done|lia]|by left|right; split; [by apply Hsub|done]].
        -- intros id Hid. apply H14 in Hid as [Hid|[Hid ?]]; [by left|right; split; [by apply Hsub|done]].
        -- intros id Hid. rewrite ids_app in Hid. apply elem_of_app in Hid as [Hid|Hid]; [by apply H15|].
           apply elem_of_list_singleton in Hid. cbn in Hid. subst id. right. left. apply H12, Hids. by left.
        -- rewrite bytes_cons in H16. rewrite bytes_app, bytes_cons. cbn [snd] in *.
           change (bytes 0 []) with 0. lia.
        -- rewrite app_length. cbn [length] in *. lia.
        -- rewrite app_length. cbn [length] in *. lia.
        -- intros _. rewrite app_length. cbn [length] in *. lia.
    + destruct (ghost_get_spec G gsz g lg (req_of_obj v o) Hg Hrok Hvg Gg HGv) as (g' & lg' & -> & Hg' & Gg' & Hlg & _).
      cbn [rbind]. rewrite Hrm. cbn [rbind].
      exists f1, g', m, lf, lg', lm. split_and!; try done.
      * intros id Hi1 [->|Hi2]%Hlg; [done|]. by apply (Dfg id); [apply Hsub|].
      * eapply disj_sub; [exact Hsub|done|exact Dfm].
      * intros id [->|Hi2]%Hlg Hi1; [done|]. by apply (Dgm id).
      * by exists [(v, o)].
      * intros; by left.
      * intros id [->|Hid]%Hlg; [right; split; [done|cbn; lia]|by left].
      * intros id Hid. rewrite ids_app in Hid. apply elem_of_app in Hid as [Hid|Hid]; [by left|].
        apply elem_of_list_singleton in Hid. cbn in Hid. subst id. right. right. lia.
      * rewrite bytes_app, bytes_cons. cbn [snd]. change (bytes 0 []) with 0. lia.
      * rewrite app_length. cbn. lia.
      * rewrite app_length. cbn. lia.
      * intros _. rewrite app_length. cbn. lia.
Qed.

(** One more hit on [id]; [id] starts afresh. *)
Definition bump (H : Z -> Z) (id : Z) : Z -> Z := fun j => if decide (j = id) then H j + 1 else H j.
Definition zero_at (H : Z -> Z) (id : Z) : Z -> Z := fun j => if decide (j = id) then 0 else H j.

Lemma allH_ext H H' l : (forall id, id ∈ ids l -> H' id = H id) -> allH H l -> allH H' l.
Proof.
  intros He Hl. apply Forall_forall. intros [j o] Hj. cbn. rewrite (He j) by (apply ids_elem; eauto).
  unfold allH in Hl. rewrite Forall_forall in Hl. by apply (Hl (j, o)).
Qed.

Lemma allH_notin_bump H id l : id ∉ ids l -> allH H l -> allH (bump H id) l.
Proof. intros Hn. apply allH_ext. intros j Hj. unfold bump. rewrite decide_False; [done|]. by intros ->. Qed.

Lemma allH_notin_zero H id l : id ∉ ids l -> allH H l -> allH (zero_at H id) l.
Proof. intros Hn. apply allH_ext. intros j Hj. unfold zero_at. rewrite decide_False; [done|]. by intros ->. Qed.

Lemma allH_upd H id f l : (forall o, o_p1 (f o) = o_p1 o + 1) -> allH H l -> allH (bump H id) (l_upd f id l).
Proof.
  intros Hf Hl. unfold l_upd. apply Forall_fmap. apply (Forall_impl _ _ _ Hl). intros [j o] Hj.
  unfold compose, bump. cbn in *. destruct (decide (j = id)) as [->|Hne]; cbn;
    [rewrite decide_True, Hf by done|rewrite decide_False by done]; lia.
Qed.

Lemma l_upd_upd f g id l : l_upd f id (l_upd g id l) = l_upd (fun o => f (g o)) id l.
Proof.
  unfold l_upd. rewrite <- list_fmap_compose. apply list_fmap_ext. intros i [j o] _. cbn.
  destruct (decide (j = id)); cbn; [by rewrite decide_True|by rewrite decide_False].
Qed.

Lemma allG_upd G f id l : (forall o, o_size (f o) = o_size o) -> allG G l -> allG G (l_upd f id l).
Proof. intros Hf. apply Forall_upd. cbn. intros i o. by rewrite Hf. Qed.

Lemma length_upd f id l : length (l_upd f id l) = length l.
Proof. apply fmap_length. Qed.

Section S3.
  Context (G : Z -> Z -> Prop) (cap fsz gsz thr : Z).
  Context (Hfsz : 0 <= fsz <= cap).
  Notation ok H := (sok G H cap fsz gsz thr).

  Lemma sok_find_false H s lf lg lm r : ok H s lf lg lm ->
    s3_find s r false = Ok (s, bool_decide (r_id r ∈ ids lf \/ r_id r ∈ ids lm)).
  Proof.
    intros HS. pose proof HS as []. unfold s3_find. rewrite (qok_find_false _ _ _ _ sok_f0). cbn [rbind].
    destruct (bool_decide (r_id r ∈ ids lf)) eqn:E.
    - apply bool_decide_eq_true in E. rewrite bool_decide_eq_true_2 by (by left). by destruct s.
    - apply bool_decide_eq_false in E. cbn [s3_set_fifo s_main].
      rewrite (qok_find_false _ _ _ _ sok_m0). cbn [rbind].
      destruct s. unfold s3_set_main. cbn. do 2 f_equal. apply bool_decide_ext. tauto.
  Qed.

  Lemma sok_find_true H s lf lg lm r : ok H s lf lg lm ->
    exists s' b lf' lg' lm', s3_find s r true = Ok (s', b) /\
      b = bool_decide (r_id r ∈ ids lf \/ r_id r ∈ ids lm) /\
      ok (if b then bump H (r_id r) else H) s' lf' lg' lm' /\
      ids lf' = ids lf /\ ids lm' = ids lm /\
      (b = false -> lf' = lf /\ lm' = lm /\ lg' = l_del (r_id r) lg /\ s_hg s' = bool_decide (r_id r ∈ ids lg)) /\
      (b = true -> lg' = lg).
  Proof.
    intros []. unfold s3_find. cbn [s3_set_hg s_fifo s_gq s_main].
    destruct (decide (r_id r ∈ ids lf)) as [Hf|Hf].
    - destruct (qok_find_hit _ _ _ _ sok_f0 r Hf) as (f' & -> & Hf'). cbn [rbind].
      pose proof (qok_q_upd _ _ _ _ (fun o => o_set_p1 o (o_p1 o + 1)) (r_id r) Hf' ltac:(done)) as Hf2.
      rewrite l_upd_upd in Hf2.
      set (fu := fun o => o_set_p1 (o_hit r o) (o_p1 (o_hit r o) + 1)) in *.
      eexists _, true, (l_upd fu (r_id r) lf), lg, lm. split; [done|].
      rewrite bool_decide_eq_true_2 by (by left). rewrite ids_upd. split_and!; try done.
      assert (Hb : bytes 0 (l_upd fu (r_id r) lf) = bytes 0 lf) by (by apply bytes_upd).
      assert (Hi : ids (l_upd fu (r_id r) lf) = ids lf) by apply ids_upd.
      split; cbn [s3_set_fifo s3_set_hg s_fifo s_gq s_main s_size s_thr]; try done.
      + intros id. rewrite Hi. apply sok_fg0.
      + intros id. rewrite Hi. apply sok_fm0.
      + lia.
      + by apply allG_upd.
      + by apply allH_upd.
    - rewrite (qok_find_miss _ _ _ _ sok_f0 r true Hf). cbn [rbind].
      change (s_gq (s3_set_fifo _ _)) with (s_gq s).
      destruct (ghost_remove_spec gsz (s_gq s) lg (r_id r) sok_g0) as (g' & -> & Hg' & _). cbn [rbind].
      set (s2 := if bool_decide (r_id r ∈ ids lg) then _ else _).
      assert (Hs2 : s_fifo s2 = s_fifo s /\ s_gq s2 = g' /\ s_main s2 = s_main s /\ s_size s2 = s_size s /\
                    s_thr s2 = s_thr s /\ s_hg s2 = bool_decide (r_id r ∈ ids lg))
        by (subst s2; by destruct (bool_decide _)).
      clearbody s2. destruct Hs2 as (E1 & E2 & E3 & E4 & E5 & E6). rewrite E3.
      destruct (decide (r_id r ∈ ids lm)) as [Hm|Hm].
      + destruct (qok_find_hit _ _ _ _ sok_m0 r Hm) as (m' & -> & Hm'). cbn [rbind].
        assert (Hng : r_id r ∉ ids lg) by (intros ?; by apply (sok_gm0 (r_id r))).
        rewrite (l_del_notin _ _ Hng) in Hg'.
        pose proof (qok_q_upd _ _ _ _ (fun o => o_set_p1 o (o_p1 o + 1)) (r_id r) Hm' ltac:(done)) as Hm2.
        rewrite l_upd_upd in Hm2.
        set (fu := fun o => o_set_p1 (o_hit r o) (o_p1 (o_hit r o) + 1)) in *.
        eexists _, true, lf, lg, (l_upd fu (r_id r) lm). split; [done|].
        rewrite bool_decide_eq_true_2 by (by right). rewrite ids_upd. split_and!; try done.
        assert (Hb : bytes 0 (l_upd fu (r_id r) lm) = bytes 0 lm) by (by apply bytes_upd).
        assert (Hi : ids (l_upd fu (r_id r) lm) = ids lm) by apply ids_upd.
        split; cbn [s3_set_main s_fifo s_gq s_main s_size s_thr]; try congruence; try done.
        * intros id. rewrite Hi. apply sok_fm0.
        * intros id. rewrite Hi. apply sok_gm0.
        * by apply allG_upd.
        * by apply allH_notin_bump.
      + rewrite (qok_find_miss _ _ _ _ sok_m0 r true Hm). cbn [rbind].
        eexists _, false, lf, (l_del (r_id r) lg), lm. split; [done|].
        rewrite bool_decide_eq_false_2 by tauto. split_and!; try done.
        * split; cbn [s3_set_main s_fifo s_gq s_main s_size s_thr]; try congruence; try done.
          -- eapply disj_sub; [done|apply del_sub|done].
          -- eapply disj_sub; [apply del_sub|done|done].
          -- by apply allG_del.
  Qed.

  Lemma sok_evict H s lf lg lm r : ok H s lf lg lm ->
    exists s' lf' lg' lm', s3_evict s r = Ok s' /\ ok H s' lf' lg' lm' /\ s_hg s' = s_hg s /\
      (exists d, lf = lf' ++ d) /\
      (forall id, id ∈ ids lm' -> id ∈ ids lm \/ (id ∈ ids lf /\ H id >= thr)) /\
      (forall id, id ∈ ids lg' -> id ∈ ids lg \/ (id ∈ ids lf /\ H id < thr)) /\
      bytes 0 lf' + bytes 0 lm' <= bytes 0 lf + bytes 0 lm /\
      (length lf' + length lm' <= length lf + length lm)%nat /\
      (bytes 0 lf + bytes 0 lm > 0 -> (2 * length lf' + length lm' < 2 * length lf + length lm)%nat).
  Proof.
    intros []. unfold s3_evict, q_occ, q_size. rewrite (qok_occ _ _ _ _ sok_f0), (qok_occ _ _ _ _ sok_m0), (qok_size _ _ _ _ sok_m0).
    pose proof (bytes_nonneg 0 lf (Z.le_refl 0) (qok_osz _ _ _ _ sok_f0)) as Hn1.
    pose proof (bytes_nonneg 0 lm (Z.le_refl 0) (qok_osz _ _ _ _ sok_m0)) as Hn2.
    destruct (decide _) as [Hm|Hf].
    - rewrite (clock_bound_wsum _ _ _ _ sok_m0).
      destruct (s3_main_loop_spec G _ _ lm (s_main s) _ (le_n _) (Nat.lt_succ_diag_r _) sok_m0 sok_Gm0)
        as (m' & lm' & -> & Hm' & HGm' & Hids & Hcase).
      cbn [rbind]. eexists _, lf, lg, lm'. split; [done|].
      assert (Hb : bytes 0 lm' <= bytes 0 lm /\ (length lm' <= length lm)%nat).
      { destruct (decide _); [|destruct Hcase as [-> ->]]; lia. }
      split_and!; try done; try lia.
      + split; cbn [s3_set_main s_fifo s_gq s_main s_size s_thr]; try done; try lia.
        * eapply disj_sub; [done|exact Hids|exact sok_fm0].
        * eapply disj_sub; [done|exact Hids|exact sok_gm0].
      + by exists []; rewrite app_nil_r.
      + intros id ?. left. by apply Hids.
      + intros; by left.
      + intros Hpos. destruct (decide _); [lia|]. exfalso.
        (* the main queue is empty of bytes: then the small queue is too *) lia.
    - destruct (s3_fifo_loop_spec G H fsz gsz (cap - fsz) (s_thr s) lf (s_fifo s) (s_gq s) lg (s_main s) lm
                  _ (subget_fuel _ _ _ _ sok_f0) sok_f0 sok_g0 sok_m0 sok_fg0 sok_fm0 sok_gm0 sok_Gf0 sok_Gg0 sok_Gm0 sok_H0)
        as (f' & g' & m' & lf' & lg' & lm' & -> & H1 & H2 & H3 & H4 & H5 & H6 & H7 & H8 & H9 & H10 & Hd & H12 & H13 & H14 & H15 & H16 & H16b & H17 & H18).
      cbn [rbind]. rewrite sok_thr0 in *. eexists _, lf', lg', lm'. split; [done|]. split_and!; try done.
      + split; cbn [s3_set_main s3_set_gq s3_set_fifo s_fifo s_gq s_main s_size s_thr]; try done. lia.
      + intros _. apply H18. lia.
  Qed.

  Lemma sok_loop H r : 0 <= r_size r <= fsz -> forall n s lf lg lm fuel,
    (2 * length lf + length lm <= n)%nat -> (n <= fuel)%nat -> ok H s lf lg lm ->
    exists s' lf' lg' lm', evict_loop s3_ops fuel s r = Ok s' /\ ok H s' lf' lg' lm' /\ s_hg s' = s_hg s /\
      bytes 0 lf' + bytes 0 lm' + r_size r <= cap /\
      (exists d, lf = lf' ++ d) /\
      (forall id, id ∈ ids lm' -> id ∈ ids lm \/ (id ∈ ids lf /\ H id >= thr)) /\
      (forall id, id ∈ ids lg' -> id ∈ ids lg \/ (id ∈ ids lf /\ H id < thr)) /\
      (length lf' + length lm' <= length lf + length lm)%nat /\
      (bytes 0 lf + bytes 0 lm + r_size r <= cap -> s' = s).
  Proof.
    intros Hr n. induction n as [|n IH]; intros s lf lg lm fuel Hn Hfu HS.
    all: assert (Hocc : op_occupied s3_ops s + r_size r + op_md s3_ops s = bytes 0 lf + bytes 0 lm + r_size r
                     /\ op_size s3_ops s = cap)
      by (pose proof HS as []; cbn; unfold q_occ; rewrite (qok_occ _ _ _ _ sok_f0), (qok_occ _ _ _ _ sok_m0); split; [lia|done]).
    all: destruct Hocc as [Hocc Hsz].
    all: pose proof (bytes_nonneg 0 lf (Z.le_refl 0) (qok_osz _ _ _ _ (sok_f _ _ _ _ _ _ _ _ _ _ HS))).
    all: pose proof (bytes_nonneg 0 lm (Z.le_refl 0) (qok_osz _ _ _ _ (sok_m _ _ _ _ _ _ _ _ _ _ HS))).
    - assert (lf = [] /\ lm = []) as [-> ->] by (destruct lf, lm; cbn in Hn; try lia; done).
      exists s, [], lg, []. change (bytes 0 []) with 0 in *.
      assert (evict_loop s3_ops fuel s r = Ok s) as -> by (destruct fuel; cbn [evict_loop]; by rewrite decide_False by lia).
      split_and!; try done; try lia; try (by exists []); intros; by left.
    - destruct fuel as [|fuel]; [lia|]. cbn [evict_loop]. destruct (decide _) as [Hgt|Hle].
      + cbn [op_evict s3_ops].
        destruct (sok_evict H s lf lg lm r HS) as (s1 & lf1 & lg1 & lm1 & -> & HS1 & Hg1 & (d1 & Hd1) & Hm1 & Hlg1 & Hb1 & Hl1 & Hdec).
        cbn [rbind].
        destruct (IH s1 lf1 lg1 lm1 fuel ltac:(lia) ltac:(lia) HS1) as
          (s' & lf' & lg' & lm' & -> & HS' & Hg' & Hc & (d & Hd) & Hm' & Hlg' & Hl' & _).
        assert (Hsub : forall id, id ∈ ids lf1 -> id ∈ ids lf).
        { intros id Hid. rewrite Hd1, ids_app. apply elem_of_app. by left. }
        exists s', lf', lg', lm'. split_and!; try done; try lia; try congruence.
        * exists (d ++ d1). by rewrite app_assoc, <- Hd.
        * intros id Hid. apply Hm' in Hid as [Hid|[Hid ?]]; [by apply Hm1|]. right. split; [by apply Hsub|done].
        * intros id Hid. apply Hlg' in Hid as [Hid|[Hid ?]]; [by apply Hlg1|]. right. split; [by apply Hsub|done].
      + exists s, lf, lg, lm. split_and!; try done; try lia; try (by exists []; rewrite app_nil_r); intros; by left.
  Qed.

  Lemma sok_insert H s lf lg lm r : ok H s lf lg lm -> req_ok 0 r -> G (r_id r) (r_size r) ->
    r_id r ∉ ids lf -> r_id r ∉ ids lg -> r_id r ∉ ids lm ->
    bytes 0 lf + bytes 0 lm + r_size r <= cap ->
    exists s' lf' lm' o', s3_insert s r = Ok s' /\ ok (zero_at H (r_id r)) s' lf' lg lm' /\
      (if s_hg s then lf' = lf /\ lm' = (r_id r, o') :: lm
       else lm' = lm /\ if decide (r_size r < fsz) then lf' = (r_id r, o') :: lf else lf' = lf).
  Proof.
    intros [] Hr HGr Hf Hg Hm Hc. pose proof Hr as [Hr1 Hr2]. unfold s3_insert.
    pose proof (o_size_of_req _ _ Hr (Z.le_refl 0)) as Hos.
    set (o' := o_set_p1 (obj_of_req r) 0).
    assert (Ho' : o_size o' = r_size r) by (by rewrite <- Hos).
    destruct (s_hg s).
    - cbn [s3_set_hg s_main].
      destruct (qok_insert _ _ _ _ sok_m0 r Hm Hr (Z.le_refl 0)) as (m & -> & Hm'). cbn [rbind].
      pose proof (qok_q_upd _ _ _ _ (fun o => o_set_p1 o 0) (r_id r) Hm' ltac:(done)) as Hm2.
      rewrite l_upd_head in Hm2 by done. fold o' in Hm2.
      eexists _, lf, _, o'. split; [done|]. split; [|by split]. clearbody o'.
      split; cbn [s3_set_main s3_set_hg s_fifo s_gq s_main s_size s_thr]; try done.
      + intros id H1 [->|H2]%elem_of_cons; [done|]. by apply (sok_fm0 id).
      + intros id H1 [->|H2]%elem_of_cons; [done|]. by apply (sok_gm0 id).
      + rewrite bytes_cons. cbn [snd]. lia.
      + apply allG_cons; [|done]. cbn [fst snd]. by rewrite Ho'.
      + by apply allH_notin_zero.
    - unfold q_size. rewrite (qok_size _ _ _ _ sok_f0). destruct (decide (r_size r >= fsz)) as [Hbig|Hsm].
      + eexists _, lf, lm, o'. split; [done|]. rewrite decide_False by lia. split; [|done].
        split; try done. by apply allH_notin_zero.
      + destruct (qok_insert _ _ _ _ sok_f0 r Hf Hr (Z.le_refl 0)) as (f & -> & Hf'). cbn [rbind].
        pose proof (qok_q_upd _ _ _ _ (fun o => o_set_p1 o 0) (r_id r) Hf' ltac:(done)) as Hf2.
        rewrite l_upd_head in Hf2 by done. fold o' in Hf2.
        eexists _, _, lm, o'. split; [done|]. rewrite decide_True by lia. split; [|by split].
        assert (Hp : o_p1 o' = 0) by done. clearbody o'.
        split; cbn [s3_set_fifo s_fifo s_gq s_main s_size s_thr]; try done.
        * intros id [->|H2]%elem_of_cons H1; [done|]. by apply (sok_fg0 id).
        * intros id [->|H2]%elem_of_cons H1; [done|]. by apply (sok_fm0 id).
        * rewrite bytes_cons. cbn [snd]. lia.
        * apply allG_cons; [|done]. cbn [fst snd]. by rewrite Ho'.
        * apply Forall_cons. split; [|by apply allH_notin_zero]. cbn. unfold zero_at. by rewrite decide_True.
  Qed.

  Lemma sok_remove H s lf lg lm id : ok H s lf lg lm ->
    exists s', s3_remove s id = Ok (s', bool_decide (id ∈ ids lf \/ id ∈ ids lg \/ id ∈ ids lm)) /\
      ok H s' (l_del id lf) (l_del id lg) (l_del id lm).
  Proof.
    intros []. unfold s3_remove.
    assert (HC : forall s', qok fsz 0 (s_fifo s') (l_del id lf) -> gok gsz (s_gq s') (l_del id lg) ->
       qok (cap - fsz) 0 (s_main s') (l_del id lm) -> s_size s' = cap -> s_thr s' = thr ->
       ok H s' (l_del id lf) (l_del id lg) (l_del id lm)).
    { intros s' H1 H2 H3 H4 H5.
      pose proof (bytes_del_le _ _ _ _ id (Z.le_refl 0) sok_f0).
      pose proof (bytes_del_le _ _ _ _ id (Z.le_refl 0) sok_m0).
      split; try done; try lia; try (by apply allG_del); try (by apply Forall_del);
        (eapply disj_sub; [apply del_sub|apply del_sub|done]). }
    destruct (decide (id ∈ ids lf)) as [Hi|Hi].
    { destruct (qok_remove_hit _ _ _ _ sok_f0 id ltac:(lia) Hi) as (i & -> & Hi'). cbn [rbind].
      rewrite bool_decide_eq_true_2 by (by left). eexists. split; [done|].
      apply HC; cbn; try done; rewrite l_del_notin; try done; intros ?; [by apply (sok_fg0 id)|by apply (sok_fm0 id)]. }
    rewrite (qok_remove_miss _ _ _ _ sok_f0 _ Hi). cbn [rbind s3_set_fifo s_gq].
    destruct (ghost_remove_spec _ _ _ id sok_g0) as (g' & -> & Hg' & _). cbn [rbind].
    destruct (decide (id ∈ ids lg)) as [Ho|Ho].
    { rewrite bool_decide_eq_true_2 by done.
      rewrite bool_decide_eq_true_2 by (by right; left). eexists. split; [done|].
      apply HC; cbn; try done; rewrite l_del_notin; try done; intros ?; by apply (sok_gm0 id). }
    rewrite bool_decide_eq_false_2 by done. cbn [s3_set_fifo s3_set_gq s_main].
    destruct (decide (id ∈ ids lm)) as [Hm|Hm].
    { destruct (qok_remove_hit _ _ _ _ sok_m0 id (Z.le_refl 0) Hm) as (m & -> & Hm'). cbn [rbind].
      rewrite bool_decide_eq_true_2 by (by right; right). eexists. split; [done|].
      apply HC; cbn; try done; by rewrite l_del_notin. }
    rewrite (qok_remove_miss _ _ _ _ sok_m0 _ Hm). cbn [rbind].
    rewrite bool_decide_eq_false_2 by tauto. eexists. split; [done|].
    apply HC; cbn; try done; by rewrite l_del_notin.
  Qed.

  Lemma sok_get H s lf lg lm r fuel : ok H s lf lg lm -> req_ok 0 r -> G (r_id r) (r_size r) ->
    (2 * length lf + length lm <= fuel)%nat ->
    let h := bool_decide (r_id r ∈ ids lf \/ r_id r ∈ ids lm) in
    exists s' lf' lg' lm', cache_get_base s3_ops fuel s r = Ok (s', h) /\
      ok (if h then bump H (r_id r) else zero_at H (r_id r)) s' lf' lg' lm' /\
      (length lf' + length lm' <= length lf + length lm + 1)%nat /\
      (h = true -> ids lf' = ids lf /\ lg' = lg /\ ids lm' = ids lm) /\
      (h = false -> fsz < r_size r -> lf' = lf /\ lm' = lm /\ lg' = l_del (r_id r) lg) /\
      (h = false -> r_size r <= fsz ->
         r_id r ∉ ids lg' /\
         (forall id, id ∈ ids lf' -> id = r_id r \/ id ∈ ids lf) /\
         (forall id, id ∈ ids lm' -> id ∈ ids lm \/ (id ∈ ids lf /\ H id >= thr) \/ (id = r_id r /\ id ∈ ids lg)) /\
         (forall id, id ∈ ids lg' -> id ∈ ids lg \/ (id ∈ ids lf /\ H id < thr)) /\
         (r_id r ∈ ids lg -> r_id r ∈ ids lm') /\
         (r_id r ∉ ids lg -> (r_size r < fsz -> r_id r ∈ ids lf') /\
            (r_size r = fsz -> r_id r ∉ ids lf' /\ r_id r ∉ ids lm'))).
  Proof.
    intros HS Hr HGr Hfu h. subst h. unfold cache_get_base. pose proof Hr as [Hr1 Hr2].
    assert (HT : ok H (op_tick s3_ops s) lf lg lm) by (destruct HS; by split).
    cbn [op_find s3_ops].
    destruct (sok_find_true _ _ _ _ _ r HT) as (s1 & b & lf1 & lg1 & lm1 & -> & -> & H1 & Hif & Him & HF & HTr).
    cbn [rbind]. destruct (bool_decide (r_id r ∈ ids lf \/ r_id r ∈ ids lm)) eqn:Eb.
    - apply bool_decide_eq_true in Eb. rewrite (HTr eq_refl) in *.
      exists s1, lf1, lg, lm1. split_and!; try done.
      assert (length (ids lf1) = length (ids lf) /\ length (ids lm1) = length (ids lm)) as [E1 E2] by (by rewrite Hif, Him).
      unfold ids in E1, E2. rewrite !fmap_length in *. lia.
    - apply bool_decide_eq_false in Eb. destruct (HF eq_refl) as (-> & -> & -> & Hg).
      cbn [op_can_insert s3_ops]. unfold s3_can_insert.
      assert (Hq : q_size (s_fifo s1) = fsz) by (apply (sok_f _ _ _ _ _ _ _ _ _ _ H1)). rewrite Hq.
      cbn [rbind].
      assert (Hi : r_id r ∉ ids lf) by tauto. assert (Hm : r_id r ∉ ids lm) by tauto.
      destruct (bool_decide (r_size r <= fsz)) eqn:Es.
      + apply bool_decide_eq_true in Es.
        assert (Ho : r_id r ∉ ids (l_del (r_id r) lg)) by (rewrite elem_ids_del; tauto).
        destruct (sok_loop H r ltac:(lia) _ s1 lf _ lm fuel (le_n _) Hfu H1)
          as (s2 & lf2 & lg2 & lm2 & -> & H2 & Hg2 & Hc & (d & Hd) & Hm2 & Hlg2 & Hl2 & _).
        cbn [rbind op_insert s3_ops].
        assert (Hsub : forall id, id ∈ ids lf2 -> id ∈ ids lf).
        { intros id Hid. rewrite Hd, ids_app. apply elem_of_app. by left. }
        assert (Hi2 : r_id r ∉ ids lf2) by (intros ?; by apply Hi, Hsub).
        assert (Hm2' : r_id r ∉ ids lm2) by (intros [?|[? ?]]%Hm2; done).
        assert (Ho2 : r_id r ∉ ids lg2) by (intros [?|[? ?]]%Hlg2; done).
        destruct (sok_insert H s2 lf2 lg2 lm2 r H2 Hr HGr Hi2 Ho2 Hm2' Hc) as (s3 & lf3 & lm3 & o' & -> & H3 & Hcase).
        cbn [rbind]. rewrite Hg2, Hg in Hcase.
        exists s3, lf3, lg2, lm3. split; [done|]. split; [done|].
        assert (Hlg : forall id, id ∈ ids lg2 -> id ∈ ids lg \/ (id ∈ ids lf /\ H id < thr)).
        { intros id Hid. apply Hlg2 in Hid as [Hid|?]; [|by right]. left. by apply elem_ids_del in Hid as [? _]. }
        destruct (decide (r_id r ∈ ids lg)) as [Hgh|Hgh].
        * rewrite bool_decide_eq_true_2 in Hcase by done. destruct Hcase as [-> ->].
          split_and!; try done; [cbn [length]; lia|intros _ ?; lia|].
          intros _ _. split_and!; try done.
          -- intros id Hid. right. by apply Hsub.
          -- intros id [->|Hid]%elem_of_cons; [right; right; by split|]. apply Hm2 in Hid as [?|?]; [by left|right; by left].
          -- intros _. left.
        * rewrite bool_decide_eq_false_2 in Hcase by done. destruct Hcase as [-> Hcase].
          destruct (decide (r_size r < fsz)) as [Hlt|Hge]; subst lf3.
          -- split_and!; try done; [cbn [length]; lia|intros _ ?; lia|].
             intros _ _. split_and!; try done.
             ++ intros id [->|Hid]%elem_of_cons; [by left|]. right. by apply Hsub.
             ++ intros id Hid. apply Hm2 in Hid as [?|?]; [by left|right; by left].
             ++ intros _. split; [intros _; left|lia].
          -- split_and!; try done; [lia|intros _ ?; lia|].
             intros _ _. split_and!; try done.
             ++ intros id Hid. right. by apply Hsub.
             ++ intros id Hid. apply Hm2 in Hid as [?|?]; [by left|right; by left].
      + apply bool_decide_eq_false in Es. exists s1, lf, (l_del (r_id r) lg), lm. split_and!; try done; try lia.
        destruct H1. split; try done. by apply allH_notin_zero.
  Qed.

  Lemma sok_init : ok (fun _ => 0) (s3_init cap fsz gsz thr) [] [] [].
  Proof.
    split; cbn; try done; try lia; try (intros ? ? ?; by eapply elem_of_nil); try (by apply Forall_nil_2).
    - apply qok_init.
    - unfold gok. destruct (decide _); [|done]. split; [apply qok_init|cbn; lia].
    - apply qok_init.
  Qed.
End S3.
