(** QDLPv0: the code against the machine of SpecQDLPv0.v. *)
From stdpp Require Import gmap list numbers fin_maps.
From Verif Require Import Base Driver ModelQueue ModelSLRU SpecLPSFIFO LPSFIFOFacts ModelQDLPv0 SpecQDLPv0.
Open Scope Z_scope.

(** * Lists *)
Lemma unlink_app id l1 l2 : unlink id (l1 ++ l2) = unlink id l1 ++ unlink id l2.
Proof. apply filter_app. Qed.
Lemma unlink_notin id l : id ∉ l -> unlink id l = l.
Proof.
  induction l as [|y l IH]; intros H; [done|]. apply not_elem_of_cons in H as [H1 H2]. unfold unlink. rewrite filter_cons_True by done.
  f_equal. by apply IH.
Qed.
Lemma unlink_mid id l1 l2 : NoDup (l1 ++ id :: l2) -> unlink id (l1 ++ id :: l2) = l1 ++ l2.
Proof.
  intros H. apply NoDup_app in H as (H1 & H2 & H3). apply NoDup_cons in H3 as [H3 H4].
  rewrite unlink_app, (unlink_notin id l1) by (intros X; specialize (H2 _ X); set_solver).
  f_equal. unfold unlink. rewrite filter_cons_False by tauto. by apply unlink_notin.
Qed.
Lemma unlink_rev id l : unlink id (rev l) = rev (unlink id l).
Proof.
  induction l as [|y l IH]; [done|]. cbn [rev]. rewrite unlink_app, IH. unfold unlink at 2 3. rewrite !filter_cons.
  destruct (decide _); [done|]. by rewrite app_nil_r.
Qed.
Lemma unlink_sub id l : unlink id l `sublist_of` l.
Proof. induction l as [|y l IH]; [done|]. unfold unlink. rewrite filter_cons. destruct (decide _); by constructor. Qed.
Lemma without_ids id l : bids (without id l) = unlink id (bids l).
Proof.
  induction l as [|y l IH]; [done|]. unfold without, unlink in *. cbn [bids fmap list_fmap]. rewrite !filter_cons.
  destruct (decide (b_id y <> id)); [|done]. cbn [bids fmap list_fmap]. by f_equal.
Qed.
Lemma without_notin id l : id ∉ bids l -> without id l = l.
Proof.
  induction l as [|y l IH]; intros H; [done|]. apply not_elem_of_cons in H as [H1 H2]. unfold without. rewrite filter_cons_True by done.
  f_equal. by apply IH.
Qed.
Lemma without_split id l : NoDup (bids l) -> id ∈ bids l ->
  exists x l1 l2, b_id x = id /\ l = l1 ++ x :: l2 /\ without id l = l1 ++ l2.
Proof.
  intros H Hin. apply elem_of_list_fmap in Hin as (x & -> & Hin). apply elem_of_list_split in Hin as (l1 & l2 & ->).
  exists x, l1, l2. split; [done|]. split; [done|].
  rewrite bids_app in H. apply NoDup_app in H as (H1 & H2 & H3). apply NoDup_cons in H3 as [H3 H4].
  unfold without. rewrite filter_app, filter_cons_False by tauto.
  fold (without (b_id x) l1). fold (without (b_id x) l2). rewrite !without_notin; [done|done|].
  intros X. specialize (H2 _ X). apply H2. apply elem_of_list_here.
Qed.
Lemma without_in id l x : x ∈ without id l -> x ∈ l.
Proof. unfold without. intros H. by apply elem_of_list_filter in H as [_ H]. Qed.
Lemma from_id_app x l1 l2 : x ∉ l1 -> from_id x (l1 ++ x :: l2) = x :: l2.
Proof.
  induction l1 as [|y l1 IH]; intros H; cbn.
  - by rewrite decide_True.
  - apply not_elem_of_cons in H as [H1 H2]. rewrite decide_False by done. by apply IH.
Qed.
Lemma bids_cold l : bids (cold <$> l) = bids l.
Proof. unfold bids. rewrite <- list_fmap_compose. apply list_fmap_ext. intros i x _. done. Qed.
Lemma bbytes_cold l : bbytes (cold <$> l) = bbytes l.
Proof. induction l as [|x l IH]; [done|]. rewrite fmap_cons, !bbytes_cons, IH. done. Qed.

Lemma turn_app b a : (turn b a).1 ++ (turn b a).2 = b ++ a.
Proof. destruct a; cbn; [by rewrite app_nil_r|done]. Qed.

(** * Tables *)
Definition lin (c : cache) (cid : Z) (x : lob) : Prop :=
  exists o, c_tbl c !! b_id x = Some o /\ o_p1 o = cid /\ o_p2 o = b_fr x /\ o_size o + c_md c = b_sz x /\ 0 <= b_sz x < 2 ^ 32.

Lemma lin_nn c cid l : Forall (lin c cid) l -> bnn l.
Proof. intros H. unfold bnn. eapply Forall_impl; [exact H|]. intros x (o & _ & _ & _ & _ & Hx). cbn in *. lia. Qed.
Lemma lin_ext c c' cid l : c_md c' = c_md c -> (forall id, id ∈ bids l -> c_tbl c' !! id = c_tbl c !! id) ->
  Forall (lin c cid) l -> Forall (lin c' cid) l.
Proof.
  intros Hm Ht H. rewrite Forall_forall in *. intros x Hx. destruct (H x Hx) as (o & H1 & H2 & H3 & H4 & H5). exists o.
  rewrite Hm, Ht by (by apply elem_of_list_fmap_1). done.
Qed.
Lemma lin_bytes c cid x o : lin c cid x -> c_tbl c !! b_id x = Some o -> ql_bytes c o = b_sz x.
Proof.
  intros (o' & H1 & H2 & H3 & H4 & H5) E. rewrite E in H1. injection H1 as <-. unfold ql_bytes, u32. rewrite H4.
  by rewrite Z.mod_small.
Qed.
Lemma upd_md c id f : c_md (c_upd c id f) = c_md c. Proof. done. Qed.
Lemma upd_at c id f o : c_tbl c !! id = Some o -> c_tbl (c_upd c id f) !! id = Some (f o).
Proof. intros E. cbn. by rewrite lookup_alter, E. Qed.
Lemma upd_ne c id f j : j <> id -> c_tbl (c_upd c id f) !! j = c_tbl c !! j.
Proof. intros E. cbn. by rewrite lookup_alter_ne. Qed.
Lemma upd_dom c id f j : is_Some (c_tbl (c_upd c id f) !! j) <-> is_Some (c_tbl c !! j).
Proof.
  cbn. destruct (decide (j = id)) as [->|]; [|by rewrite lookup_alter_ne]. rewrite lookup_alter. by rewrite fmap_is_Some.
Qed.

(** * The walk of the hand *)
(** [c'] is [c] up to the objects in [l]. *)
Record framed (l : list Z) (c c' : cache) : Prop := {
  fm_size : c_size c' = c_size c; fm_md : c_md c' = c_md c; fm_nreq : c_nreq c' = c_nreq c;
  fm_nobj : c_nobj c' = c_nobj c; fm_occ : c_occ c' = c_occ c; fm_adm : c_adm c' = c_adm c;
  fm_out : forall id, id ∉ l -> c_tbl c' !! id = c_tbl c !! id;
  fm_dom : forall id, is_Some (c_tbl c' !! id) <-> is_Some (c_tbl c !! id)
}.
Lemma framed_refl l c : framed l c c.
Proof. by split. Qed.
Lemma framed_trans l c1 c2 c3 : framed l c1 c2 -> framed l c2 c3 -> framed l c1 c3.
Proof.
  intros [] []. split; try congruence.
  - intros id H. rewrite fm_out1, fm_out0; done.
  - intros id. rewrite fm_dom1, fm_dom0; done.
Qed.
Lemma framed_upd l c id f : id ∈ l -> framed l c (c_upd c id f).
Proof.
  intros H. split; try done.
  - intros j Hj. apply upd_ne. intros ->. done.
  - intros j. apply upd_dom.
Qed.

Definition hand_ok (h : hand) (b a : list lob) : Prop :=
  match h with HNull => b = [] | HAt x => head (bids a) = Some x | HFreed => False end.
Definition bits (l : list lob) : Prop := Forall (fun x => 0 <= b_fr x <= 1) l.

Lemma lin_cold c l x l2 : NoDup (bids (l ++ x :: l2)) -> Forall (lin c 2) (l ++ x :: l2) -> b_fr x = 1 ->
  Forall (lin (c_upd c (b_id x) (fun o => o_set_p2 o (o_p2 o - 1))) 2) ((l ++ [cold x]) ++ l2).
Proof.
  intros Hn H H1. rewrite bids_app in Hn. cbn [bids fmap list_fmap] in Hn.
  apply NoDup_app in Hn as (_ & N2 & N3). apply NoDup_cons in N3 as [N3 _].
  apply Forall_app in H as [Ha H]. apply Forall_cons in H as [Hx Hb].
  repeat rewrite Forall_app. split; [split|].
  - eapply lin_ext; [| |exact Ha]; [done|]. intros id Hid. apply upd_ne. intros ->. apply (N2 _ Hid). apply elem_of_list_here.
  - apply Forall_singleton. destruct Hx as (o & E & E1 & E2 & E3 & E4). eexists. split; [by apply upd_at|]. cbn. split; [done|]. split; [lia|done].
  - eapply lin_ext; [| |exact Hb]; [done|]. intros id Hid. apply upd_ne. intros ->. done.
Qed.
Lemma bits_cold l x l2 : bits (l ++ x :: l2) -> bits ((l ++ [cold x]) ++ l2).
Proof.
  unfold bits. rewrite !Forall_app, Forall_cons. intros (H1 & H2 & H3). repeat split; try done. apply Forall_singleton. cbn. lia.
Qed.
Lemma bids_cold1 l x l2 : bids ((l ++ [cold x]) ++ l2) = bids (l ++ x :: l2).
Proof. rewrite <- app_assoc. rewrite !bids_app. done. Qed.
Lemma bbytes_cold1 l x l2 : bbytes ((l ++ [cold x]) ++ l2) = bbytes (l ++ x :: l2).
Proof. rewrite <- app_assoc. rewrite (bbytes_app l (x :: l2)), (bbytes_app l). done. Qed.

Lemma scan_some rq n_loop a : forall b c fuel b' a' x, (length a <= fuel)%nat -> bids (b ++ a) = rq -> NoDup rq ->
  Forall (lin c 2) (b ++ a) -> bits (b ++ a) -> sweep b a = Some (b', a', x) ->
  exists c' h l1 l2, qdl_scan fuel c rq (bids a) n_loop = Ok (c', b_id x, h) /\ hand_ok h b' a' /\ framed rq c c' /\
    b' ++ a' = l1 ++ l2 /\ rq = bids (l1 ++ x :: l2) /\ Forall (lin c' 2) (l1 ++ x :: l2) /\ bits (l1 ++ x :: l2) /\
    bbytes (b ++ a) = bbytes (l1 ++ x :: l2).
Proof.
  induction a as [|y a IH]; intros b c fuel b' a' x Hf Hq Hn HL HB Hs; [done|]. cbn [sweep] in Hs.
  destruct fuel as [|fuel]; [cbn in Hf; lia|]. cbn [length] in Hf.
  assert (Hy : lin c 2 y /\ 0 <= b_fr y <= 1).
  { unfold bits in HB. rewrite Forall_app, Forall_cons in HL, HB. tauto. }
  destruct Hy as [Hy By]. destruct Hy as (o & E & E1 & E2 & E3 & E4).
  cbn [bids fmap list_fmap qdl_scan]. unfold ql_obj. rewrite E. cbn [rbind]. rewrite E2.
  destruct (decide (b_fr y > 0)) as [Hp|Hp].
  - destruct a as [|z a]; [done|]. cbn [fmap list_fmap].
    destruct (IH (b ++ [cold y]) (c_upd c (b_id y) (fun o => o_set_p2 o (o_p2 o - 1))) fuel b' a' x) as (c' & h & l1 & l2 & H1 & H2 & H3 & H4 & H5 & H6 & H7 & H8); try done.
    { lia. } { by rewrite bids_cold1. } { apply lin_cold; [by rewrite Hq|done|lia]. } { by apply bits_cold. }
    exists c', h, l1, l2. split; [exact H1|]. split; [done|]. split.
    { eapply framed_trans; [|exact H3]. apply framed_upd. rewrite <- Hq, bids_app. apply elem_of_app. right. apply elem_of_list_here. }
    rewrite bbytes_cold1 in H8. done.
  - injection Hs as Ht <-. exists c.
    eexists _, b, a. split; [done|]. split.
    { destruct a as [|z a]; cbn in Ht |- *; injection Ht as <- <-; done. }
    split; [apply framed_refl|]. split.
    { pose proof (turn_app b a) as T. rewrite Ht in T. done. }
    done.
Qed.

Lemma scan_none rq n_loop a : forall b c fuel, n_loop + 1 < 1000 -> a <> [] -> bids (b ++ a) = rq -> NoDup rq ->
  Forall (lin c 2) (b ++ a) -> bits (b ++ a) -> sweep b a = None ->
  exists c', qdl_scan (length a + fuel) c rq (bids a) n_loop = qdl_scan fuel c' rq rq (n_loop + 1) /\ framed rq c c' /\
    Forall (lin c' 2) (b ++ (cold <$> a)) /\ bits (b ++ (cold <$> a)).
Proof.
  induction a as [|y a IH]; intros b c fuel Hl Hne Hq Hn HL HB Hs; [done|]. cbn [sweep] in Hs.
  assert (Hy : lin c 2 y /\ 0 <= b_fr y <= 1).
  { unfold bits in HB. rewrite Forall_app, Forall_cons in HL, HB. tauto. }
  destruct Hy as [Hy By]. destruct Hy as (o & E & E1 & E2 & E3 & E4).
  cbn [length Nat.add bids fmap list_fmap qdl_scan]. unfold ql_obj. rewrite E. cbn [rbind]. rewrite E2.
  destruct (decide (b_fr y > 0)) as [Hp|Hp]; [|done].
  assert (HL' : Forall (lin (c_upd c (b_id y) (fun o => o_set_p2 o (o_p2 o - 1))) 2) ((b ++ [cold y]) ++ a)) by (apply lin_cold; [by rewrite Hq|done|lia]).
  assert (HF : framed rq c (c_upd c (b_id y) (fun o => o_set_p2 o (o_p2 o - 1)))).
  { apply framed_upd. rewrite <- Hq, bids_app. apply elem_of_app. right. apply elem_of_list_here. }
  apply bits_cold in HB. destruct a as [|z a].
  - cbn [fmap list_fmap length Nat.add]. rewrite decide_True by done. eexists. split; [done|]. split; [done|]. rewrite app_nil_r in HL', HB. done.
  - destruct (IH (b ++ [cold y]) _ fuel Hl ltac:(done) ltac:(by rewrite bids_cold1) Hn HL' HB Hs) as (c' & H1 & H2 & H3 & H4).
    exists c'. split; [exact H1|]. split; [by eapply framed_trans|]. rewrite <- app_assoc in H3, H4. done.
Qed.

Lemma sweep_find l : forall b, Exists (fun x => b_fr x <= 0) l -> is_Some (sweep b l).
Proof.
  induction l as [|x l IH]; intros b H; [by apply Exists_nil in H|]. cbn [sweep].
  destruct (decide (b_fr x > 0)); [|done]. apply IH. apply Exists_cons in H as [H|H]; [lia|done].
Qed.

Lemma scan_ok rq b a c : bids (b ++ a) = rq -> NoDup rq -> a <> [] -> Forall (lin c 2) (b ++ a) -> bits (b ++ a) ->
  exists b' a' x c' h l1 l2, clock_out b a = Some (b', a', x) /\
    qdl_scan (S (2 * length rq)) c rq (bids a) 0 = Ok (c', b_id x, h) /\ hand_ok h b' a' /\ framed rq c c' /\
    b' ++ a' = l1 ++ l2 /\ rq = bids (l1 ++ x :: l2) /\ Forall (lin c' 2) (l1 ++ x :: l2) /\ bits (l1 ++ x :: l2) /\
    bbytes (b ++ a) = bbytes (l1 ++ x :: l2).
Proof.
  intros Hq Hn Ha HL HB. unfold clock_out.
  assert (Hlen : length rq = (length b + length a)%nat) by (rewrite <- Hq; unfold bids; by rewrite fmap_length, app_length).
  destruct (sweep b a) as [[[b' a'] x]|] eqn:Es.
  - destruct (scan_some rq 0 a b c (S (2 * length rq)) b' a' x) as (c' & h & l1 & l2 & H); try done; [lia|].
    exists b', a', x, c', h, l1, l2. done.
  - assert (Hsp : is_Some (sweep [] (b ++ (cold <$> a)))).
    { apply sweep_find. destruct a as [|z a]; [done|]. apply Exists_app. right. left. cbn. lia. }
    destruct Hsp as [[[b' a'] x] Es2].
    destruct (scan_none rq 0 a b c (S (2 * length rq) - length a) ltac:(lia) Ha Hq Hn HL HB Es) as (c1 & H1 & H2 & H3 & H4).
    replace (length a + (S (2 * length rq) - length a))%nat with (S (2 * length rq))%nat in H1 by lia.
    assert (Hq2 : bids ([] ++ b ++ (cold <$> a)) = rq) by (cbn; by rewrite bids_app, bids_cold, <- bids_app).
    destruct (scan_some rq 1 (b ++ (cold <$> a)) [] c1 (S (2 * length rq) - length a) b' a' x) as (c' & h & l1 & l2 & G1 & G2 & G3 & G4 & G5 & G6 & G7 & G8); try done.
    { rewrite app_length, fmap_length. lia. }
    exists b', a', x, c', h, l1, l2. split; [done|]. cbn [app] in Hq2. rewrite Hq2 in G1. split; [by rewrite H1|]. split; [done|].
    split; [by eapply framed_trans|]. repeat (split; [done|]). rewrite <- G8. cbn. rewrite !bbytes_app, bbytes_cold. done.
Qed.

(** * The state *)
Lemma last_cases {A} (l : list A) : l = [] \/ exists l' x, l = l' ++ [x].
Proof. destruct l as [|x l] using rev_ind; [by left|right; eauto]. Qed.
Lemma drop_nd (l l' : list Z) x : l ≡ₚ x :: l' -> NoDup l -> NoDup l' /\ x ∉ l'.
Proof. intros H Hn. rewrite H in Hn. apply NoDup_cons in Hn as [? ?]. done. Qed.
Lemma drop_dom {A} (m : gmap Z A) (l l' : list Z) x : l ≡ₚ x :: l' -> (forall id, is_Some (m !! id) -> id ∈ l) ->
  forall id, is_Some (delete x m !! id) -> id ∈ l'.
Proof.
  intros H Hm id Hid. destruct (decide (id = x)) as [->|Hne]; [rewrite lookup_delete in Hid; by destruct Hid|].
  rewrite lookup_delete_ne in Hid by done. specialize (Hm _ Hid). rewrite H in Hm. by apply elem_of_cons in Hm as [?|?].
Qed.
Definition d_all (d : qd) : list lob := d_f d ++ d_k d ++ d_g d.

Ltac flds := cbn [ql_c ql_f ql_k ql_g ql_fb ql_kb ql_gb ql_kn ql_fs ql_ks ql_gs ql_hand ql_vt ql_with ql_clock ql_fifo ql_ghost ql_seen ql_put
  evict_base_keep tbl_delete c_upd c_set_tbl c_set_adm c_incr_nreq c_occ c_nobj c_size c_md c_nreq c_adm c_tbl d_f d_b d_a d_g d_k d_hot d_adm].

Section Rel.
  Context (fs ks cap md : Z).

  Record drel (s : qdl) (d : qd) : Prop := {
    dr_f : ql_f s = bids (d_f d);
    dr_k : ql_k s = rev (bids (d_k d));
    dr_g : ql_g s = bids (d_g d);
    dr_lf : Forall (lin (ql_c s) 1) (d_f d);
    dr_lk : Forall (lin (ql_c s) 2) (d_k d);
    dr_lg : Forall (lin (ql_c s) 3) (d_g d);
    dr_nd : NoDup (bids (d_all d));
    dr_dom : forall id, is_Some (c_tbl (ql_c s) !! id) -> id ∈ bids (d_all d);
    dr_fb : ql_fb s = bbytes (d_f d);
    dr_kb : ql_kb s = bbytes (d_k d);
    dr_gb : ql_gb s = bbytes (d_g d);
    dr_kn : ql_kn s = Z.of_nat (length (d_k d));
    dr_occ : c_occ (ql_c s) = bbytes (d_held d);
    dr_nobj : c_nobj (ql_c s) = Z.of_nat (length (d_held d));
    dr_fs : ql_fs s = fs; dr_ks : ql_ks s = ks; dr_gs : ql_gs s = ks;
    dr_size : c_size (ql_c s) = cap; dr_md : c_md (ql_c s) = md;
    dr_hand : hand_ok (ql_hand s) (d_b d) (d_a d);
    dr_hot : d_hot d = bool_decide (c_nreq (ql_c s) = ql_vt s);
    dr_vt : ql_vt s <= c_nreq (ql_c s);
    dr_adm : c_adm (ql_c s) = d_adm d;
    dr_bk : bits (d_k d);
    dr_bf : Forall (fun x => 0 <= b_fr x) (d_f d)
  }.

  Lemma nd_parts d : NoDup (bids (d_all d)) ->
    NoDup (bids (d_f d)) /\ NoDup (bids (d_k d)) /\ NoDup (bids (d_g d)) /\
    (forall id, id ∈ bids (d_f d) -> id ∉ bids (d_k d) /\ id ∉ bids (d_g d)) /\
    (forall id, id ∈ bids (d_k d) -> id ∉ bids (d_f d) /\ id ∉ bids (d_g d)) /\
    (forall id, id ∈ bids (d_g d) -> id ∉ bids (d_f d) /\ id ∉ bids (d_k d)).
  Proof.
    unfold d_all. rewrite !bids_app. intros H. apply NoDup_app in H as (H1 & H2 & H3). apply NoDup_app in H3 as (H3 & H4 & H5).
    split; [done|]. split; [done|]. split; [done|]. assert (H2' : forall x, x ∈ bids (d_f d) -> x ∉ bids (d_k d) /\ x ∉ bids (d_g d)) by (intros x Hx; apply not_elem_of_app; by apply H2). naive_solver.
  Qed.
  Lemma in_all d id : id ∈ bids (d_all d) <-> id ∈ bids (d_f d) \/ id ∈ bids (d_k d) \/ id ∈ bids (d_g d).
  Proof. unfold d_all. rewrite !bids_app, !elem_of_app. done. Qed.
  Lemma in_held d id : id ∈ bids (d_held d) <-> id ∈ bids (d_f d) \/ id ∈ bids (d_k d).
  Proof. unfold d_held. rewrite !bids_app, !elem_of_app. done. Qed.
  Lemma lin_at c cid l id : Forall (lin c cid) l -> id ∈ bids l ->
    exists x o, x ∈ l /\ b_id x = id /\ c_tbl c !! id = Some o /\ o_p1 o = cid /\ o_p2 o = b_fr x /\ ql_bytes c o = b_sz x.
  Proof.
    intros H Hin. apply elem_of_list_fmap in Hin as (x & -> & Hx). rewrite Forall_forall in H. specialize (H x Hx).
    pose proof H as (o & H1 & H2 & H3 & H4 & H5). exists x, o. repeat (split; [done|]). by eapply lin_bytes.
  Qed.

  Lemma remove_base c id o : c_tbl c !! id = Some o ->
    cache_remove_obj_base c id = Ok (mkCache (c_size c) (c_md c) (c_nreq c) (c_nobj c - 1) (c_occ c - ql_bytes c o) (delete id (c_tbl c)) (c_adm c)).
  Proof. intros E. unfold cache_remove_obj_base. by rewrite E. Qed.

  (** one object out of the Clock *)
  Lemma clock_evict_ok s d : drel s d -> d_k d <> [] ->
    exists b a x s', clock_out (d_b d) (d_a d) = Some (b, a, x) /\ qdl_clock_evict s = Ok s' /\
      drel s' (mkQD (d_f d) b a (d_g d) (d_hot d) (d_adm d)) /\ b_id x ∈ bids (d_k d) /\
      bids (b ++ a) = unlink (b_id x) (bids (d_k d)) /\
      length (d_k d) = S (length (b ++ a)) /\ bbytes (d_k d) = b_sz x + bbytes (b ++ a) /\ 0 <= b_sz x.
  Proof.
    intros [Rf Rk Rg Lf Lk Lg Nd Dm Fb Kb Gb Kn Oc No Zf Zk Zg Sz Md Ha Ho Vt Ad Bk Bf] Hne.
    destruct (nd_parts d Nd) as (Nf & Nk & Ng & Df & Dk & Dg).
    assert (Hq : rev (ql_k s) = bids (d_k d)) by (by rewrite Rk, rev_involutive).
    assert (Hane : d_a d <> []).
    { intros E. destruct (ql_hand s); cbn in Ha; [|by rewrite E in Ha|done]. apply Hne. unfold d_k. by rewrite Ha, E. }
    assert (Hcur : match ql_hand s with HNull => Ok (bids (d_k d)) | HAt x => Ok (from_id x (bids (d_k d))) | HFreed => Err UseAfterFree end
                   = Ok (bids (d_a d))).
    { destruct (ql_hand s); cbn in Ha; [| |done].
      - unfold d_k. by rewrite Ha.
      - f_equal. unfold d_k in *. rewrite bids_app in *. destruct (d_a d) as [|z a]; [done|]. cbn in Ha. injection Ha as <-.
        cbn [bids fmap list_fmap] in *. apply from_id_app. apply NoDup_app in Nk as (_ & Nk & _). intros X. apply (Nk _ X). apply elem_of_list_here. }
    destruct (scan_ok (bids (d_k d)) (d_b d) (d_a d) (ql_c s) eq_refl Nk Hane Lk Bk) as (b & a & x & c & h & l1 & l2 & H1 & H2 & H3 & H4 & H5 & H6 & H7 & H8 & H9).
    destruct H4 as [M1 M2 M3 M4 M5 M6 M7 M8].
    assert (Hx : lin c 2 x) by (rewrite Forall_app, Forall_cons in H7; tauto).
    pose proof Hx as (o & Eo & _).
    pose proof (lin_bytes _ _ _ _ Hx Eo) as Hw.
    assert (Hin : b_id x ∈ bids (d_k d)).
    { rewrite H6, bids_app. apply elem_of_app. right. apply elem_of_list_here. }
    assert (Hun : unlink (b_id x) (bids (d_k d)) = bids (l1 ++ l2)).
    { rewrite H6 in Nk |- *. rewrite !bids_app in *. by apply unlink_mid. }
    assert (Hbl : bbytes (l1 ++ x :: l2) = b_sz x + bbytes (l1 ++ l2)) by (rewrite !bbytes_app, bbytes_cons; lia).
    assert (Hlen : length (d_k d) = S (length (l1 ++ l2))).
    { apply (f_equal length) in H6. unfold bids in H6. rewrite !fmap_length, app_length in H6. cbn in H6. rewrite app_length. lia. }
    eexists b, a, x, _. split; [done|]. split.
    { unfold qdl_clock_evict. rewrite Hq, Hcur. cbn [rbind]. rewrite H2. cbn [rbind]. unfold ql_obj at 1. rewrite Eo. cbn [rbind].
      unfold cache_evict_base. rewrite (remove_base _ _ _ Eo). cbn [rbind]. reflexivity. }
    unfold d_k at 1. cbn [d_b d_a].
    assert (Hout : forall id, id ∉ bids (d_k d) -> delete (b_id x) (c_tbl c) !! id = c_tbl (ql_c s) !! id).
    { intros id Hid. rewrite lookup_delete_ne by (intros <-; done). by apply M7. }
    assert (HP : bids (d_all d) ≡ₚ b_id x :: bids (d_all (mkQD (d_f d) b a (d_g d) (d_hot d) (d_adm d)))).
    { unfold d_all at 1. rewrite !bids_app, H6. unfold d_all, d_k. cbn [d_f d_b d_a d_g]. rewrite H5, !bids_app. cbn [bids fmap list_fmap].
      rewrite <- !app_assoc. cbn [app]. rewrite <- !Permutation_middle. done. }
    assert (M8' : forall id, is_Some (delete (b_id x) (c_tbl c) !! id) -> is_Some (delete (b_id x) (c_tbl (ql_c s)) !! id)).
    { intros id. destruct (decide (id = b_id x)) as [->|]; [by rewrite !lookup_delete|]. rewrite !lookup_delete_ne by done. by rewrite M8. }
    split; [|split; [done|]; rewrite H5; split; [done|]; split; [done|]; unfold d_k; split; [lia|]; destruct Hx as (? & ? & ? & ? & ? & ?); lia].
    split; flds; try done.
    - unfold d_k at 1. cbn [d_b d_a]. rewrite Rk, unlink_rev, Hun, H5. done.
    - eapply lin_ext; [| |exact Lf]; [by cbn; congruence|]. intros id Hid. cbn. apply Hout. by apply Df.
    - unfold d_k. cbn [d_b d_a]. rewrite H5. assert (HL : Forall (lin c 2) (l1 ++ l2)) by (rewrite Forall_app, Forall_cons in H7; rewrite Forall_app; tauto).
      eapply lin_ext; [| |exact HL]; [done|]. intros id Hid. cbn. apply lookup_delete_ne. intros <-.
      rewrite <- Hun in Hid. unfold unlink in Hid. by apply elem_of_list_filter in Hid as [? _].
    - eapply lin_ext; [| |exact Lg]; [by cbn; congruence|]. intros id Hid. cbn. apply Hout. by apply Dg.
    - by eapply drop_nd.
    - intros id Hid. eapply drop_dom; [exact HP|exact Dm|]. apply M8' in Hid. exact Hid.
    - unfold d_k at 1. cbn [d_b d_a]. rewrite Kb, Hw, H5. unfold d_k. lia.
    - unfold d_k at 1. cbn [d_b d_a]. rewrite Kn, Hlen, H5. lia.
    - unfold d_held, d_k. cbn [d_f d_b d_a]. rewrite M5, Oc, Hw, H5. unfold d_held, d_k. rewrite !bbytes_app. rewrite !bbytes_app in H9, Hbl. lia.
    - unfold d_held, d_k. cbn [d_f d_b d_a]. rewrite M4, No, H5. unfold d_held. rewrite !app_length in *. lia.
    - congruence.
    - congruence.
    - by rewrite M3.
    - by rewrite M3.
    - congruence.
    - unfold d_k. cbn [d_b d_a]. rewrite H5. unfold bits in *. rewrite Forall_app, Forall_cons in H8. rewrite Forall_app. tauto.
  Qed.

  Definition d_with (d : qd) (f g : list lob) : qd := mkQD f (d_b d) (d_a d) g (d_hot d) (d_adm d).

  Lemma split_ids (l1 l2 : list lob) x : bids (l1 ++ x :: l2) ≡ₚ b_id x :: bids (l1 ++ l2).
  Proof. rewrite !bids_app. cbn [bids fmap list_fmap]. by rewrite <- Permutation_middle. Qed.
  Lemma split_bytes (l1 l2 : list lob) x : bbytes (l1 ++ x :: l2) = b_sz x + bbytes (l1 ++ l2).
  Proof. rewrite !bbytes_app, bbytes_cons. lia. Qed.
  Lemma split_len (l1 l2 : list lob) x : length (l1 ++ x :: l2) = S (length (l1 ++ l2)).
  Proof. rewrite !app_length. cbn. lia. Qed.
  Lemma lin_del c cid l c' id : c_md c' = c_md c -> c_tbl c' = delete id (c_tbl c) -> id ∉ bids l ->
    Forall (lin c cid) l -> Forall (lin c' cid) l.
  Proof. intros Hm Ht Hn. apply lin_ext; [done|]. intros j Hj. rewrite Ht. apply lookup_delete_ne. intros ->. done. Qed.
  Lemma lin_sub c cid l l' : (forall x, x ∈ l' -> x ∈ l) -> Forall (lin c cid) l -> Forall (lin c cid) l'.
  Proof. rewrite !Forall_forall. eauto. Qed.

  Lemma rm_f s d id : drel s d -> id ∈ bids (d_f d) ->
    exists s', qdl_remove_obj s id = Ok s' /\ drel s' (d_with d (without id (d_f d)) (d_g d)).
  Proof.
    intros [Rf Rk Rg Lf Lk Lg Nd Dm Fb Kb Gb Kn Oc No Zf Zk Zg Sz Md Ha Ho Vt Ad Bk Bf] Hin.
    destruct (nd_parts d Nd) as (Nf & Nk & Ng & Df & Dk & Dg).
    destruct (without_split id (d_f d) Nf Hin) as (x & l1 & l2 & <- & Ef & Ew).
    assert (Hx : lin (ql_c s) 1 x) by (rewrite Ef, Forall_app, Forall_cons in Lf; tauto).
    pose proof Hx as (o & Eo & E1 & E2 & _). pose proof (lin_bytes _ _ _ _ Hx Eo) as Hw.
    unfold qdl_remove_obj, ql_obj. rewrite Eo. cbn [rbind]. rewrite decide_True by done. rewrite (remove_base _ _ _ Eo). cbn [rbind].
    eexists. split; [done|]. unfold d_with. rewrite Ew.
    assert (HP : bids (d_all d) ≡ₚ b_id x :: bids (d_all (mkQD (l1 ++ l2) (d_b d) (d_a d) (d_g d) (d_hot d) (d_adm d)))).
    { unfold d_all. cbn [d_f d_g]. change (d_k (mkQD _ _ _ _ _ _)) with (d_k d).
      rewrite Ef. rewrite (bids_app (l1 ++ x :: l2)), split_ids, (bids_app (l1 ++ l2)). done. }
    split; flds; change (d_k (mkQD _ _ _ _ _ _)) with (d_k d); try done.
    - rewrite Rf, <- without_ids, Ew. done.
    - eapply lin_del; [| | |eapply lin_sub; [|exact Lf]]; [done|done| |].
      + intros X. rewrite Ef in Nf. rewrite split_ids in Nf. by apply NoDup_cons in Nf as [? _].
      + intros y Hy. rewrite Ef. rewrite elem_of_app, elem_of_cons in *. tauto.
    - eapply lin_del; [| | |exact Lk]; [done|done|]. by apply Df.
    - eapply lin_del; [| | |exact Lg]; [done|done|]. by apply Df.
    - by eapply drop_nd.
    - intros j Hj. eapply drop_dom; [exact HP|exact Dm|done].
    - rewrite Fb, Ef, split_bytes, Hw. lia.
    - rewrite Oc, Hw. unfold d_held. flds. change (d_k (mkQD _ _ _ _ _ _)) with (d_k d). rewrite !(bbytes_app _ (d_k d)), Ef, split_bytes. lia.
    - rewrite No. unfold d_held. flds. change (d_k (mkQD _ _ _ _ _ _)) with (d_k d). rewrite !(app_length _ (d_k d)), Ef, split_len. lia.
    - rewrite Ef, Forall_app, Forall_cons in Bf. rewrite Forall_app. tauto.
  Qed.

  Lemma rm_g s d id : drel s d -> id ∈ bids (d_g d) ->
    exists s', qdl_remove_obj s id = Ok s' /\ drel s' (d_with d (d_f d) (without id (d_g d))).
  Proof.
    intros [Rf Rk Rg Lf Lk Lg Nd Dm Fb Kb Gb Kn Oc No Zf Zk Zg Sz Md Ha Ho Vt Ad Bk Bf] Hin.
    destruct (nd_parts d Nd) as (Nf & Nk & Ng & Df & Dk & Dg).
    destruct (without_split id (d_g d) Ng Hin) as (x & l1 & l2 & <- & Ef & Ew).
    assert (Hx : lin (ql_c s) 3 x) by (rewrite Ef, Forall_app, Forall_cons in Lg; tauto).
    pose proof Hx as (o & Eo & E1 & E2 & _). pose proof (lin_bytes _ _ _ _ Hx Eo) as Hw.
    unfold qdl_remove_obj, ql_obj. rewrite Eo. cbn [rbind]. rewrite E1. cbn.
    eexists. split; [done|]. unfold d_with. rewrite Ew.
    assert (HP : bids (d_all d) ≡ₚ b_id x :: bids (d_all (mkQD (d_f d) (d_b d) (d_a d) (l1 ++ l2) (d_hot d) (d_adm d)))).
    { unfold d_all. cbn [d_f d_g]. change (d_k (mkQD _ _ _ _ _ _)) with (d_k d).
      rewrite Ef. rewrite !(bids_app (d_f d)), !(bids_app (d_k d)), split_ids, <- !Permutation_middle. done. }
    split; flds; change (d_k (mkQD _ _ _ _ _ _)) with (d_k d); change (d_held (mkQD _ _ _ _ _ _)) with (d_held d); try done.
    - rewrite Rg, <- without_ids, Ew. done.
    - eapply lin_del; [| | |exact Lf]; [done|done|]. by apply Dg.
    - eapply lin_del; [| | |exact Lk]; [done|done|]. by apply Dg.
    - eapply lin_del; [| | |eapply lin_sub; [|exact Lg]]; [done|done| |].
      + intros X. rewrite Ef in Ng. rewrite split_ids in Ng. by apply NoDup_cons in Ng as [? _].
      + intros y Hy. rewrite Ef. rewrite elem_of_app, elem_of_cons in *. tauto.
    - by eapply drop_nd.
    - intros j Hj. eapply drop_dom; [exact HP|exact Dm|done].
    - rewrite Gb, Ef, split_bytes, Hw. lia.
  Qed.

  (** the ghosts are cut back *)
  Lemma ghost_loop n : forall s d, drel s d -> (length (d_g d) <= n)%nat -> 0 <= ks ->
    exists s', while_ n (fun s => Ok (bool_decide (ql_gb s > ql_gs s)))
            (fun s => match last (ql_g s) with None => Err NullDeref | Some y => qdl_remove_obj s y end) s = Ok s' /\
      drel s' (d_with d (d_f d) (spill ks (d_g d)).1).
  Proof.
    induction n as [|n IH]; intros s d H Hl Hk.
    - assert (Eg : d_g d = []) by (destruct (d_g d); [done|cbn in Hl; lia]).
      cbn [while_ rbind]. rewrite bool_decide_eq_false_2 by (rewrite (dr_gb _ _ H), (dr_gs _ _ H), Eg; cbn; lia).
      exists s. split; [done|]. unfold d_with. rewrite Eg. cbn [spill fst]. rewrite <- Eg. by destruct d.
    - cbn [while_ rbind]. rewrite (dr_gb _ _ H), (dr_gs _ _ H). destruct (decide (bbytes (d_g d) > ks)) as [Hb|Hb].
      + rewrite bool_decide_eq_true_2 by done.
        destruct (last_cases (d_g d)) as [Eg|(l & x & Eg)]; [rewrite Eg in Hb; cbn in Hb; lia|].
        rewrite (dr_g _ _ H), Eg, bids_app. cbn [bids fmap list_fmap]. rewrite last_snoc.
        destruct (nd_parts d (dr_nd _ _ H)) as (Nf & Nk & Ng & Df & Dk & Dg).
        destruct (rm_g s d (b_id x) H) as (s1 & E1 & H1). { rewrite Eg, bids_app. apply elem_of_app. right. apply elem_of_list_here. }
        rewrite E1. cbn [rbind]. assert (Ew : without (b_id x) (d_g d) = l).
        { rewrite Eg in Ng |- *. rewrite bids_app in Ng. apply NoDup_app in Ng as (_ & Ng & _). unfold without. rewrite filter_app.
          fold (without (b_id x) l). rewrite without_notin; [|intros X; apply (Ng _ X); apply elem_of_list_here].
          rewrite filter_cons_False by tauto. apply app_nil_r. }
        rewrite Ew in H1. destruct (IH s1 _ H1) as (s2 & E2 & H2); [|done|].
        { cbn [d_with d_g]. rewrite Eg, app_length in Hl. cbn in Hl. lia. }
        exists s2. split; [exact E2|]. unfold d_with in *. cbn [d_f d_b d_a d_g d_hot d_adm] in H2.
        rewrite spill_snoc; [done| |by rewrite <- Eg]. rewrite <- Eg. eapply lin_nn. apply (dr_lg _ _ H).
      + rewrite bool_decide_eq_false_2 by done. exists s. split; [done|]. rewrite spill_fit; [by destruct d| |lia].
        eapply lin_nn. apply (dr_lg _ _ H).
  Qed.

  (** the Clock is cut back *)
  Lemma clock_loop n : forall s d, drel s d -> (length (d_k d) <= n)%nat -> 0 <= ks ->
    exists b a s', clock_fit n ks (d_b d) (d_a d) = (b, a) /\
      while_ n (fun s => Ok (bool_decide (ql_kb s > ql_ks s))) qdl_clock_evict s = Ok s' /\
      drel s' (mkQD (d_f d) b a (d_g d) (d_hot d) (d_adm d)) /\
      bbytes (b ++ a) <= ks /\ bids (b ++ a) ⊆+ bids (d_k d) /\ bbytes (b ++ a) <= bbytes (d_k d).
  Proof.
    induction n as [|n IH]; intros s d H Hl Hk.
    - assert (Eg : d_k d = []) by (destruct (d_k d); [done|cbn in Hl; lia]).
      cbn [while_ rbind clock_fit]. rewrite bool_decide_eq_false_2 by (rewrite (dr_kb _ _ H), (dr_ks _ _ H), Eg; cbn; lia).
      exists (d_b d), (d_a d), s. split; [done|]. split; [done|]. split; [by destruct d|]. fold (d_k d). rewrite Eg. done.
    - cbn [while_ rbind clock_fit]. fold (d_k d). rewrite (dr_kb _ _ H), (dr_ks _ _ H). destruct (decide (bbytes (d_k d) > ks)) as [Hb|Hb].
      + rewrite bool_decide_eq_true_2 by done.
        destruct (clock_evict_ok s d H) as (b & a & x & s1 & E1 & E2 & H1 & H2 & H3 & H4 & H5 & H6). { intros E. rewrite E in Hb. cbn in Hb. lia. }
        rewrite E1, E2. cbn [rbind]. destruct (IH s1 _ H1) as (b' & a' & s2 & G1 & G2 & G3 & G4 & G5 & G6); [|done|].
        { change (d_k (mkQD (d_f d) b a (d_g d) (d_hot d) (d_adm d))) with (b ++ a). lia. }
        exists b', a', s2. cbn [d_f d_b d_a d_g d_hot d_adm] in *. split; [done|]. split; [done|]. split; [done|]. split; [done|].
        change (d_k (mkQD (d_f d) b a (d_g d) (d_hot d) (d_adm d))) with (b ++ a) in *. split.
        * etrans; [exact G5|]. rewrite H3. apply sublist_submseteq. apply unlink_sub.
        * lia.
      + rewrite bool_decide_eq_false_2 by done. exists (d_b d), (d_a d), s. split; [done|]. split; [done|]. split; [by destruct d|].
        fold (d_k d). split; [lia|]. done.
  Qed.

  Lemma lin_put c cid l id f : id ∉ bids l -> Forall (lin c cid) l -> Forall (lin (c_upd c id f) cid) l.
  Proof. intros Hn. apply lin_ext; [done|]. intros j Hj. apply upd_ne. intros ->. done. Qed.

  Definition d_size (d : qd) : nat := 2 * length (d_f d) + length (d_k d).

  (** the oldest object of the FIFO moves to the Clock *)
  Lemma to_clock s d l x : drel s d -> d_f d = l ++ [x] ->
    drel (ql_with (ql_clock (ql_fifo s (unlink (b_id x) (ql_f s)) (ql_fb s - b_sz x)) (b_id x :: ql_k s) (ql_kn s + 1) (ql_kb s + b_sz x) (ql_hand s))
            (ql_put (ql_c s) (b_id x) 2 0))
      (mkQD l (d_b d) (d_a d ++ [cold x]) (d_g d) (d_hot d) (d_adm d)).
  Proof.
    intros [Rf Rk Rg Lf Lk Lg Nd Dm Fb Kb Gb Kn Oc No Zf Zk Zg Sz Md Ha Ho Vt Ad Bk Bf] Ef.
    destruct (nd_parts d Nd) as (Nf & Nk & Ng & Df & Dk & Dg).
    assert (Hin : b_id x ∈ bids (d_f d)) by (rewrite Ef, bids_app; apply elem_of_app; right; apply elem_of_list_here).
    assert (Hx : lin (ql_c s) 1 x) by (rewrite Ef, Forall_app, Forall_cons in Lf; tauto).
    assert (Nl : b_id x ∉ bids l).
    { rewrite Ef, bids_app in Nf. apply NoDup_app in Nf as (_ & Nf & _). intros X. apply (Nf _ X). apply elem_of_list_here. }
    set (d' := mkQD _ _ _ _ _ _). assert (Ek : d_k d' = d_k d ++ [cold x]) by (unfold d_k; cbn; by rewrite app_assoc).
    assert (HP : bids (d_all d) ≡ₚ bids (d_all d')).
    { unfold d_all. rewrite Ek. cbn [d' d_f d_g]. rewrite Ef, !bids_app. rewrite <- !app_assoc.
      apply Permutation_app_head. cbn [bids fmap list_fmap cold b_id]. rewrite !app_assoc. apply Permutation_app_tail. apply Permutation_app_comm. }
    assert (Ed : forall id, is_Some (c_tbl (c_upd (ql_c s) (b_id x) (fun o => o_set_p2 (o_set_p1 o 2) 0)) !! id) <-> is_Some (c_tbl (ql_c s) !! id)) by (intros; apply upd_dom).
    split; rewrite ?Ek; cbn [d' d_f d_g d_hot d_adm d_b d_a]; try done.
    - cbn. rewrite Rf, Ef, bids_app. cbn [bids fmap list_fmap]. rewrite unlink_mid; [by rewrite app_nil_r|]. rewrite Ef, bids_app in Nf. done.
    - cbn. rewrite Rk, bids_app, rev_app_distr. done.
    - apply lin_put; [done|]. rewrite Ef, Forall_app in Lf. tauto.
    - apply Forall_app. split; [apply lin_put; [|done]; by apply Df|]. apply Forall_singleton.
      destruct Hx as (o & E & E1 & E2 & E3 & E4). eexists. split; [by apply upd_at|]. done.
    - apply lin_put; [|done]. by apply Df.
    - by rewrite <- HP.
    - intros id Hid. rewrite <- HP. apply Dm. by apply Ed.
    - flds. rewrite Fb, Ef, bbytes_app. cbn. lia.
    - flds. rewrite Kb, bbytes_app. cbn. lia.
    - flds. rewrite Kn, app_length. cbn. lia.
    - cbn [ql_with ql_c ql_put c_upd c_set_tbl c_occ]. rewrite Oc. unfold d_held. rewrite Ek. cbn [d' d_f]. rewrite Ef, !bbytes_app. cbn. lia.
    - cbn [ql_with ql_c ql_put c_upd c_set_tbl c_nobj]. rewrite No. unfold d_held. rewrite Ek. cbn [d' d_f]. rewrite Ef, !app_length. cbn. lia.
    - cbn [ql_hand ql_with ql_clock ql_fifo]. destruct (ql_hand s); cbn in Ha |- *; [done| |done]. destruct (d_a d); [done|]. cbn in *. done.
    - unfold bits in *. apply Forall_app. split; [done|]. apply Forall_singleton. cbn. lia.
    - rewrite Ef, Forall_app in Bf. tauto.
  Qed.

  (** the oldest object of the FIFO becomes a ghost *)
  Lemma to_ghost s d l x o : drel s d -> d_f d = l ++ [x] -> c_tbl (ql_c s) !! b_id x = Some o -> 
    drel (ql_with (ql_ghost (ql_fifo s (unlink (b_id x) (ql_f s)) (ql_fb s - b_sz x)) (b_id x :: ql_g s) (ql_gb s + b_sz x))
            (c_upd (evict_base_keep (ql_c s) o) (b_id x) (fun o => o_set_p1 o 3)))
      (mkQD l (d_b d) (d_a d) (x :: d_g d) (d_hot d) (d_adm d)).
  Proof.
    intros [Rf Rk Rg Lf Lk Lg Nd Dm Fb Kb Gb Kn Oc No Zf Zk Zg Sz Md Ha Ho Vt Ad Bk Bf] Ef Eo.
    destruct (nd_parts d Nd) as (Nf & Nk & Ng & Df & Dk & Dg).
    assert (Hin : b_id x ∈ bids (d_f d)) by (rewrite Ef, bids_app; apply elem_of_app; right; apply elem_of_list_here).
    assert (Hx : lin (ql_c s) 1 x) by (rewrite Ef, Forall_app, Forall_cons in Lf; tauto).
    pose proof (lin_bytes _ _ _ _ Hx Eo) as Hw.
    assert (Nl : b_id x ∉ bids l).
    { rewrite Ef, bids_app in Nf. apply NoDup_app in Nf as (_ & Nf & _). intros X. apply (Nf _ X). apply elem_of_list_here. }
    assert (HK : forall cid l, b_id x ∉ bids l -> Forall (lin (ql_c s) cid) l -> Forall (lin (c_upd (evict_base_keep (ql_c s) o) (b_id x) (fun o => o_set_p1 o 3)) cid) l).
    { intros cid l' Hn. apply lin_ext; [done|]. intros j Hj. apply lookup_alter_ne. intros <-. done. }
    set (d' := mkQD _ _ _ _ _ _). assert (Ek : d_k d' = d_k d) by done.
    assert (HP : bids (d_all d) ≡ₚ bids (d_all d')).
    { unfold d_all. rewrite Ek. cbn [d' d_f d_g]. rewrite Ef, !bids_app. rewrite <- !app_assoc.
      apply Permutation_app_head. cbn [bids fmap list_fmap app]. by rewrite <- Permutation_middle. }
    split; rewrite ?Ek; cbn [d' d_f d_g d_hot d_adm d_b d_a]; try done.
    - cbn. rewrite Rf, Ef, bids_app. cbn [bids fmap list_fmap]. rewrite unlink_mid; [by rewrite app_nil_r|]. rewrite Ef, bids_app in Nf. done.
    - cbn. by rewrite Rg.
    - apply HK; [done|]. rewrite Ef, Forall_app in Lf. tauto.
    - apply HK; [|done]. by apply Df.
    - apply Forall_cons. split; [|apply HK; [|done]; by apply Df].
      destruct Hx as (o' & E & E1 & E2 & E3 & E4). eexists. split; [cbn; rewrite lookup_alter, E; done|]. done.
    - by rewrite <- HP.
    - intros id Hid. rewrite <- HP. apply Dm. by apply (upd_dom (evict_base_keep (ql_c s) o)) in Hid.
    - flds. rewrite Fb, Ef, bbytes_app. cbn. lia.
    - flds. rewrite Gb, bbytes_cons. lia.
    - cbn [ql_with ql_c evict_base_keep c_upd c_set_tbl c_occ]. rewrite Oc, Hw. unfold d_held. rewrite Ek. cbn [d' d_f]. rewrite Ef, !bbytes_app. cbn. lia.
    - cbn [ql_with ql_c evict_base_keep c_upd c_set_tbl c_nobj]. rewrite No. unfold d_held. rewrite Ek. cbn [d' d_f]. rewrite Ef, !app_length. cbn. lia.
    - rewrite Ef, Forall_app in Bf. tauto.
  Qed.

  Definition less (d' d : qd) : Prop :=
    (d_size d' < d_size d)%nat /\ bbytes (d_held d') <= bbytes (d_held d) /\
    (forall id, id ∈ bids (d_held d') -> id ∈ bids (d_held d)) /\
    (forall id, id ∈ bids (d_all d') -> id ∈ bids (d_all d)) /\
    (bbytes (d_g d) <= ks -> bbytes (d_g d') <= ks) /\ d_hot d' = d_hot d /\ d_adm d' = d_adm d.

  Lemma evict_ok s d r : drel s d -> d_held d <> [] -> 0 <= fs -> 0 <= ks ->
    exists d' s', d_evict fs ks d = Some d' /\ qdl_evict s r = Ok s' /\ drel s' d' /\ less d' d.
  Proof.
    intros H Hne Hfs Hks. unfold d_evict, qdl_evict. rewrite (dr_fb _ _ H), (dr_fs _ _ H), (dr_kn _ _ H).
    destruct (decide (bbytes (d_f d) > fs \/ d_k d = [])) as [Hc|Hc].
    - rewrite decide_True by (destruct Hc as [?|E]; [by left|right; by rewrite E]).
      destruct (last_cases (d_f d)) as [Ef|(l & x & Ef)].
      { exfalso. destruct Hc as [Hc|Hc]; [rewrite Ef in Hc; cbn in Hc; lia|]. apply Hne. unfold d_held. by rewrite Ef, Hc. }
      assert (El : last (d_f d) = Some x) by (rewrite Ef; apply last_snoc).
      assert (Er : removelast (d_f d) = l) by (rewrite Ef; apply removelast_last).
      assert (El' : last (ql_f s) = Some (b_id x)) by (rewrite (dr_f _ _ H), Ef, bids_app; apply last_snoc).
      rewrite El, El', Er.
      assert (Hx : lin (ql_c s) 1 x) by (pose proof (dr_lf _ _ H) as L; rewrite Ef, Forall_app, Forall_cons in L; tauto).
      pose proof Hx as (o & Eo & E1 & E2 & _). pose proof (lin_bytes _ _ _ _ Hx Eo) as Hw.
      unfold ql_obj. rewrite Eo. cbn [rbind]. rewrite Hw, E2.
      destruct (decide (b_fr x > 0)) as [Hp|Hp].
      + pose proof (to_clock s d l x H Ef) as H1. set (d1 := mkQD _ _ _ _ _ _) in H1.
        assert (Ek : d_k d1 = d_k d ++ [cold x]) by (unfold d_k; cbn; by rewrite app_assoc).
        destruct (clock_loop (S (S (length (d_k d)))) _ d1 H1 ltac:(rewrite Ek, app_length; cbn; lia) Hks) as (b & a & s' & G1 & G2 & G3 & G4 & G5 & G6).
        cbn [d1 d_b d_a] in G1. rewrite G1.
        eexists (mkQD l b a (d_g d) (d_hot d) (d_adm d)), s'.
        split; [done|]. split.
        { rewrite <- G2. rewrite <- (dr_fb _ _ H). cbn [ql_with ql_clock ql_fifo ql_k ql_kn ql_kb ql_hand ql_c length].
          assert (EL : length (ql_k s) = length (d_k d)) by (rewrite (dr_k _ _ H), rev_length; apply fmap_length). rewrite EL. done. }
        split; [exact G3|]. rewrite Ek in G5, G6. rewrite (bids_app (d_k d)) in G5. rewrite (bbytes_app (d_k d)) in G6.
        unfold less, d_size, d_all, d_held. change (d_k (mkQD l b a (d_g d) (d_hot d) (d_adm d))) with (b ++ a). cbn [d_f d_g d_hot d_adm].
        rewrite Ef, !(bbytes_app l), ?(bbytes_app _ (d_k d)), !app_length. cbn [length].
        assert (Hlen : (length (b ++ a) <= length (d_k d) + 1)%nat).
        { apply submseteq_length in G5. rewrite app_length in G5. unfold bids in G5. rewrite !fmap_length in G5. cbn [length] in G5. lia. }
        rewrite app_length in Hlen. split; [lia|]. rewrite (bbytes_app l [x]). split; [assert (bbytes [cold x] = b_sz x) by (cbn; lia); assert (bbytes [x] = b_sz x) by (cbn; lia); lia|].
        assert (Hs : forall id, id ∈ bids (b ++ a) -> id ∈ bids (d_k d) \/ id = b_id x).
        { intros id Hid. apply (elem_of_submseteq _ _ _ Hid) in G5. apply elem_of_app in G5 as [?|X]; [by left|right].
          by apply elem_of_list_singleton in X. }
        assert (Hxi : forall id, id ∈ bids [x] <-> id = b_id x) by (intros id; apply elem_of_list_singleton).
        split; [|split; [|done]]; intros id; specialize (Hs id); specialize (Hxi id); rewrite bids_app, elem_of_app in Hs;
          rewrite !bids_app, !elem_of_app; tauto.
      + pose proof (to_ghost s d l x o H Ef Eo) as H1. set (d1 := mkQD _ _ _ _ _ _) in H1.
        destruct (ghost_loop (S (S (length (d_g d)))) _ d1 H1 ltac:(cbn; lia) Hks) as (s' & G2 & G3).
        eexists _, s'. split; [done|]. split; [|split; [exact G3|]].
        { rewrite <- G2. rewrite <- (dr_fb _ _ H). cbn [ql_with ql_ghost ql_fifo ql_g ql_gb ql_c length].
          assert (EL : length (ql_g s) = length (d_g d)) by (rewrite (dr_g _ _ H); apply fmap_length). rewrite EL. done. }
        pose proof (spill_app ks (x :: d_g d)) as [_ Esp]. change (d_g d1) with (x :: d_g d). set (g := (spill ks (x :: d_g d)).1) in *.
        change (d_with d1 (d_f d1) g) with (mkQD l (d_b d) (d_a d) g (d_hot d) (d_adm d)).
        unfold less, d_size, d_all, d_held. change (d_k (mkQD l (d_b d) (d_a d) g (d_hot d) (d_adm d))) with (d_k d). cbn [d_f d_g d_hot d_adm].
        rewrite Ef, !bbytes_app, !app_length. cbn [length]. split; [lia|]. pose proof Hx as (_ & _ & _ & _ & _ & Hxs). split; [cbn; lia|].
        split; [|split; [|split; [|done]]].
        * intros id. rewrite !bids_app, !elem_of_app. tauto.
        * intros id. assert (Hg : id ∈ bids g -> id = b_id x \/ id ∈ bids (d_g d)).
          { intros Hid. assert (id ∈ bids (x :: d_g d)) as X by (rewrite Esp, bids_app; apply elem_of_app; by left). by apply elem_of_cons in X. }
          rewrite !bids_app, !elem_of_app. cbn [bids fmap list_fmap]. rewrite elem_of_list_singleton. tauto.
        * intros _. by apply spill_le.
    - assert (Hkne : d_k d <> []) by (intros E; apply Hc; by right). rewrite decide_False.
      2: { intros [X|X]; [apply Hc; by left|]. destruct (d_k d); [done|cbn in X; lia]. }
      destruct (clock_evict_ok s d H Hkne) as (b & a & x & s1 & E1 & E2 & H1 & H2 & H3 & H4 & H5 & H6). rewrite E1, E2.
      eexists _, s1. split; [done|]. split; [done|]. split; [done|].
      unfold less, d_size, d_all, d_held. change (d_k (mkQD (d_f d) b a (d_g d) (d_hot d) (d_adm d))) with (b ++ a). cbn [d_f d_g d_hot d_adm].
      rewrite !(bbytes_app (d_f d)). split; [lia|]. split; [lia|].
      assert (Hs : forall id, id ∈ bids (b ++ a) -> id ∈ bids (d_k d)).
      { intros id Hid. rewrite H3 in Hid. unfold unlink in Hid. by apply elem_of_list_filter in Hid as [_ ?]. }
      split; [|split; [|done]]; intros id; specialize (Hs id); rewrite bids_app, elem_of_app in Hs; rewrite !bids_app, !elem_of_app; tauto.
  Qed.

  (** * Lookup *)
  Lemma bump_notin id l : id ∉ bids l -> bump id <$> l = l.
  Proof.
    induction l as [|x l IH]; intros H; [done|]. apply not_elem_of_cons in H as [H1 H2]. rewrite fmap_cons, IH by done. unfold bump.
    rewrite decide_False by done. done.
  Qed.
  Lemma mark_notin id l : id ∉ bids l -> mark id <$> l = l.
  Proof.
    induction l as [|x l IH]; intros H; [done|]. apply not_elem_of_cons in H as [H1 H2]. rewrite fmap_cons, IH by done. unfold mark.
    rewrite decide_False by done. done.
  Qed.
  Lemma bump_ids id l : bids (bump id <$> l) = bids l.
  Proof. unfold bids. rewrite <- list_fmap_compose. apply list_fmap_ext. intros i x _. cbn. unfold bump. by destruct (decide (b_id x = id)). Qed.
  Lemma mark_ids id l : bids (mark id <$> l) = bids l.
  Proof. unfold bids. rewrite <- list_fmap_compose. apply list_fmap_ext. intros i x _. cbn. unfold mark. by destruct (decide (b_id x = id)). Qed.
  Lemma bump_bytes id l : bbytes (bump id <$> l) = bbytes l.
  Proof. induction l as [|x l IH]; [done|]. rewrite fmap_cons, !bbytes_cons, IH. unfold bump. by destruct (decide (b_id x = id)). Qed.
  Lemma mark_bytes id l : bbytes (mark id <$> l) = bbytes l.
  Proof. induction l as [|x l IH]; [done|]. rewrite fmap_cons, !bbytes_cons, IH. unfold mark. by destruct (decide (b_id x = id)). Qed.

  (** a table in which the objects changed, but no id came or went *)
  Lemma drel_tbl s d c f k : drel s d -> framed (bids (d_all d)) (ql_c s) c ->
    Forall (lin c 1) f -> Forall (lin c 2) k -> Forall (lin c 3) (d_g d) ->
    bids f = bids (d_f d) -> bids k = bids (d_k d) -> bbytes f = bbytes (d_f d) -> bbytes k = bbytes (d_k d) ->
    Forall (fun x => 0 <= b_fr x) f -> bits k ->
    forall b a, b ++ a = k -> hand_ok (ql_hand s) b a -> drel (ql_with s c) (mkQD f b a (d_g d) (d_hot d) (d_adm d)).
  Proof.
    intros [Rf Rk Rg Lf Lk Lg Nd Dm Fb Kb Gb Kn Oc No Zf Zk Zg Sz Md Ha Ho Vt Ad Bk Bf] [] Hf Hk Hg If Ik Yf Yk Pf Pk b a Eab Hh.
    assert (Nlf : length f = length (d_f d)) by (apply (f_equal length) in If; unfold bids in If; by rewrite !fmap_length in If).
    assert (Nlk : length k = length (d_k d)) by (apply (f_equal length) in Ik; unfold bids in Ik; by rewrite !fmap_length in Ik).
    set (d' := mkQD _ _ _ _ _ _). assert (Ek : d_k d' = k) by done.
    assert (Eall : bids (d_all d') = bids (d_all d)) by (unfold d_all; rewrite Ek, !bids_app; cbn [d' d_f d_g]; by rewrite If, Ik).
    split; rewrite ?Ek, ?Eall; unfold d_held; rewrite ?Ek; cbn [d' d_f d_g d_b d_a d_hot d_adm ql_with ql_c ql_f ql_k ql_g ql_fb ql_kb ql_gb ql_kn ql_fs ql_ks ql_gs ql_hand ql_vt]; try done; try congruence.
    - intros id Hid. apply Dm. by apply fm_dom0.
    - rewrite fm_occ0, Oc. unfold d_held. rewrite !bbytes_app. lia.
    - rewrite fm_nobj0, No. unfold d_held. rewrite !app_length. lia.
    - by rewrite fm_nreq0.
  Qed.

  Lemma lin_touch c cid l id f : (forall o, o_p1 (f o) = o_p1 o /\ o_p2 (f o) = o_p2 o /\ o_size (f o) = o_size o) ->
    Forall (lin c cid) l -> Forall (lin (c_upd c id f) cid) l.
  Proof.
    intros Hf H. eapply Forall_impl; [exact H|]. intros x (o & E & E1 & E2 & E3 & E4).
    destruct (decide (b_id x = id)) as [<-|Hne].
    - destruct (Hf o) as (F1 & F2 & F3). exists (f o). split; [by apply upd_at|]. rewrite upd_md. rewrite F1, F2, F3. done.
    - exists o. rewrite upd_ne by done. done.
  Qed.
  Lemma drel_touch s d id f : drel s d -> id ∈ bids (d_all d) -> (forall o, o_p1 (f o) = o_p1 o /\ o_p2 (f o) = o_p2 o /\ o_size (f o) = o_size o) ->
    drel (ql_with s (c_upd (ql_c s) id f)) d.
  Proof.
    intros H Hin Hf. pose proof (drel_tbl s d (c_upd (ql_c s) id f) (d_f d) (d_k d) H (framed_upd _ _ _ _ Hin)) as X.
    assert (drel (ql_with s (c_upd (ql_c s) id f)) (mkQD (d_f d) (d_b d) (d_a d) (d_g d) (d_hot d) (d_adm d))) as Y; [|by destruct d].
    destruct H. apply X; try done; by apply lin_touch.
  Qed.

  Lemma hit_f s d id : drel s d -> id ∈ bids (d_f d) ->
    drel (ql_with s (c_upd (ql_c s) id (fun o => o_set_p2 o (o_p2 o + 1))))
      (mkQD (bump id <$> d_f d) (mark id <$> d_b d) (mark id <$> d_a d) (d_g d) (d_hot d) (d_adm d)).
  Proof.
    intros H Hin. destruct (nd_parts d (dr_nd _ _ H)) as (Nf & Nk & Ng & Df & Dk & Dg).
    destruct (Df _ Hin) as [Hk Hg]. pose proof Hk as Hk'. unfold d_k in Hk'. rewrite bids_app, not_elem_of_app in Hk'. destruct Hk' as [Hb Ha].
    rewrite !mark_notin by done.
    eapply (drel_tbl s d _ _ (d_k d) H (framed_upd _ _ _ _ ltac:(apply in_all; by left))); try (destruct H; done); try (apply lin_put; [done|]; by destruct H).
    - apply Forall_fmap. apply Forall_forall. intros x Hx. pose proof (dr_lf _ _ H) as L. rewrite Forall_forall in L. destruct (L x Hx) as (o & E & E1 & E2 & E3 & E4).
      cbn. unfold bump. destruct (decide (b_id x = id)) as [<-|Hne].
      + eexists. split; [by apply upd_at|]. cbn. split; [done|]. split; [lia|done].
      + exists o. rewrite upd_ne by done. done.
    - apply bump_ids.
    - apply bump_bytes.
    - apply Forall_fmap. eapply Forall_impl; [apply (dr_bf _ _ H)|]. intros x Hx. cbn in *. unfold bump. destruct (decide _); cbn; lia.
  Qed.

  Lemma hit_k s d id c : drel s d -> id ∈ bids (d_k d) ->
    (forall o, c_tbl (ql_c s) !! id = Some o ->
      c = if decide (o_p2 o < 1) then c_upd (ql_c s) id (fun o => o_set_p2 o (o_p2 o + 1)) else ql_c s) ->
    drel (ql_with s c)
      (mkQD (bump id <$> d_f d) (mark id <$> d_b d) (mark id <$> d_a d) (d_g d) (d_hot d) (d_adm d)).
  Proof.
    intros H Hin Hc. destruct (nd_parts d (dr_nd _ _ H)) as (Nf & Nk & Ng & Df & Dk & Dg).
    destruct (Dk _ Hin) as [Hf Hg]. rewrite bump_notin by done.
    destruct (lin_at _ _ _ _ (dr_lk _ _ H) Hin) as (x0 & o0 & _ & _ & Eo & _). specialize (Hc _ Eo).
    assert (HF : framed (bids (d_all d)) (ql_c s) c).
    { rewrite Hc. destruct (decide _); [|apply framed_refl]. apply framed_upd. apply in_all. tauto. }
    eapply (drel_tbl s d c _ (mark id <$> d_k d) H HF); try (destruct H; done).
    - rewrite Hc. destruct (decide _); [|apply (dr_lf _ _ H)]. apply lin_put; [done|]. apply (dr_lf _ _ H).
    - apply Forall_fmap. apply Forall_forall. intros x Hx. pose proof (dr_lk _ _ H) as L. rewrite Forall_forall in L. destruct (L x Hx) as (o & E & E1 & E2 & E3 & E4).
      assert (Bx : 0 <= b_fr x <= 1) by (pose proof (dr_bk _ _ H) as B; unfold bits in B; rewrite Forall_forall in B; by apply B).
      cbn. unfold mark. destruct (decide (b_id x = id)) as [<-|Hne].
      + rewrite E in Eo. injection Eo as <-. rewrite Hc. destruct (decide (o_p2 o < 1)).
        * eexists. split; [by apply upd_at|]. cbn. split; [done|]. split; [lia|done].
        * exists o. cbn. split; [done|]. split; [done|]. split; [lia|done].
      + exists o. rewrite Hc. destruct (decide (o_p2 o0 < 1)); [rewrite upd_ne by done|]; done.
    - rewrite Hc. destruct (decide _); [|apply (dr_lg _ _ H)]. apply lin_put; [done|]. apply (dr_lg _ _ H).
    - apply mark_ids.
    - apply mark_bytes.
    - unfold bits. apply Forall_fmap. eapply Forall_impl; [apply (dr_bk _ _ H)|]. intros x Hx. cbn beta in *. unfold mark, compose. destruct (decide (b_id x = id)); cbn [b_fr]; lia.
    - unfold d_k. by rewrite fmap_app.
    - pose proof (dr_hand _ _ H) as Ha. destruct (ql_hand s); cbn in Ha |- *; [by rewrite Ha|by rewrite mark_ids|done].
  Qed.

  Lemma find_ok s d r : drel s d ->
    exists s', qdl_find s r true = Ok (s', (d_lookup d (r_id r)).2) /\ drel s' (d_lookup d (r_id r)).1.
  Proof.
    intros H. unfold qdl_find, cache_find_base, d_lookup. set (id := r_id r).
    destruct (nd_parts d (dr_nd _ _ H)) as (Nf & Nk & Ng & Df & Dk & Dg).
    set (f := fun o => o_set_freq (o_set_next o (r_next r)) (o_freq o + 1)).
    assert (Hf : forall o, o_p1 (f o) = o_p1 o /\ o_p2 (f o) = o_p2 o /\ o_size (f o) = o_size o) by done.
    destruct (decide (id ∈ bids (d_held d))) as [Hh|Hh].
    - assert (Hall : id ∈ bids (d_all d)) by (apply in_all; apply in_held in Hh; tauto).
      pose proof (drel_touch s d id f H Hall Hf) as H1. cbn [fst snd].
      apply in_held in Hh as [Hin|Hin].
      + destruct (lin_at _ _ _ _ (dr_lf _ _ H) Hin) as (x & o & Hx & Hid & Eo & E1 & E2 & _). rewrite Eo.
        unfold ql_obj. rewrite (upd_at _ _ _ _ Eo). cbn [rbind]. change (o_p1 (f o)) with (o_p1 o). rewrite E1. cbn.
        eexists. split; [done|]. pose proof (hit_f _ _ _ H1 Hin) as H2. exact H2.
      + destruct (lin_at _ _ _ _ (dr_lk _ _ H) Hin) as (x & o & Hx & Hid & Eo & E1 & E2 & _). rewrite Eo.
        unfold ql_obj. rewrite (upd_at _ _ _ _ Eo). cbn [rbind]. change (o_p1 (f o)) with (o_p1 o). rewrite E1. change (o_p2 (f o)) with (o_p2 o).
        rewrite decide_False by lia. rewrite decide_True by done. rewrite bool_decide_eq_true_2 by lia.
        assert (H2 : forall c, c = (if decide (o_p2 o < 1) then c_upd (c_upd (ql_c s) id f) id (fun o => o_set_p2 o (o_p2 o + 1)) else c_upd (ql_c s) id f) ->
          drel (ql_with (ql_with s (c_upd (ql_c s) id f)) c)
            (mkQD (bump id <$> d_f d) (mark id <$> d_b d) (mark id <$> d_a d) (d_g d) (d_hot d) (d_adm d))).
        { intros c Hc. apply hit_k; [done|done|]. intros o' Eo'. cbn [ql_with ql_c] in Eo'. rewrite (upd_at _ _ _ _ Eo) in Eo'. injection Eo' as <-. exact Hc. }
        destruct (decide (o_p2 o < 1)); (eexists; split; [done|]); exact (H2 _ eq_refl).
    - destruct (decide (id ∈ bids (d_g d))) as [Hg|Hg].
      + assert (Hall : id ∈ bids (d_all d)) by (apply in_all; tauto).
        pose proof (drel_touch s d id f H Hall Hf) as H1. cbn [fst snd].
        destruct (lin_at _ _ _ _ (dr_lg _ _ H) Hg) as (x & o & Hx & Hid & Eo & E1 & E2 & _). rewrite Eo.
        unfold ql_obj. rewrite (upd_at _ _ _ _ Eo). cbn [rbind]. change (o_p1 (f o)) with (o_p1 o). rewrite E1.
        rewrite decide_False by lia. rewrite decide_False by lia. rewrite decide_True by done. rewrite bool_decide_eq_false_2 by lia.
        assert (H2 : drel (ql_seen (ql_with s (c_upd (ql_c s) id f)) (c_nreq (c_upd (ql_c s) id f))) (mkQD (d_f d) (d_b d) (d_a d) (d_g d) true (d_adm d))).
        { destruct H1. split; try done. cbn. by rewrite bool_decide_eq_true_2. }
        destruct (rm_g _ _ id H2 Hg) as (s' & Es & H3). fold id. rewrite Es. cbn [rbind]. exists s'. split; [done|]. exact H3.
      + cbn [fst snd]. assert (En : c_tbl (ql_c s) !! id = None).
        { destruct (c_tbl (ql_c s) !! id) eqn:E; [|done]. assert (id ∈ bids (d_all d)) as X by (apply (dr_dom _ _ H); rewrite E; done).
          exfalso. apply in_all in X. rewrite in_held in Hh. tauto. }
        fold id. rewrite En. eexists. split; [done|]. by destruct s.
  Qed.

  Lemma find_ro s d r : drel s d -> exists s', qdl_find s r false = Ok (s', bool_decide (r_id r ∈ bids (d_held d))) /\ drel s' d.
  Proof.
    intros H. exists (ql_with s (ql_c s)). split; [|by destruct s]. unfold qdl_find, cache_find_base.
    destruct (nd_parts d (dr_nd _ _ H)) as (Nf & Nk & Ng & Df & Dk & Dg).
    destruct (c_tbl (ql_c s) !! r_id r) as [o|] eqn:E.
    - unfold ql_obj. rewrite E. cbn [rbind].
      assert (r_id r ∈ bids (d_all d)) as X by (apply (dr_dom _ _ H); rewrite E; done). f_equal. f_equal.
      apply in_all in X as [X|[X|X]].
      + destruct (lin_at _ _ _ _ (dr_lf _ _ H) X) as (x & o' & _ & _ & Eo & E1 & _). rewrite E in Eo. injection Eo as <-.
        rewrite !bool_decide_eq_true_2; [done|apply in_held; tauto|lia].
      + destruct (lin_at _ _ _ _ (dr_lk _ _ H) X) as (x & o' & _ & _ & Eo & E1 & _). rewrite E in Eo. injection Eo as <-.
        rewrite !bool_decide_eq_true_2; [done|apply in_held; tauto|lia].
      + destruct (lin_at _ _ _ _ (dr_lg _ _ H) X) as (x & o' & _ & _ & Eo & E1 & _). rewrite E in Eo. injection Eo as <-.
        rewrite !bool_decide_eq_false_2; [done|rewrite in_held; destruct (Dg _ X); tauto|lia].
    - rewrite bool_decide_eq_false_2; [done|]. rewrite in_held. intros [X|X].
      + destruct (lin_at _ _ _ _ (dr_lf _ _ H) X) as (x & o' & _ & _ & Eo & _). congruence.
      + destruct (lin_at _ _ _ _ (dr_lk _ _ H) X) as (x & o' & _ & _ & Eo & _). congruence.
  Qed.

  (** * Insertion *)
  Lemma lin_fresh c c' cid l id : c_md c' = c_md c -> id ∉ bids l -> (forall j, j <> id -> c_tbl c' !! j = c_tbl c !! j) ->
    Forall (lin c cid) l -> Forall (lin c' cid) l.
  Proof. intros Hm Hn Ht. apply lin_ext; [done|]. intros j Hj. apply Ht. intros ->. done. Qed.

  Lemma insert_ok s d r : drel s d -> r_id r ∉ bids (d_all d) -> req_ok md r -> 0 <= md ->
    exists s', qdl_insert s r = Ok s' /\ drel s' (d_place d (r_id r) (r_size r + md)).
  Proof.
    intros H Hn [Hr1 Hr2] Hmd. pose proof H as [Rf Rk Rg Lf Lk Lg Nd Dm Fb Kb Gb Kn Oc No Zf Zk Zg Sz Md Ha Ho Vt Ad Bk Bf].
    assert (Hu : u32 (r_size r) = r_size r) by (unfold u32; rewrite Z.mod_small; lia).
    assert (Hu2 : u32 (r_size r + md) = r_size r + md) by (unfold u32; rewrite Z.mod_small; lia).
    assert (En : c_tbl (ql_c s) !! r_id r = None).
    { destruct (c_tbl (ql_c s) !! r_id r) eqn:E; [|done]. exfalso. apply Hn. apply Dm. by rewrite E. }
    unfold qdl_insert, cache_insert_base. rewrite En. cbn [rbind]. unfold ql_obj. cbn [c_tbl]. rewrite lookup_insert. cbn [rbind].
    unfold ql_bytes. cbn [obj_of_req o_size c_md c_nreq]. rewrite Hu, Md, Hu2.
    set (w := r_size r + md) in *.
    assert (Hnp : r_id r ∉ bids (d_f d) /\ r_id r ∉ bids (d_k d) /\ r_id r ∉ bids (d_g d)) by (rewrite in_all in Hn; tauto).
    destruct Hnp as (Nf & Nk & Ng).
    set (c1 := mkCache _ _ _ _ _ _ _).
    assert (Hput : forall cid j, j <> r_id r -> c_tbl (ql_put c1 (r_id r) cid 0) !! j = c_tbl (ql_c s) !! j).
    { intros cid j Hj. unfold ql_put. rewrite upd_ne by done. cbn [c1 c_tbl]. by rewrite lookup_insert_ne. }
    assert (Hnew : forall cid, lin (ql_put c1 (r_id r) cid 0) cid (mkLob (r_id r) w 0)).
    { intros cid. eexists. split; [unfold ql_put; apply upd_at; cbn [c1 c_tbl b_id]; apply lookup_insert|]. cbn. rewrite Hu. unfold w. repeat split; lia. }
    assert (Hmd' : forall cid, c_md (ql_put c1 (r_id r) cid 0) = c_md (ql_c s)) by (intros; cbn; congruence).
    assert (Hdom : forall cid j, is_Some (c_tbl (ql_put c1 (r_id r) cid 0) !! j) -> j = r_id r \/ j ∈ bids (d_all d)).
    { intros cid j Hj. destruct (decide (j = r_id r)) as [->|Hne]; [by left|right]. apply Dm. by rewrite <- (Hput cid). }
    unfold d_place. rewrite Ho. destruct (decide (c_nreq (ql_c s) = ql_vt s)) as [Hv|Hv].
    - rewrite bool_decide_eq_true_2 by done. eexists. split; [done|].
      set (d' := mkQD _ _ _ _ _ _). assert (Ek : d_k d' = d_k d ++ [mkLob (r_id r) w 0]) by (unfold d_k; cbn; by rewrite app_assoc).
      assert (HP : bids (d_all d') ≡ₚ r_id r :: bids (d_all d)).
      { unfold d_all. rewrite Ek. cbn [d' d_f d_g]. rewrite !bids_app. cbn [bids fmap list_fmap b_id]. rewrite <- !app_assoc. cbn [app].
        by rewrite <- !Permutation_middle. }
      split; rewrite ?Ek; unfold d_held; rewrite ?Ek; cbn [d' d_f d_g d_hot d_adm d_b d_a]; try done.
      + flds. rewrite Rk, bids_app, rev_app_distr. done.
      + eapply lin_fresh; [apply Hmd'|exact Nf|apply Hput|done].
      + apply Forall_app. split; [eapply lin_fresh; [apply Hmd'|exact Nk|apply Hput|done]|]. apply Forall_singleton. apply Hnew.
      + eapply lin_fresh; [apply Hmd'|exact Ng|apply Hput|done].
      + rewrite HP. by apply NoDup_cons.
      + intros j Hj. rewrite HP. apply elem_of_cons. eapply Hdom. exact Hj.
      + flds. rewrite Kb, bbytes_app. cbn. lia.
      + flds. rewrite Kn, app_length. cbn. lia.
      + cbn. rewrite Oc. unfold d_held. rewrite !bbytes_app. cbn. unfold w. lia.
      + cbn. rewrite No. unfold d_held. rewrite !app_length. cbn. lia.
      + cbn [ql_hand ql_with ql_clock]. destruct (ql_hand s); cbn in Ha |- *; [done| |done]. destruct (d_a d); [done|]. cbn in *. done.
      + cbn. by rewrite bool_decide_eq_true_2.
      + unfold bits in *. apply Forall_app. split; [done|]. apply Forall_singleton. cbn. lia.
    - rewrite bool_decide_eq_false_2 by done. eexists. split; [done|].
      set (d' := mkQD _ _ _ _ _ _). assert (Ek : d_k d' = d_k d) by done.
      assert (HP : bids (d_all d') ≡ₚ r_id r :: bids (d_all d)) by done.
      split; rewrite ?Ek; unfold d_held; rewrite ?Ek; cbn [d' d_f d_g d_hot d_adm d_b d_a]; try done.
      + flds. by rewrite Rf.
      + apply Forall_cons. split; [apply Hnew|]. eapply lin_fresh; [apply Hmd'|exact Nf|apply Hput|done].
      + eapply lin_fresh; [apply Hmd'|exact Nk|apply Hput|done].
      + eapply lin_fresh; [apply Hmd'|exact Ng|apply Hput|done].
      + rewrite HP. by apply NoDup_cons.
      + intros j Hj. rewrite HP. apply elem_of_cons. eapply Hdom. exact Hj.
      + flds. rewrite Fb, bbytes_cons. cbn [b_sz]. lia.
      + cbn [ql_with ql_c ql_put c_upd c_set_tbl c1 c_occ obj_of_req o_size]. rewrite Oc. unfold d_held. cbn [app]. rewrite bbytes_cons. cbn [b_sz]. unfold w. lia.
      + cbn [ql_with ql_c ql_put c_upd c_set_tbl c1 c_nobj]. rewrite No. unfold d_held. cbn [app length]. lia.
      + cbn. by rewrite bool_decide_eq_false_2.
      + apply Forall_cons. split; [cbn; lia|done].
  Qed.

  (** * Calls *)
  Definition dinv (d : qd) : Prop := bbytes (d_held d) <= cap /\ bbytes (d_g d) <= ks.
  Definition leq (d' d : qd) : Prop :=
    (d_size d' <= d_size d)%nat /\ bbytes (d_held d') <= bbytes (d_held d) /\
    (forall id, id ∈ bids (d_held d') -> id ∈ bids (d_held d)) /\
    (forall id, id ∈ bids (d_all d') -> id ∈ bids (d_all d)) /\
    (bbytes (d_g d) <= ks -> bbytes (d_g d') <= ks) /\ d_hot d' = d_hot d /\ d_adm d' = d_adm d.

  Context (Hfs : 0 <= fs) (Hks : 0 <= ks) (Hmd : 0 <= md).

  Lemma room_ok n : forall s d r fuel, drel s d -> r_size r + md <= cap -> (d_size d <= n)%nat -> (d_size d <= fuel)%nat ->
    exists d' s', d_room n fs ks cap (r_size r + md) d = Some d' /\ evict_loop qdl_ops fuel s r = Ok s' /\ drel s' d' /\
      bbytes (d_held d') + (r_size r + md) <= cap /\ leq d' d.
  Proof using Hfs Hks.
    induction n as [|n IH]; intros s d r fuel H Hw Hn Hf.
    all: assert (Eev : forall F X, (if decide (op_occupied qdl_ops s + r_size r + op_md qdl_ops s > op_size qdl_ops s) then F else X) =
                    (if decide (bbytes (d_held d) + (r_size r + md) > cap) then F else X : res qdl)) by
        (intros F X; cbn [op_occupied op_md op_size qdl_ops]; rewrite (dr_occ _ _ H), (dr_md _ _ H), (dr_size _ _ H); do 2 destruct (decide _); done || lia).
    - cbn [d_room]. assert (Eh : d_held d = []).
      { unfold d_size in Hn. unfold d_held. destruct (d_f d); [|cbn in Hn; lia]. destruct (d_k d); [done|cbn in Hn; lia]. }
      rewrite decide_False by (rewrite Eh; cbn; lia). exists d, s. split; [done|]. split.
      { destruct fuel; cbn [evict_loop]; rewrite Eev; rewrite decide_False by (rewrite Eh; cbn; lia); done. }
      split; [done|]. split; [rewrite Eh; cbn; lia|]. unfold leq. repeat split; try done; lia.
    - cbn [d_room]. destruct (decide (bbytes (d_held d) + (r_size r + md) > cap)) as [Hb|Hb].
      + assert (Hne : d_held d <> []) by (intros E; rewrite E in Hb; cbn in Hb; lia).
        destruct (evict_ok s d r H Hne Hfs Hks) as (d1 & s1 & E1 & E2 & H1 & L1 & L2 & L3 & L4 & L5 & L6 & L7). rewrite E1.
        destruct fuel as [|fuel]; [lia|]. cbn [evict_loop]. rewrite Eev. cbn [op_evict qdl_ops]. rewrite E2. cbn [rbind].
        destruct (IH s1 d1 r fuel H1 Hw ltac:(lia) ltac:(lia)) as (d2 & s2 & G1 & G2 & G3 & G4 & M1 & M2 & M3 & M4 & M5 & M6 & M7).
        exists d2, s2. split; [done|]. split; [done|]. split; [done|]. split; [done|]. unfold leq.
        split; [lia|]. split; [lia|]. split; [eauto|]. split; [eauto|]. split; [eauto|]. split; congruence.
      + exists d, s. split; [done|]. split.
        { destruct fuel; cbn [evict_loop]; rewrite Eev; done. }
        split; [done|]. split; [lia|]. unfold leq. repeat split; try done; lia.
  Qed.

  Lemma drel_adm s d a : drel s d -> drel (ql_with s (c_set_adm (ql_c s) a)) (mkQD (d_f d) (d_b d) (d_a d) (d_g d) (d_hot d) a).
  Proof. intros []. split; done. Qed.
  Lemma drel_tick s d : drel s d -> drel (qdl_tick s) (mkQD (d_f d) (d_b d) (d_a d) (d_g d) false (d_adm d)).
  Proof. intros []. split; try done. - cbn. rewrite bool_decide_eq_false_2; [done|lia]. - cbn. lia. Qed.

  Lemma place_size d id w : (d_size (d_place d id w) <= d_size d + 2)%nat.
  Proof. unfold d_place, d_size, d_k. destruct (d_hot d); cbn; rewrite ?app_length; cbn; lia. Qed.
  Lemma place_held d id w : bbytes (d_held (d_place d id w)) = w + bbytes (d_held d) /\ d_g (d_place d id w) = d_g d.
  Proof. unfold d_place, d_held, d_k. destruct (d_hot d); cbn; rewrite ?bbytes_app; cbn; split; try done; lia. Qed.

  Lemma without_bytes id l : bnn l -> bbytes (without id l) <= bbytes l.
  Proof.
    induction 1 as [|x l Hx Hl IH]; [done|]. unfold without. rewrite filter_cons. destruct (decide _); rewrite ?bbytes_cons; cbn in Hx; unfold without in IH; lia.
  Qed.
  Lemma without_len id l : (length (without id l) <= length l)%nat.
  Proof. unfold without. apply filter_length. Qed.

  Lemma lookup_inv s d id : drel s d -> dinv d -> dinv (d_lookup d id).1 /\ d_size (d_lookup d id).1 = d_size d /\
    ((d_lookup d id).2 = false -> id ∉ bids (d_all (d_lookup d id).1)) /\ bbytes (d_held (d_lookup d id).1) = bbytes (d_held d).
  Proof.
    intros H [I1 I2]. unfold d_lookup. destruct (nd_parts d (dr_nd _ _ H)) as (Nf & Nk & Ng & Df & Dk & Dg).
    destruct (decide (id ∈ bids (d_held d))) as [Hh|Hh].
    - cbn [fst snd]. assert (Eb : bbytes (d_held (mkQD (bump id <$> d_f d) (mark id <$> d_b d) (mark id <$> d_a d) (d_g d) (d_hot d) (d_adm d))) = bbytes (d_held d)).
      { unfold d_held, d_k. cbn [d_f d_b d_a]. rewrite !bbytes_app, bump_bytes, !mark_bytes. done. }
      split; [split; [lia|done]|]. split; [|done]. unfold d_size, d_k. cbn. rewrite !app_length, !fmap_length. done.
    - destruct (decide (id ∈ bids (d_g d))) as [Hg|Hg]; cbn [fst snd].
      + split; [split; [done|]; cbn [d_g]; pose proof (without_bytes id _ (lin_nn _ _ _ (dr_lg _ _ H))); lia|]. split; [done|]. split; [|done].
        intros _ X. apply in_all in X. rewrite in_held in Hh. change (d_k (mkQD _ _ _ _ _ _)) with (d_k d) in X. cbn [d_f d_g] in X.
        rewrite without_ids in X. unfold unlink in X. rewrite elem_of_list_filter in X. tauto.
      + split; [done|]. split; [done|]. split; [|done]. intros _ X. apply in_all in X. rewrite in_held in Hh. tauto.
  Qed.

  Lemma get_ok s d r fuel : drel s d -> dinv d -> req_ok md r -> (d_size d <= fuel)%nat ->
    exists d' b s', d_get fs ks cap md d r = Some (d', b) /\ cache_get_base qdl_ops fuel s r = Ok (s', b) /\ drel s' d' /\ dinv d' /\
      (d_size d' <= d_size d + 2)%nat.
  Proof using Hfs Hks Hmd.
    intros H I Hr Hf. unfold d_get, cache_get_base. pose proof (drel_tick s d H) as H0. set (d0 := mkQD _ _ _ _ _ _) in *.
    assert (I0 : dinv d0) by done. assert (S0 : d_size d0 = d_size d) by done. cbn [op_tick op_find qdl_ops].
    destruct (find_ok _ _ r H0) as (s1 & E1 & H1). destruct (lookup_inv _ _ (r_id r) H0 I0) as (I1 & S1 & N1 & B1). rewrite E1. cbn [rbind].
    destruct (d_lookup d0 (r_id r)) as [d1 b]. cbn [fst snd] in *. destruct b.
    { exists d1, true, s1. repeat (split; [done|]). lia. }
    cbn [op_can_insert qdl_ops]. unfold qdl_can_insert, cache_can_insert_default. rewrite (dr_adm _ _ H1).
    destruct (admit (d_adm d1) r) as [adm ok]. set (d2 := mkQD _ _ _ _ _ _).
    pose proof (drel_adm s1 d1 adm H1) as H2. fold d2 in H2. assert (I2 : dinv d2) by done. assert (S2 : d_size d2 = d_size d1) by done.
    destruct ok; cbn [andb].
    2: { exists d2, false. eexists. split; [done|]. split; [done|]. split; [done|]. split; [done|]. lia. }
    cbn [c_md c_size c_set_adm]. rewrite (dr_md _ _ H1), (dr_size _ _ H1). destruct (decide (r_size r + md > cap)) as [Hb|Hb].
    { rewrite bool_decide_eq_false_2 by lia. exists d2, false. eexists. split; [done|]. split; [done|]. split; [done|]. split; [done|]. lia. }
    rewrite bool_decide_eq_true_2 by lia. cbn [rbind].
    destruct (room_ok (2 * length (d_f d2) + length (d_k d2)) _ d2 r fuel H2 ltac:(lia) ltac:(unfold d_size; lia) ltac:(lia)) as (d3 & s3 & E3 & E3' & H3 & R3 & L1 & L2 & L3 & L4 & L5 & L6 & L7).
    rewrite E3, E3'. cbn [rbind op_insert qdl_ops].
    destruct (insert_ok s3 d3 r H3 ltac:(intros X; apply (N1 eq_refl); by apply (L4 _ X)) Hr Hmd) as (s4 & E4 & H4). rewrite E4. cbn [rbind].
    eexists _, false, s4. split; [done|]. split; [done|]. split; [done|]. destruct (place_held d3 (r_id r) (r_size r + md)) as [P1 P2].
    pose proof (place_size d3 (r_id r) (r_size r + md)). split; [|lia]. split; [lia|]. rewrite P2. apply L5. apply I2.
  Qed.

  Definition qd_call (c : call) : Prop :=
    match c with CGet r => req_ok md r | CInsert r => req_ok md r | _ => True end.

  Lemma call_ok s d c fuel : drel s d -> dinv d -> qd_call c -> (d_size d <= fuel)%nat ->
    match d_call fs ks cap md d c with
    | Some (d', o) => exists s', step qdl_ops fuel s c = Ok (s', o) /\ drel s' d' /\ dinv d' /\ (d_size d' <= d_size d + 2)%nat
    | None => True
    end.
  Proof using Hfs Hks Hmd.
    intros H I Hc Hf. destruct (nd_parts d (dr_nd _ _ H)) as (Nf & Nk & Ng & Df & Dk & Dg).
    assert (Eno : c_nobj (ql_c s) <= 0 <-> d_held d = []).
    { rewrite (dr_nobj _ _ H). destruct (d_held d); cbn; split; intros; try done; lia. }
    destruct c as [r|r u|r|id|r|r]; cbn [d_call step].
    - destruct (get_ok s d r fuel H I Hc Hf) as (d' & b & s' & E1 & E2 & H' & I' & S'). rewrite E1, E2. cbn [rbind]. exists s'. done.
    - cbn [op_find qdl_ops]. destruct u.
      + destruct (find_ok _ _ r H) as (s1 & E1 & H1). destruct (lookup_inv _ _ (r_id r) H I) as (I1 & S1 & N1 & B1). rewrite E1. cbn [rbind].
        destruct (d_lookup d (r_id r)) as [d1 b]. exists s1. cbn [fst snd] in *. repeat (split; [done|]). lia.
      + destruct (find_ro _ _ r H) as (s1 & E1 & H1). rewrite E1. cbn [rbind]. exists s1. repeat (split; [done|]). lia.
    - cbn [op_find qdl_ops op_occupied op_md op_size op_insert]. destruct (find_ro _ _ r H) as (s1 & E1 & H1). rewrite E1. cbn [rbind].
      destruct (decide (r_id r ∈ bids (d_held d))) as [Hh|Hh].
      { rewrite bool_decide_eq_true_2 by done. exists s. repeat (split; [done|]). lia. }
      rewrite bool_decide_eq_false_2 by done. rewrite (dr_occ _ _ H), (dr_md _ _ H), (dr_size _ _ H).
      destruct (decide (bbytes (d_held d) + (r_size r + md) > cap)) as [Hb|Hb].
      { rewrite decide_True by lia. exists s. repeat (split; [done|]). lia. }
      destruct (decide (r_id r ∈ bids (d_g d))) as [Hg|Hg]; [done|]. rewrite decide_False by lia.
      destruct (insert_ok s d r H ltac:(intros X; apply in_all in X; rewrite in_held in Hh; tauto) Hc Hmd) as (s4 & E4 & H4). rewrite E4. cbn [rbind].
      exists s4. split; [done|]. split; [done|]. destruct (place_held d (r_id r) (r_size r + md)) as [P1 P2].
      pose proof (place_size d (r_id r) (r_size r + md)). split; [|lia]. split; [lia|]. rewrite P2. apply I.
    - destruct (decide (id ∈ bids (d_k d))) as [Hk|Hk]; [done|]. cbn [op_remove qdl_ops]. unfold qdl_remove.
      destruct (decide (id ∈ bids (d_f d))) as [Hin|Hin].
      + destruct (lin_at _ _ _ _ (dr_lf _ _ H) Hin) as (x & o & _ & _ & Eo & _). rewrite Eo.
        destruct (rm_f s d id H Hin) as (s' & E & H'). rewrite E. cbn [rbind]. exists s'. rewrite bool_decide_eq_true_2 by (rewrite bids_app, elem_of_app; by left).
        split; [done|]. rewrite (without_notin id (d_g d)) by (by apply Df). split; [done|].
        pose proof (without_bytes id _ (lin_nn _ _ _ (dr_lf _ _ H))). pose proof (without_len id (d_f d)). destruct I as [I1 I2].
        unfold dinv, d_held in *. change (d_k (mkQD _ _ _ _ _ _)) with (d_k d). cbn [d_f d_g]. rewrite bbytes_app in *. split; [split; [lia|done]|].
        unfold d_size. change (d_k (mkQD _ _ _ _ _ _)) with (d_k d). cbn [d_f]. lia.
      + destruct (decide (id ∈ bids (d_g d))) as [Hg|Hg].
        * destruct (lin_at _ _ _ _ (dr_lg _ _ H) Hg) as (x & o & _ & _ & Eo & _). rewrite Eo.
          destruct (rm_g s d id H Hg) as (s' & E & H'). rewrite E. cbn [rbind]. exists s'. rewrite bool_decide_eq_true_2 by (rewrite bids_app, elem_of_app; by right).
          split; [done|]. rewrite (without_notin id (d_f d)) by done. split; [done|].
          pose proof (without_bytes id _ (lin_nn _ _ _ (dr_lg _ _ H))). destruct I as [I1 I2]. split; [split; [done|cbn [d_g]; lia]|].
          unfold d_size. change (d_k (mkQD _ _ _ _ _ _)) with (d_k d). cbn [d_f]. lia.
        * assert (En : c_tbl (ql_c s) !! id = None).
          { destruct (c_tbl (ql_c s) !! id) eqn:E; [|done]. assert (id ∈ bids (d_all d)) as X by (apply (dr_dom _ _ H); rewrite E; done).
            exfalso. apply in_all in X. tauto. }
          rewrite En. cbn [rbind]. exists s. rewrite !without_notin by done. rewrite bool_decide_eq_false_2 by (rewrite bids_app, elem_of_app; tauto).
          split; [done|]. split; [by destruct d|]. split; [by destruct d|]. destruct d; unfold d_size, d_k; cbn; lia.
    - cbn [op_nobj qdl_ops op_evict]. destruct (decide (d_held d = [])) as [Hh|Hh].
      { rewrite decide_True by tauto. exists s. repeat (split; [done|]). lia. }
      rewrite decide_False by tauto. destruct (evict_ok s d r H Hh Hfs Hks) as (d1 & s1 & E1 & E2 & H1 & L1 & L2 & L3 & L4 & L5 & L6 & L7).
      rewrite E1, E2. cbn [rbind]. exists s1. split; [done|]. split; [done|]. destruct I as [I1 I2]. split; [split; [lia|by apply L5]|lia].
    - cbn [op_nobj qdl_ops op_to_evict]. destruct (decide (d_held d = [])) as [Hh|Hh].
      { rewrite decide_True by tauto. exists s. repeat (split; [done|]). lia. }
      rewrite decide_False by tauto. unfold qdl_to_evict. destruct (last_cases (d_f d)) as [Ef|(l & x & Ef)]; [by rewrite Ef|].
      rewrite (dr_f _ _ H), Ef, bids_app. rewrite !last_snoc. cbn [bids fmap list_fmap]. rewrite last_snoc. cbn [rbind].
      exists s. repeat (split; [done|]). lia.
  Qed.

  Lemma run_ok fuel cs : forall s d, drel s d -> dinv d -> Forall qd_call cs -> (d_size d + 2 * length cs <= fuel)%nat ->
    match d_run fs ks cap md d cs with
    | Some (d', os) => exists s', run qdl_ops fuel s cs = Ok (s', os) /\ drel s' d' /\ dinv d' /\ (d_size d' <= d_size d + 2 * length cs)%nat
    | None => True
    end.
  Proof using Hfs Hks Hmd.
    induction cs as [|c cs IH]; intros s d H I Hc Hf; cbn [d_run run].
    - exists s. repeat (split; [done|]). lia.
    - apply Forall_cons in Hc as [Hc Hcs]. cbn [length] in Hf. pose proof (call_ok s d c fuel H I Hc ltac:(lia)) as X.
      destruct (d_call fs ks cap md d c) as [[d1 o]|]; [|done]. destruct X as (s1 & E1 & H1 & I1 & S1). rewrite E1. cbn [rbind].
      specialize (IH s1 d1 H1 I1 Hcs ltac:(lia)). destruct (d_run fs ks cap md d1 cs) as [[d2 os]|]; [|done].
      destruct IH as (s2 & E2 & H2 & I2 & S2). rewrite E2. cbn [rbind]. exists s2. repeat (split; [done|]). cbn [length]. lia.
  Qed.
End Rel.

Lemma init_ok fs cap md a : drel fs (cap - fs) cap md (qdl_init cap md fs a) (mkQD [] [] [] [] false a).
Proof.
  split; try done; try apply Forall_nil; try lia.
  - apply NoDup_nil_2.
  - intros id [? X]. done.
Qed.
