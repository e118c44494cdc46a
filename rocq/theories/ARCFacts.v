(** Invariant of ARC (ModelARC.v) and its correspondence with the paper's
    algorithm (SpecARC.v). *)
From stdpp Require Import gmap list numbers fin_maps.
From Coq Require Import QArith.
From Verif Require Import Base Driver ModelQueue QueueFacts ModelARC SpecARC.
Open Scope Z_scope.

(** Occurrences of an id. *)
Definition cnt (id : Z) (l : list (Z * Z)) : nat := length (filter (fun x => x.1 = id) l).

Lemma cnt_app id l1 l2 : cnt id (l1 ++ l2) = (cnt id l1 + cnt id l2)%nat.
Proof. unfold cnt. by rewrite filter_app, app_length. Qed.
Lemma cnt_cons id x l : cnt id (x :: l) = ((if decide (x.1 = id) then 1 else 0) + cnt id l)%nat.
Proof. unfold cnt. rewrite filter_cons. by destruct (decide _). Qed.
Lemma cnt_nil id : cnt id [] = 0%nat.
Proof. done. Qed.
Lemma cnt_zero id l : cnt id l = 0%nat <-> id ∉ l.*1.
Proof.
  induction l as [|x l IH]; [split; [intros _; apply not_elem_of_nil|done]|].
  rewrite cnt_cons, fmap_cons, not_elem_of_cons, <- IH. destruct (decide _); split; intros; lia.
Qed.
Lemma cnt_pos id l : (1 <= cnt id l)%nat -> exists l1 c l2, l = l1 ++ (id, c) :: l2.
Proof.
  induction l as [|[i c] l IH]; [rewrite cnt_nil; lia|]. rewrite cnt_cons. cbn.
  destruct (decide (i = id)) as [->|]; intros H.
  - by exists [], c, l.
  - destruct IH as (l1 & c' & l2 & ->); [lia|]. by exists ((i, c) :: l1), c', l2.
Qed.
Lemma cnt_elem x l : x ∈ l -> (1 <= cnt x.1 l)%nat.
Proof.
  induction 1 as [x l|x y l H IH]; rewrite cnt_cons; [rewrite decide_True by done|]; lia.
Qed.

Lemma qdel_mid id c (l1 l2 : list (Z * Z)) :
  (cnt id (l1 ++ (id, c) :: l2) <= 1)%nat ->
  q_del id (l1 ++ (id, c) :: l2).*1 = (l1 ++ l2).*1.
Proof.
  rewrite cnt_app, cnt_cons. cbn. rewrite decide_True by done. intros H.
  rewrite !fmap_app, fmap_cons, q_del_app. cbn [fst]. rewrite q_del_cons.
  rewrite !q_del_notin; [done| |]; apply cnt_zero; lia.
Qed.

Lemma qdel_none id (l : list (Z * Z)) : cnt id l = 0%nat -> q_del id l.*1 = l.*1.
Proof. intros H. apply q_del_notin. by apply cnt_zero. Qed.

Lemma wt_app l1 l2 : wt (l1 ++ l2) = wt l1 + wt l2.
Proof. unfold wt. induction l1 as [|x l1 IH]; cbn in *; lia. Qed.
Lemma wt_cons x l : wt (x :: l) = x.2 + wt l.
Proof. done. Qed.

Local Arguments wt : simpl never.
Lemma wt_nil : wt [] = 0.
Proof. done. Qed.

(** The objects of a list in the table: size, lru_id and ghost flag. *)
Definition own (tbl : gmap Z cobj) (md k g : Z) (l : list (Z * Z)) : Prop :=
  Forall (fun x => 0 < x.2 < 2 ^ 32 /\
    exists o, tbl !! x.1 = Some o /\ o_size o + md = x.2 /\ o_p1 o = k /\ o_p2 o = g) l.
(** Ghosts that ARC_remove has unlinked but left in the table. *)
Definition ownz (tbl : gmap Z cobj) (md : Z) (l : list (Z * Z)) : Prop :=
  Forall (fun x => 0 < x.2 < 2 ^ 32 /\
    exists o, tbl !! x.1 = Some o /\ o_size o + md = x.2 /\ o_p2 o = 1) l.

Lemma own_frame tbl tbl' md k g l :
  (forall id, (1 <= cnt id l)%nat -> tbl' !! id = tbl !! id) -> own tbl md k g l -> own tbl' md k g l.
Proof.
  intros H. unfold own. rewrite !Forall_forall. intros Ho x Hx. specialize (Ho x Hx).
  rewrite H; [done|]. by apply cnt_elem.
Qed.
Lemma ownz_frame tbl tbl' md l :
  (forall id, (1 <= cnt id l)%nat -> tbl' !! id = tbl !! id) -> ownz tbl md l -> ownz tbl' md l.
Proof.
  intros H. unfold ownz. rewrite !Forall_forall. intros Ho x Hx. specialize (Ho x Hx).
  rewrite H; [done|]. by apply cnt_elem.
Qed.
Lemma own_wt tbl md k g l : own tbl md k g l -> 0 <= wt l /\ (wt l = 0 <-> l = []).
Proof.
  induction 1 as [|x l [Hx _] _ [IH1 IH2]]; rewrite ?wt_cons; [rewrite wt_nil; split; [lia|done]|].
  split; [lia|]. split; [lia|done].
Qed.
Lemma own_snoc tbl md k g l : own tbl md k g l -> wt l > 0 -> exists l' x, l = l' ++ [x].
Proof.
  intros H Hw. destruct l as [|y l] using rev_ind; [rewrite wt_nil in Hw; lia|]. eauto.
Qed.
Lemma own_lookup tbl md k g l1 id c l2 : own tbl md k g (l1 ++ (id, c) :: l2) ->
  0 < c < 2 ^ 32 /\
  exists o, tbl !! id = Some o /\ o_size o + md = c /\ o_p1 o = k /\ o_p2 o = g.
Proof. intros H. apply Forall_app in H as [_ H]. by apply Forall_cons in H as [H _]. Qed.
Lemma ownz_lookup tbl md l1 id c l2 : ownz tbl md (l1 ++ (id, c) :: l2) ->
  0 < c < 2 ^ 32 /\
  exists o, tbl !! id = Some o /\ o_size o + md = c /\ o_p2 o = 1.
Proof. intros H. apply Forall_app in H as [_ H]. by apply Forall_cons in H as [H _]. Qed.
Lemma own_drop tbl md k g l1 x l2 : own tbl md k g (l1 ++ x :: l2) -> own tbl md k g (l1 ++ l2).
Proof.
  intros H. apply Forall_app in H as [H1 H]. apply Forall_cons in H as [_ H].
  by apply Forall_app.
Qed.
Lemma ownz_drop tbl md l1 x l2 : ownz tbl md (l1 ++ x :: l2) -> ownz tbl md (l1 ++ l2).
Proof.
  intros H. apply Forall_app in H as [H1 H]. apply Forall_cons in H as [_ H].
  by apply Forall_app.
Qed.
Lemma own_cons tbl md k g id c o l : 0 < c < 2 ^ 32 -> tbl !! id = Some o ->
  o_size o + md = c -> o_p1 o = k -> o_p2 o = g -> own tbl md k g l -> own tbl md k g ((id, c) :: l).
Proof. intros. constructor; [|done]. cbn. eauto 10. Qed.

Section Det.
  Context (rnd : Q -> Q) (cap : Z).

  Lemma REPLACE_det g a a1 a2 : REPLACE rnd g a a1 -> REPLACE rnd g a a2 -> a1 = a2.
  Proof.
    intros [l x E H|l x E H] [l' x' E' H'|l' x' E' H']; rewrite E in *.
    - apply app_inj_tail in E' as [-> ->]. done.
    - destruct H as [H|H]; [|rewrite H in E'; by destruct l'].
      exfalso. apply H'. split; [by destruct l|done].
    - destruct H' as [H'|H']; [|by destruct l].
      exfalso. apply H. split; [rewrite E'; by destruct l'|done].
    - apply app_inj_tail in E' as [-> ->]. done.
  Qed.

  Lemma CASE4_det n a a1 a2 : CASE4 rnd cap n a a1 -> CASE4 rnd cap n a a2 -> a1 = a2.
  Proof.
    intros [l x a' H1 H2 H3|l x H1 H2 H3|l x a' H1 H2 H3 H4|a' H1 H2 H3]
           [l' x' a'' H1' H2' H3'|l' x' H1' H2' H3'|l' x' a'' H1' H2' H3' H4'|a'' H1' H2' H3'];
      try lia; try (rewrite H2 in H2'; by destruct l); try (rewrite H2 in H2'; by destruct l').
    - rewrite H2 in H2'. apply app_inj_tail in H2' as [-> ->]. by eapply REPLACE_det.
    - rewrite H3 in H3'. apply app_inj_tail in H3' as [-> ->]. done.
    - rewrite H3 in H3'. apply app_inj_tail in H3' as [-> ->]. by eapply REPLACE_det.
    - destruct H2' as [|H2']; [lia|]. rewrite H3 in H2'. by destruct l.
    - destruct H2 as [|H2]; [lia|]. rewrite H3' in H2. by destruct l'.
    - by eapply REPLACE_det.
  Qed.

  Lemma ROOM_det n (ev : ARC -> ARC -> Prop) (Hev : forall a a1 a2, ev a a1 -> ev a a2 -> a1 = a2) a a1 a2 :
    ROOM cap n ev a a1 -> ROOM cap n ev a a2 -> a1 = a2.
  Proof.
    intros H. revert a2. induction H as [a H|a b c H He Hr IH]; intros a2 H2; inversion H2; subst; try lia.
    - done.
    - apply IH. by rewrite (Hev _ _ _ He H1).
  Qed.

  Lemma mid_inj id c c' (l1 l2 l1' l2' : list (Z * Z)) :
    (cnt id (l1 ++ (id, c) :: l2) <= 1)%nat ->
    l1 ++ (id, c) :: l2 = l1' ++ (id, c') :: l2' -> l1 = l1' /\ c = c' /\ l2 = l2'.
  Proof.
    revert l1'. induction l1 as [|x l1 IH]; intros [|x' l1'] Hc E; cbn in E.
    - by simplify_eq.
    - simplify_eq. cbn [app] in Hc. rewrite cnt_cons, decide_True, cnt_app, cnt_cons, decide_True in Hc by done. lia.
    - simplify_eq. cbn [app] in Hc. rewrite cnt_cons, decide_True, cnt_app, cnt_cons, decide_True in Hc by done. lia.
    - injection E as -> E. cbn [app] in Hc. rewrite cnt_cons in Hc.
      destruct (IH l1') as (-> & -> & ->); [lia|done|done].
  Qed.

  Lemma cnt_in id c l1 l2 : (1 <= cnt id (l1 ++ (id, c) :: l2))%nat.
  Proof. rewrite cnt_app, cnt_cons, decide_True by done. lia. Qed.

  Lemma REQUEST_det id n a b1 a1 b2 a2 :
    (forall i, cnt i (T1 a) + cnt i (B1 a) + cnt i (T2 a) + cnt i (B2 a) + cnt i [] <= 1)%nat ->
    REQUEST rnd cap id n a b1 a1 -> REQUEST rnd cap id n a b2 a2 -> b1 = b2 /\ a1 = a2.
  Proof.
    intros Hnd. specialize (Hnd id).
    intros [l1 c l2 E|l1 c l2 E|l1 c l2 a' E Hr|l1 c l2 a' E Hr|a' E Hr]
           [l1' c' l2' E'|l1' c' l2' E'|l1' c' l2' a'' E' Hr'|l1' c' l2' a'' E' Hr'|a'' E' Hr'];
      try (exfalso; pose proof (cnt_in id c l1 l2); pose proof (cnt_in id c' l1' l2');
           rewrite <- E in *; rewrite <- E' in *; lia);
      try (exfalso; pose proof (cnt_in id c l1 l2); rewrite <- E in *;
           rewrite !fmap_app, !not_elem_of_app, <- !cnt_zero in E'; lia);
      try (exfalso; pose proof (cnt_in id c' l1' l2'); rewrite <- E' in *;
           rewrite !fmap_app, !not_elem_of_app, <- !cnt_zero in E; lia);
      try (rewrite E in E'; apply mid_inj in E' as (-> & -> & ->); [|rewrite <- E; lia]);
      split; auto.
    - by rewrite (ROOM_det _ _ (REPLACE_det false) _ _ _ Hr Hr').
    - by rewrite (ROOM_det _ _ (REPLACE_det true) _ _ _ Hr Hr').
    - by rewrite (ROOM_det _ _ (CASE4_det n) _ _ _ Hr Hr').
  Qed.
End Det.

Section ARCFacts.
  Context (rnd : Q -> Q) (cap md : Z).
  Context (Hmono : forall x y, (x <= y)%Q -> (rnd x <= rnd y)%Q).
  Context (Hzero : (rnd 0 == 0)%Q).
  Context (Hidem : forall x, (rnd (rnd x) == rnd x)%Q).
  Context (Hcap : 0 <= cap) (Hmd : 0 <= md).
  Notation O := (arc_ops rnd).

  Definition sum5 (id : Z) (t1 b1 t2 b2 z : list (Z * Z)) : nat :=
    (cnt id t1 + cnt id b1 + cnt id t2 + cnt id b2 + cnt id z)%nat.

  Record arel (s : arc) (t1 b1 t2 b2 z : list (Z * Z)) : Prop := {
    a_t1 : ar_t1 s = t1.*1;
    a_b1 : ar_b1 s = b1.*1;
    a_t2 : ar_t2 s = t2.*1;
    a_b2 : ar_b2 s = b2.*1;
    a_nd : forall id, (sum5 id t1 b1 t2 b2 z <= 1)%nat;
    a_cov : forall id, is_Some (c_tbl (ar_c s) !! id) -> (1 <= sum5 id t1 b1 t2 b2 z)%nat;
    a_o1 : own (c_tbl (ar_c s)) md 1 0 t1;
    a_o2 : own (c_tbl (ar_c s)) md 1 1 b1;
    a_o3 : own (c_tbl (ar_c s)) md 2 0 t2;
    a_o4 : own (c_tbl (ar_c s)) md 2 1 b2;
    a_oz : ownz (c_tbl (ar_c s)) md z;
    a_s1 : ar_s1 s = wt t1;
    a_s2 : ar_s2 s = wt t2;
    a_g1 : ar_g1 s <= wt b1;
    a_g2 : ar_g2 s <= wt b2;
    a_occ : c_occ (ar_c s) = wt t1 + wt t2;
    a_nobj : c_nobj (ar_c s) = Z.of_nat (length t1 + length t2);
    a_size : c_size (ar_c s) = cap;
    a_mds : c_md (ar_c s) = md;
    a_p : (0 <= ar_p s)%Q /\ (ar_p s <= dbl rnd cap)%Q
  }.

  (** What no eviction touches. *)
  Definition keep (s s' : arc) : Prop :=
    ar_p s' = ar_p s /\ ar_f1 s' = ar_f1 s /\ ar_f2 s' = ar_f2 s /\ ar_vt s' = ar_vt s /\
    c_nreq (ar_c s') = c_nreq (ar_c s) /\ c_adm (ar_c s') = c_adm (ar_c s).

  Lemma keep_trans s1 s2 s3 : keep s1 s2 -> keep s2 s3 -> keep s1 s3.
  Proof. unfold keep. intros (?&?&?&?&?&?) (?&?&?&?&?&?). split_and!; congruence. Qed.

  Lemma charge_ok s t1 b1 t2 b2 z o c : arel s t1 b1 t2 b2 z ->
    o_size o + md = c -> 0 < c < 2 ^ 32 -> charge (ar_c s) o = c.
  Proof.
    intros H Ho Hc. unfold charge, u32. rewrite (a_mds _ _ _ _ _ _ H), Ho. apply Z.mod_small. lia.
  Qed.

  Lemma evict_L1_data_ok s l id c b1 t2 b2 z : arel s (l ++ [(id, c)]) b1 t2 b2 z ->
    exists s', evict_L1_data s = Ok s' /\ arel s' l ((id, c) :: b1) t2 b2 z /\ keep s s' /\
      ar_g1 s' = ar_g1 s + c /\ ar_g2 s' = ar_g2 s.
  Proof.
    intros H. pose proof H as [E1 E2 E3 E4 Hnd Hcov O1 O2 O3 O4 Oz S1 S2 G1 G2 Hocc Hn Hsz Hm Hp].
    unfold evict_L1_data. rewrite E1, fmap_app, last_app. cbn.
    destruct (own_lookup _ _ _ _ _ _ _ _ O1) as (Hc & o & Ho & Hos & Hp1 & Hp2). rewrite Ho.
    unfold cache_evict_keep. rewrite Ho. cbn.
    assert (Hch : charge (ar_c s) o = c) by (by eapply charge_ok).
    unfold charge. cbn. fold (charge (ar_c s) o). rewrite Hch.
    rewrite ?wt_app, ?wt_cons, ?wt_nil in *. cbn [fst snd] in *. unfold sum5 in *.
    eexists. split; [reflexivity|]. split; [|by repeat split].
    assert (Hid : forall i, cnt i (l ++ [(id, c)]) = (cnt i l + if decide (id = i) then 1 else 0)%nat).
    { intros i. rewrite cnt_app, cnt_cons, cnt_nil. cbn. lia. }
    pose proof (Hnd id) as Hndid. rewrite Hid, decide_True in Hndid by done.
    assert (Hfrm : forall i, i <> id -> alter (fun o => o_set_p2 o 1) id (c_tbl (ar_c s)) !! i = c_tbl (ar_c s) !! i).
    { intros i Hi. by rewrite lookup_alter_ne. }
    constructor; cbn; rewrite ?wt_cons; cbn [fst snd].
    - change [id] with ([(id, c)].*1). rewrite <- fmap_app, (qdel_mid id c l []), app_nil_r; [done|].
      rewrite Hid, decide_True by done. lia.
    - by rewrite E2.
    - done.
    - done.
    - intros i. specialize (Hnd i). rewrite Hid in Hnd. unfold sum5. rewrite cnt_cons. cbn. lia.
    - intros i Hi. unfold sum5. rewrite cnt_cons. cbn. destruct (decide (id = i)); [lia|].
      rewrite Hfrm in Hi by done. specialize (Hcov i Hi). rewrite Hid, decide_False in Hcov by done. lia.
    - apply Forall_app in O1 as [O1 _]. eapply own_frame; [|exact O1]. intros i Hi. apply Hfrm. intros ->. lia.
    - eapply (own_cons _ _ _ _ _ _ (o_set_p2 o 1)); auto.
      + by rewrite lookup_alter, Ho.
      + eapply own_frame; [|exact O2]. intros i Hi. apply Hfrm. intros ->. lia.
    - eapply own_frame; [|exact O3]. intros i Hi. apply Hfrm. intros ->. lia.
    - eapply own_frame; [|exact O4]. intros i Hi. apply Hfrm. intros ->. lia.
    - eapply ownz_frame; [|exact Oz]. intros i Hi. apply Hfrm. intros ->. lia.
    - lia.
    - done.
    - lia.
    - done.
    - lia.
    - rewrite app_length in Hn. cbn in Hn. lia.
    - done.
    - done.
    - done.
  Qed.

  Lemma evict_L2_data_ok s t1 b1 l id c b2 z : arel s t1 b1 (l ++ [(id, c)]) b2 z ->
    exists s', evict_L2_data s = Ok s' /\ arel s' t1 b1 l ((id, c) :: b2) z /\ keep s s' /\
      ar_g1 s' = ar_g1 s /\ ar_g2 s' = ar_g2 s + c.
  Proof.
    intros H. pose proof H as [E1 E2 E3 E4 Hnd Hcov O1 O2 O3 O4 Oz S1 S2 G1 G2 Hocc Hn Hsz Hm Hp].
    unfold evict_L2_data. rewrite E3, fmap_app, last_app. cbn.
    destruct (own_lookup _ _ _ _ _ _ _ _ O3) as (Hc & o & Ho & Hos & Hp1 & Hp2). rewrite Ho.
    unfold cache_evict_keep. cbn. rewrite lookup_alter, Ho. cbn.
    assert (Hch : charge (ar_c s) o = c) by (by eapply charge_ok).
    unfold charge. cbn. fold (charge (ar_c s) o). rewrite Hch.
    rewrite ?wt_app, ?wt_cons, ?wt_nil in *. cbn [fst snd] in *. unfold sum5 in *.
    eexists. split; [reflexivity|]. split; [|by repeat split].
    assert (Hid : forall i, cnt i (l ++ [(id, c)]) = (cnt i l + if decide (id = i) then 1 else 0)%nat).
    { intros i. rewrite cnt_app, cnt_cons, cnt_nil. cbn. lia. }
    pose proof (Hnd id) as Hndid. rewrite Hid, decide_True in Hndid by done.
    assert (Hfrm : forall i, i <> id -> alter (fun o => o_set_p2 o 1) id (c_tbl (ar_c s)) !! i = c_tbl (ar_c s) !! i).
    { intros i Hi. by rewrite lookup_alter_ne. }
    constructor; cbn; rewrite ?wt_cons; cbn [fst snd].
    - done.
    - done.
    - change [id] with ([(id, c)].*1). rewrite <- fmap_app, (qdel_mid id c l []), app_nil_r; [done|].
      rewrite Hid, decide_True by done. lia.
    - by rewrite E4.
    - intros i. specialize (Hnd i). rewrite Hid in Hnd. unfold sum5. rewrite cnt_cons. cbn. lia.
    - intros i Hi. unfold sum5. rewrite cnt_cons. cbn. destruct (decide (id = i)); [lia|].
      rewrite Hfrm in Hi by done. specialize (Hcov i Hi). rewrite Hid, decide_False in Hcov by done. lia.
    - eapply own_frame; [|exact O1]. intros i Hi. apply Hfrm. intros ->. lia.
    - eapply own_frame; [|exact O2]. intros i Hi. apply Hfrm. intros ->. lia.
    - apply Forall_app in O3 as [O3 _]. eapply own_frame; [|exact O3]. intros i Hi. apply Hfrm. intros ->. lia.
    - eapply (own_cons _ _ _ _ _ _ (o_set_p2 o 1)); auto.
      + by rewrite lookup_alter, Ho.
      + eapply own_frame; [|exact O4]. intros i Hi. apply Hfrm. intros ->. lia.
    - eapply ownz_frame; [|exact Oz]. intros i Hi. apply Hfrm. intros ->. lia.
    - done.
    - lia.
    - done.
    - lia.
    - lia.
    - rewrite app_length in Hn. cbn in Hn. lia.
    - done.
    - done.
    - done.
  Qed.

  (** An object leaves: it is dropped from one list and from the table. *)
  Lemma drop_frame (tbl : gmap Z cobj) id i : i <> id -> delete id tbl !! i = tbl !! i.
  Proof. intros. by rewrite lookup_delete_ne. Qed.

  Lemma evict_L1_no_ghost_ok s l id c b1 t2 b2 z : arel s (l ++ [(id, c)]) b1 t2 b2 z ->
    exists s', evict_L1_data_no_ghost s = Ok s' /\ arel s' l b1 t2 b2 z /\ keep s s' /\
      ar_g1 s' = ar_g1 s /\ ar_g2 s' = ar_g2 s.
  Proof.
    intros H. pose proof H as [E1 E2 E3 E4 Hnd Hcov O1 O2 O3 O4 Oz S1 S2 G1 G2 Hocc Hn Hsz Hm Hp].
    unfold evict_L1_data_no_ghost. rewrite E1, fmap_app, last_app. cbn.
    destruct (own_lookup _ _ _ _ _ _ _ _ O1) as (Hc & o & Ho & Hos & Hp1 & Hp2). rewrite Ho.
    unfold cache_evict_base, cache_remove_obj_base. rewrite Ho. cbn.
    assert (Hch : charge (ar_c s) o = c) by (by eapply charge_ok).
    fold (charge (ar_c s) o). rewrite Hch.
    rewrite ?wt_app, ?wt_cons, ?wt_nil in *. cbn [fst snd] in *. unfold sum5 in *.
    eexists. split; [reflexivity|]. split; [|by repeat split].
    assert (Hid : forall i, cnt i (l ++ [(id, c)]) = (cnt i l + if decide (id = i) then 1 else 0)%nat).
    { intros i. rewrite cnt_app, cnt_cons, cnt_nil. cbn. lia. }
    pose proof (Hnd id) as Hndid. rewrite Hid, decide_True in Hndid by done.
    constructor; cbn; rewrite ?wt_cons; cbn [fst snd].
    - change [id] with ([(id, c)].*1). rewrite <- fmap_app, (qdel_mid id c l []), app_nil_r; [done|].
      rewrite Hid, decide_True by done. lia.
    - done.
    - done.
    - done.
    - intros i. specialize (Hnd i). rewrite Hid in Hnd. unfold sum5. lia.
    - intros i Hi. unfold sum5. destruct (decide (id = i)) as [<-|].
      { rewrite lookup_delete in Hi. by destruct Hi. }
      rewrite drop_frame in Hi by done. specialize (Hcov i Hi). rewrite Hid, decide_False in Hcov by done. lia.
    - apply Forall_app in O1 as [O1 _]. eapply own_frame; [|exact O1]. intros i Hi. apply drop_frame. intros ->. lia.
    - eapply own_frame; [|exact O2]. intros i Hi. apply drop_frame. intros ->. lia.
    - eapply own_frame; [|exact O3]. intros i Hi. apply drop_frame. intros ->. lia.
    - eapply own_frame; [|exact O4]. intros i Hi. apply drop_frame. intros ->. lia.
    - eapply ownz_frame; [|exact Oz]. intros i Hi. apply drop_frame. intros ->. lia.
    - lia.
    - done.
    - lia.
    - done.
    - lia.
    - rewrite app_length in Hn. cbn in Hn. lia.
    - done.
    - done.
    - done.
  Qed.

  Lemma evict_L1_ghost_ok s t1 l id c t2 b2 z : arel s t1 (l ++ [(id, c)]) t2 b2 z ->
    exists s', evict_L1_ghost s = Ok s' /\ arel s' t1 l t2 b2 z /\ keep s s' /\
      ar_g1 s' = ar_g1 s - c /\ ar_g2 s' = ar_g2 s.
  Proof.
    intros H. pose proof H as [E1 E2 E3 E4 Hnd Hcov O1 O2 O3 O4 Oz S1 S2 G1 G2 Hocc Hn Hsz Hm Hp].
    unfold evict_L1_ghost. rewrite E2, fmap_app, last_app. cbn.
    destruct (own_lookup _ _ _ _ _ _ _ _ O2) as (Hc & o & Ho & Hos & Hp1 & Hp2). rewrite Ho.
    assert (Hch : charge (ar_c s) o = c) by (by eapply charge_ok). rewrite Hch.
    rewrite ?wt_app, ?wt_cons, ?wt_nil in *. cbn [fst snd] in *. unfold sum5 in *.
    eexists. split; [reflexivity|]. split; [|by repeat split].
    assert (Hid : forall i, cnt i (l ++ [(id, c)]) = (cnt i l + if decide (id = i) then 1 else 0)%nat).
    { intros i. rewrite cnt_app, cnt_cons, cnt_nil. cbn. lia. }
    pose proof (Hnd id) as Hndid. rewrite Hid, decide_True in Hndid by done.
    constructor; cbn; rewrite ?wt_cons; cbn [fst snd].
    - done.
    - change [id] with ([(id, c)].*1). rewrite <- fmap_app, (qdel_mid id c l []), app_nil_r; [done|].
      rewrite Hid, decide_True by done. lia.
    - done.
    - done.
    - intros i. specialize (Hnd i). rewrite Hid in Hnd. unfold sum5. lia.
    - intros i Hi. unfold sum5. destruct (decide (id = i)) as [<-|].
      { rewrite lookup_delete in Hi. by destruct Hi. }
      rewrite drop_frame in Hi by done. specialize (Hcov i Hi). rewrite Hid, decide_False in Hcov by done. lia.
    - eapply own_frame; [|exact O1]. intros i Hi. apply drop_frame. intros ->. lia.
    - apply Forall_app in O2 as [O2 _]. eapply own_frame; [|exact O2]. intros i Hi. apply drop_frame. intros ->. lia.
    - eapply own_frame; [|exact O3]. intros i Hi. apply drop_frame. intros ->. lia.
    - eapply own_frame; [|exact O4]. intros i Hi. apply drop_frame. intros ->. lia.
    - eapply ownz_frame; [|exact Oz]. intros i Hi. apply drop_frame. intros ->. lia.
    - done.
    - done.
    - lia.
    - done.
    - done.
    - done.
    - done.
    - done.
    - done.
  Qed.

  Lemma evict_L2_ghost_ok s t1 b1 t2 l id c z : arel s t1 b1 t2 (l ++ [(id, c)]) z ->
    exists s', evict_L2_ghost s = Ok s' /\ arel s' t1 b1 t2 l z /\ keep s s' /\
      ar_g1 s' = ar_g1 s /\ ar_g2 s' = ar_g2 s - c.
  Proof.
    intros H. pose proof H as [E1 E2 E3 E4 Hnd Hcov O1 O2 O3 O4 Oz S1 S2 G1 G2 Hocc Hn Hsz Hm Hp].
    unfold evict_L2_ghost. rewrite E4, fmap_app, last_app. cbn.
    destruct (own_lookup _ _ _ _ _ _ _ _ O4) as (Hc & o & Ho & Hos & Hp1 & Hp2). rewrite Ho.
    assert (Hch : charge (ar_c s) o = c) by (by eapply charge_ok). rewrite Hch.
    rewrite ?wt_app, ?wt_cons, ?wt_nil in *. cbn [fst snd] in *. unfold sum5 in *.
    eexists. split; [reflexivity|]. split; [|by repeat split].
    assert (Hid : forall i, cnt i (l ++ [(id, c)]) = (cnt i l + if decide (id = i) then 1 else 0)%nat).
    { intros i. rewrite cnt_app, cnt_cons, cnt_nil. cbn. lia. }
    pose proof (Hnd id) as Hndid. rewrite Hid, decide_True in Hndid by done.
    constructor; cbn; rewrite ?wt_cons; cbn [fst snd].
    - done.
    - done.
    - done.
    - change [id] with ([(id, c)].*1). rewrite <- fmap_app, (qdel_mid id c l []), app_nil_r; [done|].
      rewrite Hid, decide_True by done. lia.
    - intros i. specialize (Hnd i). rewrite Hid in Hnd. unfold sum5. lia.
    - intros i Hi. unfold sum5. destruct (decide (id = i)) as [<-|].
      { rewrite lookup_delete in Hi. by destruct Hi. }
      rewrite drop_frame in Hi by done. specialize (Hcov i Hi). rewrite Hid, decide_False in Hcov by done. lia.
    - eapply own_frame; [|exact O1]. intros i Hi. apply drop_frame. intros ->. lia.
    - eapply own_frame; [|exact O2]. intros i Hi. apply drop_frame. intros ->. lia.
    - eapply own_frame; [|exact O3]. intros i Hi. apply drop_frame. intros ->. lia.
    - apply Forall_app in O4 as [O4 _]. eapply own_frame; [|exact O4]. intros i Hi. apply drop_frame. intros ->. lia.
    - eapply ownz_frame; [|exact Oz]. intros i Hi. apply drop_frame. intros ->. lia.
    - done.
    - done.
    - done.
    - lia.
    - done.
    - done.
    - done.
    - done.
    - done.
  Qed.

  (** [v] is the one id that leaves the live lists. *)
  Definition live_minus (v : Z) (t1 t2 t1' t2' : list (Z * Z)) : Prop :=
    forall i, (cnt i t1' + cnt i t2' + (if decide (v = i) then 1 else 0) = cnt i t1 + cnt i t2)%nat.

  (** What every eviction does, besides keeping the invariant: no id is added
      to the table, the drift between ghost counters and ghost lists stays,
      one object fewer is live, and [v] is what to_evict names. *)
  Record evicted (s s' : arc) (t1 b1 t2 b2 z t1' b1' t2' b2' : list (Z * Z)) (v : Z) : Prop := {
    ev_rel : arel s' t1' b1' t2' b2' z;
    ev_keep : keep s s';
    ev_d1 : wt b1' - ar_g1 s' = wt b1 - ar_g1 s;
    ev_d2 : wt b2' - ar_g2 s' = wt b2 - ar_g2 s;
    ev_sub : forall i, (sum5 i t1' b1' t2' b2' z <= sum5 i t1 b1 t2 b2 z)%nat;
    ev_live : live_minus v t1 t2 t1' t2';
    ev_len : (length t1' + length t2' + 1 = length t1 + length t2)%nat;
    ev_wt : wt t1' + wt t2' <= wt t1 + wt t2
  }.

  Lemma replace_L1_spec s t1 b1 t2 b2 z : arel s t1 b1 t2 b2 z ->
    replace_L1 rnd s = true <->
      (t1 <> [] /\ over rnd (ar_f2 s) (mkARC t1 b1 t2 b2 (ar_p s))) \/ t2 = [].
  Proof.
    intros H. unfold replace_L1, over. cbn.
    rewrite (a_s1 _ _ _ _ _ _ H), (a_s2 _ _ _ _ _ _ H).
    destruct (own_wt _ _ _ _ _ (a_o1 _ _ _ _ _ _ H)) as [W1 W2].
    destruct (own_wt _ _ _ _ _ (a_o3 _ _ _ _ _ _ H)) as [W3 W4].
    rewrite orb_true_iff, andb_true_iff, orb_true_iff, andb_true_iff.
    rewrite !bool_decide_eq_true, negb_true_iff, Qeq_bool_iff, W4.
    assert (E1 : wt t1 > 0 <-> t1 <> []) by (rewrite <- W2; lia).
    assert (E2 : Qle_bool (dbl rnd (wt t1)) (ar_p s) = false <-> (ar_p s < flt rnd (wt t1))%Q).
    { rewrite <- not_true_iff_false, Qle_bool_iff. unfold flt, dbl. split.
      - apply Qnot_le_lt.
      - intros ? ?. by apply (Qlt_not_le _ _ H0). }
    rewrite E1, E2. unfold flt, dbl. reflexivity.
  Qed.

  Lemma arc_replace_ok s t1 b1 t2 b2 z : arel s t1 b1 t2 b2 z -> wt t1 + wt t2 > 0 ->
    exists s' t1' b1' t2' b2' v, arc_replace rnd s = Ok s' /\
      evicted s s' t1 b1 t2 b2 z t1' b1' t2' b2' v /\ arc_to_replace rnd s = Some v /\
      REPLACE rnd (ar_f2 s) (mkARC t1 b1 t2 b2 (ar_p s)) (mkARC t1' b1' t2' b2' (ar_p s')).
  Proof.
    intros H Hw. unfold arc_replace, arc_to_replace.
    pose proof (replace_L1_spec _ _ _ _ _ _ H) as Hr.
    destruct (own_wt _ _ _ _ _ (a_o1 _ _ _ _ _ _ H)) as [W1 W2].
    destruct (own_wt _ _ _ _ _ (a_o3 _ _ _ _ _ _ H)) as [W3 W4].
    destruct (replace_L1 rnd s).
    - assert (Hne : t1 <> []).
      { intros ->. destruct (proj1 Hr eq_refl) as [[? _]|Hx]; [done|].
        apply W4 in Hx. rewrite wt_nil in *. lia. }
      destruct (own_snoc _ _ _ _ _ (a_o1 _ _ _ _ _ _ H)) as (l & [id c] & ->).
      { assert (wt t1 <> 0) by (by intros ?%W2). lia. }
      destruct (evict_L1_data_ok _ _ _ _ _ _ _ _ H) as (s' & -> & H' & Hk & G1 & G2).
      exists s', l, ((id, c) :: b1), t2, b2, id. split; [done|]. split; [|split].
      + split; auto.
        * rewrite wt_cons. cbn. lia.
        * lia.
        * intros i. unfold sum5. rewrite cnt_app, !cnt_cons, cnt_nil. cbn. lia.
        * intros i. rewrite cnt_app, cnt_cons, cnt_nil. cbn. lia.
        * rewrite app_length. cbn. lia.
        * rewrite wt_app, wt_cons, wt_nil.
          destruct (own_lookup _ _ _ _ _ _ _ _ (a_o1 _ _ _ _ _ _ H)) as [Hc _]. cbn. lia.
      + rewrite (a_t1 _ _ _ _ _ _ H), fmap_app, last_app. done.
      + destruct Hk as [-> _].
        apply (replace_T1 rnd (ar_f2 s) (mkARC (l ++ [(id, c)]) b1 t2 b2 (ar_p s))); [done|].
        destruct (proj1 Hr eq_refl) as [[_ ?]|?]; auto.
    - assert (Hne : t2 <> []) by (intros Hx; discriminate (proj2 Hr (or_intror Hx))).
      destruct (own_snoc _ _ _ _ _ (a_o3 _ _ _ _ _ _ H)) as (l & [id c] & ->).
      { assert (wt t2 <> 0) by (by intros ?%W4). lia. }
      destruct (evict_L2_data_ok _ _ _ _ _ _ _ _ H) as (s' & -> & H' & Hk & G1 & G2).
      exists s', t1, b1, l, ((id, c) :: b2), id. split; [done|]. split; [|split].
      + split; auto.
        * lia.
        * rewrite wt_cons. cbn. lia.
        * intros i. unfold sum5. rewrite cnt_app, !cnt_cons, cnt_nil. cbn. lia.
        * intros i. rewrite cnt_app, cnt_cons, cnt_nil. cbn. lia.
        * rewrite app_length. cbn. lia.
        * rewrite wt_app, wt_cons, wt_nil.
          destruct (own_lookup _ _ _ _ _ _ _ _ (a_o3 _ _ _ _ _ _ H)) as [Hc _]. cbn. lia.
      + rewrite (a_t2 _ _ _ _ _ _ H), fmap_app, last_app. done.
      + destruct Hk as [-> _].
        apply (replace_T2 rnd (ar_f2 s) (mkARC t1 b1 (l ++ [(id, c)]) b2 (ar_p s))); [done|].
        intros Hx. discriminate (proj2 Hr (or_introl Hx)).
  Qed.

  (** Dropping a ghost first changes none of this. *)
  Lemma evicted_after s0 s1 s2 t1 b1 t2 b2 z t1' b1' t2' b2' v l1 l2 :
    keep s0 s1 -> wt l1 - ar_g1 s1 = wt b1 - ar_g1 s0 -> wt l2 - ar_g2 s1 = wt b2 - ar_g2 s0 ->
    (forall i, (sum5 i t1 l1 t2 l2 z <= sum5 i t1 b1 t2 b2 z)%nat) ->
    evicted s1 s2 t1 l1 t2 l2 z t1' b1' t2' b2' v ->
    evicted s0 s2 t1 b1 t2 b2 z t1' b1' t2' b2' v.
  Proof.
    intros Hk H1 H2 Hs []. split; auto; try lia.
    - by eapply keep_trans.
    - intros i. etrans; [apply ev_sub0|]. apply Hs.
  Qed.

  Lemma replace_L1_ext s s' : ar_s1 s' = ar_s1 s -> ar_s2 s' = ar_s2 s -> ar_p s' = ar_p s ->
    ar_f2 s' = ar_f2 s -> replace_L1 rnd s' = replace_L1 rnd s.
  Proof. intros E1 E2 E3 E4. unfold replace_L1. by rewrite E1, E2, E3, E4. Qed.

  Lemma to_replace_ext s s' t1 b1 t2 b2 z b1' b2' z' :
    arel s t1 b1 t2 b2 z -> arel s' t1 b1' t2 b2' z' -> keep s s' ->
    arc_to_replace rnd s' = arc_to_replace rnd s.
  Proof.
    intros H H' (?&?&?&?&?). unfold arc_to_replace.
    rewrite (a_t1 _ _ _ _ _ _ H), (a_t1 _ _ _ _ _ _ H'), (a_t2 _ _ _ _ _ _ H), (a_t2 _ _ _ _ _ _ H').
    rewrite (replace_L1_ext s s'); auto.
    - by rewrite (a_s1 _ _ _ _ _ _ H), (a_s1 _ _ _ _ _ _ H').
    - by rewrite (a_s2 _ _ _ _ _ _ H), (a_s2 _ _ _ _ _ _ H').
  Qed.

  Lemma arc_evict_miss_ok s t1 b1 t2 b2 z r :
    arel s t1 b1 t2 b2 z -> wt t1 + wt t2 > 0 -> r_size r + md <= cap ->
    exists s' t1' b1' t2' b2' v, arc_evict_miss rnd s r = Ok s' /\
      evicted s s' t1 b1 t2 b2 z t1' b1' t2' b2' v /\ arc_to_evict_miss rnd s r = Some v /\
      (ar_g1 s = wt b1 -> ar_g2 s = wt b2 -> ar_f2 s = false ->
       CASE4 rnd cap (r_size r + md) (mkARC t1 b1 t2 b2 (ar_p s)) (mkARC t1' b1' t2' b2' (ar_p s'))).
  Proof.
    intros H Hw Hfit. unfold arc_evict_miss, arc_to_evict_miss, L1_full.
    rewrite (a_size _ _ _ _ _ _ H), (a_mds _ _ _ _ _ _ H), (a_s1 _ _ _ _ _ _ H).
    destruct (own_wt _ _ _ _ _ (a_o2 _ _ _ _ _ _ H)) as [WB1 WB1'].
    destruct (own_wt _ _ _ _ _ (a_o4 _ _ _ _ _ _ H)) as [WB2 WB2'].
    pose proof (a_g1 _ _ _ _ _ _ H) as G1. pose proof (a_g2 _ _ _ _ _ _ H) as G2.
    destruct (bool_decide (wt t1 + ar_g1 s + (r_size r + md) > cap)) eqn:Ef.
    - apply bool_decide_eq_true in Ef. destruct (decide (ar_g1 s > 0)) as [Hg|Hg].
      + destruct (own_snoc _ _ _ _ _ (a_o2 _ _ _ _ _ _ H)) as (l & [id c] & ->); [lia|].
        destruct (evict_L1_ghost_ok _ _ _ _ _ _ _ _ H) as (s1 & -> & H1 & Hk & E1 & E2). cbn.
        destruct (arc_replace_ok _ _ _ _ _ _ H1 Hw) as (s' & t1' & b1' & t2' & b2' & v & -> & Hev & Hv & HR).
        exists s', t1', b1', t2', b2', v. split; [done|]. split; [|split].
        * eapply evicted_after; [exact Hk| | | |exact Hev].
          -- rewrite wt_app, wt_cons, wt_nil. cbn. lia.
          -- lia.
          -- intros i. unfold sum5. rewrite cnt_app. lia.
        * rewrite <- Hv. symmetry. by eapply to_replace_ext.
        * intros X1 X2 X3. pose proof Hk as (Hp & _ & Hf2 & _).
          rewrite Hf2, X3, Hp in HR.
          eapply (case4_A1 rnd cap (r_size r + md) (mkARC t1 (l ++ [(id, c)]) t2 b2 (ar_p s)) l (id, c));
            cbn; [lia|done|exact HR].
      + destruct (own_snoc _ _ _ _ _ (a_o1 _ _ _ _ _ _ H)) as (l & [id c] & ->); [lia|].
        destruct (evict_L1_no_ghost_ok _ _ _ _ _ _ _ _ H) as (s1 & -> & H1 & Hk & E1 & E2).
        exists s1, l, b1, t2, b2, id. split; [done|]. split; [|split].
        * split; auto; try lia.
          -- intros i. unfold sum5. rewrite cnt_app. lia.
          -- intros i. rewrite cnt_app, cnt_cons, cnt_nil. cbn. lia.
          -- rewrite app_length. cbn. lia.
          -- rewrite wt_app, wt_cons, wt_nil.
             destruct (own_lookup _ _ _ _ _ _ _ _ (a_o1 _ _ _ _ _ _ H)) as [Hc _]. cbn. lia.
        * by rewrite (a_t1 _ _ _ _ _ _ H), fmap_app, last_app.
        * intros X1 X2 X3. destruct Hk as [-> _].
          assert (b1 = []) as -> by (apply WB1'; lia).
          eapply (case4_A2 rnd cap (r_size r + md) (mkARC (l ++ [(id, c)]) [] t2 b2 (ar_p s)) l (id, c));
            cbn; [lia|done|done].
    - apply bool_decide_eq_false in Ef. rewrite (a_s2 _ _ _ _ _ _ H).
      destruct (decide _) as [[Hge Hg]|Hlt].
      + destruct (own_snoc _ _ _ _ _ (a_o4 _ _ _ _ _ _ H)) as (l & [id c] & ->); [lia|].
        destruct (evict_L2_ghost_ok _ _ _ _ _ _ _ _ H) as (s1 & -> & H1 & Hk & E1 & E2). cbn.
        destruct (arc_replace_ok _ _ _ _ _ _ H1 Hw) as (s' & t1' & b1' & t2' & b2' & v & -> & Hev & Hv & HR).
        exists s', t1', b1', t2', b2', v. split; [done|]. split; [|split].
        * eapply evicted_after; [exact Hk| | | |exact Hev].
          -- lia.
          -- rewrite wt_app, wt_cons, wt_nil. cbn. lia.
          -- intros i. unfold sum5. rewrite cnt_app. lia.
        * rewrite <- Hv. symmetry. by eapply to_replace_ext.
        * intros X1 X2 X3. pose proof Hk as (Hp & _ & Hf2 & _).
          rewrite Hf2, X3, Hp in HR.
          eapply (case4_B1 rnd cap (r_size r + md) (mkARC t1 b1 t2 (l ++ [(id, c)]) (ar_p s)) l (id, c));
            cbn; [lia|lia|done|exact HR].
      + cbn. destruct (arc_replace_ok _ _ _ _ _ _ H Hw) as (s' & t1' & b1' & t2' & b2' & v & -> & Hev & Hv & HR).
        exists s', t1', b1', t2', b2', v. split; [done|]. split; [done|]. split; [done|].
        intros X1 X2 X3. rewrite X3 in HR.
        eapply (case4_B2 rnd cap (r_size r + md) (mkARC t1 b1 t2 b2 (ar_p s))); cbn; [lia| |exact HR].
        destruct (decide (b2 = [])) as [|Hb]; [by right|left].
        assert (wt b2 <> 0) by (by intros ?%WB2'). lia.
  Qed.

  Lemma arc_evict_ok s t1 b1 t2 b2 z r :
    arel s t1 b1 t2 b2 z -> wt t1 + wt t2 > 0 -> r_size r + md <= cap ->
    exists s' t1' b1' t2' b2' v, arc_evict rnd s r = Ok s' /\
      evicted s s' t1 b1 t2 b2 z t1' b1' t2' b2' v /\
      arc_to_evict rnd s r = Ok (s, Some v) /\
      (ar_g1 s = wt b1 -> ar_g2 s = wt b2 ->
       if in_ghost s
       then REPLACE rnd (ar_f2 s) (mkARC t1 b1 t2 b2 (ar_p s)) (mkARC t1' b1' t2' b2' (ar_p s'))
       else ar_f2 s = false ->
            CASE4 rnd cap (r_size r + md) (mkARC t1 b1 t2 b2 (ar_p s)) (mkARC t1' b1' t2' b2' (ar_p s'))).
  Proof.
    intros H Hw Hfit. unfold arc_evict, arc_to_evict. destruct (in_ghost s).
    - destruct (arc_replace_ok _ _ _ _ _ _ H Hw) as (s' & t1' & b1' & t2' & b2' & v & -> & Hev & Hv & HR).
      exists s', t1', b1', t2', b2', v. split_and!; auto. by rewrite Hv.
    - destruct (arc_evict_miss_ok _ _ _ _ _ _ r H Hw Hfit)
        as (s' & t1' & b1' & t2' & b2' & v & -> & Hev & Hv & HR).
      exists s', t1', b1', t2', b2', v. split_and!; auto. by rewrite Hv.
  Qed.

  Lemma arc_loop_ok r fuel : forall s t1 b1 t2 b2 z,
    arel s t1 b1 t2 b2 z -> r_size r + md <= cap -> (length t1 + length t2 <= fuel)%nat ->
    exists s' t1' b1' t2' b2', evict_loop O fuel s r = Ok s' /\
      arel s' t1' b1' t2' b2' z /\ keep s s' /\
      wt b1' - ar_g1 s' = wt b1 - ar_g1 s /\ wt b2' - ar_g2 s' = wt b2 - ar_g2 s /\
      (forall i, (sum5 i t1' b1' t2' b2' z <= sum5 i t1 b1 t2 b2 z)%nat) /\
      (length t1' + length t2' <= length t1 + length t2)%nat /\
      wt t1' + wt t2' + (r_size r + md) <= cap /\
      (ar_g1 s = wt b1 -> ar_g2 s = wt b2 ->
       if in_ghost s
       then ROOM cap (r_size r + md) (REPLACE rnd (ar_f2 s))
              (mkARC t1 b1 t2 b2 (ar_p s)) (mkARC t1' b1' t2' b2' (ar_p s'))
       else ar_f2 s = false ->
            ROOM cap (r_size r + md) (CASE4 rnd cap (r_size r + md))
              (mkARC t1 b1 t2 b2 (ar_p s)) (mkARC t1' b1' t2' b2' (ar_p s'))).
  Proof.
    induction fuel as [|fuel IH]; intros s t1 b1 t2 b2 z H Hfit Hf; cbn -[arc_ops];
      cbn [arc_ops op_size op_occupied op_md op_evict];
      rewrite (a_size _ _ _ _ _ _ H), (a_mds _ _ _ _ _ _ H), (a_occ _ _ _ _ _ _ H).
    - assert (t1 = [] /\ t2 = []) as [-> ->] by (split; apply nil_length_inv; lia).
      rewrite !wt_nil. rewrite decide_False by lia.
      exists s, [], b1, [], b2. rewrite !wt_nil. split_and!; auto; try done; try lia.
      intros. destruct (in_ghost s); [|intros _]; constructor; cbn; rewrite !wt_nil; lia.
    - destruct (decide _) as [Hgt|Hle].
      + destruct (arc_evict_ok s t1 b1 t2 b2 z r H) as (s1 & t1' & b1' & t2' & b2' & v & Hev & He & _ & Hsp); [lia|done|].
        rewrite Hev. cbn [rbind].
        destruct He as [H1 Hk Hd1 Hd2 Hsub Hlive Hlen Hwt].
        destruct (IH s1 t1' b1' t2' b2' z H1 Hfit) as (s2 & t1'' & b1'' & t2'' & b2'' & Hl & H2 & Hk2 & Hd1' & Hd2' & Hsub2 & Hlen2 & Hfit2 & Hsp2); [lia|].
        exists s2, t1'', b1'', t2'', b2''. rewrite Hl. split_and!; auto; try lia.
        * by eapply keep_trans.
        * intros i. etrans; [apply Hsub2|]. apply Hsub.
        * intros X1 X2. specialize (Hsp X1 X2). specialize (Hsp2 ltac:(lia) ltac:(lia)).
          assert (Hig : in_ghost s1 = in_ghost s).
          { unfold in_ghost. destruct Hk as (_ & -> & -> & -> & -> & _). done. }
          rewrite Hig in Hsp2. assert (Hf2 : ar_f2 s1 = ar_f2 s) by apply Hk. rewrite Hf2 in Hsp2.
          destruct (in_ghost s).
          -- eapply room_evict; [cbn; lia|exact Hsp|exact Hsp2].
          -- intros X3. eapply room_evict; [cbn; lia|exact (Hsp X3)|exact (Hsp2 X3)].
      + exists s, t1, b1, t2, b2. split_and!; auto; try done; try lia.
        intros. destruct (in_ghost s); [|intros _]; constructor; cbn; lia.
  Qed.

  Lemma dbl_nonneg : (0 <= dbl rnd cap)%Q.
  Proof.
    unfold dbl. rewrite <- Hzero. apply Hmono. change 0%Q with (inject_Z 0). rewrite <- Zle_Qle. lia.
  Qed.

  Lemma delta_pos a b d : arc_delta rnd a b = Some d -> (0 <= d)%Q.
  Proof.
    unfold arc_delta. destruct (decide _).
    - destruct (decide _); intros [= <-]. discriminate.
    - destruct (Qle_bool _ 1) eqn:E; intros [= <-]; [discriminate|].
      assert (~ (rnd (dbl rnd a / dbl rnd b) <= 1)%Q) as Hn.
      { intros Hx%Qle_bool_iff. congruence. }
      apply Qnot_le_lt in Hn. apply Qlt_le_weak. eapply Qlt_trans; [|exact Hn]. done.
  Qed.

  Lemma p_up_ok q a b : (0 <= q)%Q ->
    (0 <= p_up rnd q (arc_delta rnd a b) cap)%Q /\ (p_up rnd q (arc_delta rnd a b) cap <= dbl rnd cap)%Q.
  Proof.
    intros Hq. unfold p_up. destruct (arc_delta rnd a b) as [d|] eqn:E.
    - apply delta_pos in E. destruct (Qle_bool (dbl rnd cap) _) eqn:E2.
      + split; [apply dbl_nonneg|apply Qle_refl].
      + split.
        * rewrite <- Hzero at 1. apply Hmono. rewrite <- (Qplus_0_l 0). by apply Qplus_le_compat.
        * apply Qlt_le_weak, Qnot_le_lt. intros Hx%Qle_bool_iff. congruence.
    - split; [apply dbl_nonneg|apply Qle_refl].
  Qed.

  Lemma p_down_ok q a b : (q <= dbl rnd cap)%Q ->
    (0 <= p_down rnd q (arc_delta rnd a b))%Q /\ (p_down rnd q (arc_delta rnd a b) <= dbl rnd cap)%Q.
  Proof.
    intros Hq. unfold p_down. destruct (arc_delta rnd a b) as [d|] eqn:E.
    - apply delta_pos in E. destruct (Qle_bool _ 0) eqn:E2.
      + split; [apply Qle_refl|apply dbl_nonneg].
      + split.
        * apply Qlt_le_weak, Qnot_le_lt. intros Hx%Qle_bool_iff. congruence.
        * apply Qle_trans with (rnd (dbl rnd cap)).
          -- apply Hmono. apply Qle_trans with q; [|exact Hq]. unfold Qminus.
             rewrite <- (Qplus_0_r q) at 2.
             apply Qplus_le_compat; [apply Qle_refl|]. by apply (Qopp_le_compat 0 d).
          -- unfold dbl. rewrite Hidem. apply Qle_refl.
    - split; [apply Qle_refl|apply dbl_nonneg].
  Qed.

  Lemma own_upd tbl k g l id f :
    (forall o, o_size (f o) = o_size o /\ o_p1 (f o) = o_p1 o /\ o_p2 (f o) = o_p2 o) ->
    own tbl md k g l -> own (alter f id tbl) md k g l.
  Proof.
    intros Hf. unfold own. rewrite !Forall_forall. intros Ho x Hx.
    destruct (Ho x Hx) as (Hc & o & Hl & E1 & E2 & E3). split; [done|].
    destruct (decide (x.1 = id)) as [<-|Hne].
    - exists (f o). rewrite lookup_alter, Hl. destruct (Hf o) as (F1 & F2 & F3).
      split; [done|]. by rewrite F1, F2, F3.
    - exists o. by rewrite lookup_alter_ne.
  Qed.
  Lemma ownz_upd tbl l id f :
    (forall o, o_size (f o) = o_size o /\ o_p1 (f o) = o_p1 o /\ o_p2 (f o) = o_p2 o) ->
    ownz tbl md l -> ownz (alter f id tbl) md l.
  Proof.
    intros Hf. unfold ownz. rewrite !Forall_forall. intros Ho x Hx.
    destruct (Ho x Hx) as (Hc & o & Hl & E1 & E3). split; [done|].
    destruct (decide (x.1 = id)) as [<-|Hne].
    - exists (f o). rewrite lookup_alter, Hl. destruct (Hf o) as (F1 & F2 & F3).
      split; [done|]. by rewrite F1, F3.
    - exists o. by rewrite lookup_alter_ne.
  Qed.

  Lemma arel_upd s t1 b1 t2 b2 z id f :
    (forall o, o_size (f o) = o_size o /\ o_p1 (f o) = o_p1 o /\ o_p2 (f o) = o_p2 o) ->
    arel s t1 b1 t2 b2 z -> arel (ar_set_c s (c_upd (ar_c s) id f)) t1 b1 t2 b2 z.
  Proof.
    intros Hf []. constructor; cbn; auto using own_upd, ownz_upd.
    intros i Hi. apply a_cov0. destruct (decide (i = id)) as [->|Hne].
    - rewrite lookup_alter in Hi. by apply fmap_is_Some in Hi.
    - by rewrite lookup_alter_ne in Hi.
  Qed.

  Lemma arel_flags s t1 b1 t2 b2 z f1 f2 vt :
    arel s t1 b1 t2 b2 z -> arel (ar_set_flags s f1 f2 vt) t1 b1 t2 b2 z.
  Proof. intros []. constructor; auto. Qed.

  Lemma arel_absent s t1 b1 t2 b2 z id : arel s t1 b1 t2 b2 z ->
    c_tbl (ar_c s) !! id = None -> sum5 id t1 b1 t2 b2 z = 0%nat.
  Proof.
    intros [] Hn. destruct (decide (sum5 id t1 b1 t2 b2 z = 0%nat)) as [|Hx]; [done|].
    assert (is_Some (c_tbl (ar_c s) !! id)) as [? ?]; [|congruence].
    unfold sum5 in Hx.
    assert ((1 <= cnt id t1 \/ 1 <= cnt id b1 \/ 1 <= cnt id t2 \/ 1 <= cnt id b2 \/ 1 <= cnt id z)%nat)
      as [Hy|[Hy|[Hy|[Hy|Hy]]]] by lia;
      apply cnt_pos in Hy as (l1 & c & l2 & ->);
      match goal with
      | H : own _ _ _ _ (l1 ++ (id, c) :: l2) |- _ => destruct (own_lookup _ _ _ _ _ _ _ _ H) as (_ & o & Ho & _); eauto
      | H : ownz _ _ (l1 ++ (id, c) :: l2) |- _ => destruct (ownz_lookup _ _ _ _ _ _ H) as (_ & o & Ho & _); eauto
      end.
  Qed.

  (** Where an object of the table sits. *)
  Lemma arel_where s t1 b1 t2 b2 z id o : arel s t1 b1 t2 b2 z -> c_tbl (ar_c s) !! id = Some o ->
    let c := o_size o + md in
    0 < c < 2 ^ 32 /\
    ((exists l1 l2, t1 = l1 ++ (id, c) :: l2 /\ o_p1 o = 1 /\ o_p2 o = 0) \/
     (exists l1 l2, b1 = l1 ++ (id, c) :: l2 /\ o_p1 o = 1 /\ o_p2 o = 1) \/
     (exists l1 l2, t2 = l1 ++ (id, c) :: l2 /\ o_p1 o = 2 /\ o_p2 o = 0) \/
     (exists l1 l2, b2 = l1 ++ (id, c) :: l2 /\ o_p1 o = 2 /\ o_p2 o = 1) \/
     (exists l1 l2, z = l1 ++ (id, c) :: l2 /\ o_p2 o = 1)).
  Proof.
    intros H Ho. cbn. assert (Hc : is_Some (c_tbl (ar_c s) !! id)) by eauto.
    apply (a_cov _ _ _ _ _ _ H) in Hc. unfold sum5 in Hc.
    assert ((1 <= cnt id t1 \/ 1 <= cnt id b1 \/ 1 <= cnt id t2 \/ 1 <= cnt id b2 \/ 1 <= cnt id z)%nat)
      as [Hy|[Hy|[Hy|[Hy|Hy]]]] by lia; apply cnt_pos in Hy as (l1 & c & l2 & E).
    - pose proof (a_o1 _ _ _ _ _ _ H) as X. rewrite E in X.
      destruct (own_lookup _ _ _ _ _ _ _ _ X) as (Hx & o' & Ho' & Hs & ? & ?). simplify_eq.
      split; [done|]. left. eauto 10.
    - pose proof (a_o2 _ _ _ _ _ _ H) as X. rewrite E in X.
      destruct (own_lookup _ _ _ _ _ _ _ _ X) as (Hx & o' & Ho' & Hs & ? & ?). simplify_eq.
      split; [done|]. right. left. eauto 10.
    - pose proof (a_o3 _ _ _ _ _ _ H) as X. rewrite E in X.
      destruct (own_lookup _ _ _ _ _ _ _ _ X) as (Hx & o' & Ho' & Hs & ? & ?). simplify_eq.
      split; [done|]. right. right. left. eauto 10.
    - pose proof (a_o4 _ _ _ _ _ _ H) as X. rewrite E in X.
      destruct (own_lookup _ _ _ _ _ _ _ _ X) as (Hx & o' & Ho' & Hs & ? & ?). simplify_eq.
      split; [done|]. right. right. right. left. eauto 10.
    - pose proof (a_oz _ _ _ _ _ _ H) as X. rewrite E in X.
      destruct (ownz_lookup _ _ _ _ _ _ X) as (Hx & o' & Ho' & Hs & ?). simplify_eq.
      split; [done|]. right. right. right. right. eauto 10.
  Qed.

  Lemma alter_frame (tbl : gmap Z cobj) f id i : i <> id -> alter f id tbl !! i = tbl !! i.
  Proof. intros. by rewrite lookup_alter_ne. Qed.

  Lemma cnt_mid i id c (l1 l2 : list (Z * Z)) :
    cnt i (l1 ++ (id, c) :: l2) = (cnt i (l1 ++ l2) + if decide (id = i) then 1 else 0)%nat.
  Proof. rewrite !cnt_app, cnt_cons. cbn. lia. Qed.
  Lemma wt_mid id c l1 l2 : wt (l1 ++ (id, c) :: l2) = wt (l1 ++ l2) + c.
  Proof. rewrite !wt_app, wt_cons. cbn. lia. Qed.
  Lemma len_mid (x : Z * Z) l1 l2 : length (l1 ++ x :: l2) = S (length (l1 ++ l2)).
  Proof. rewrite !app_length. cbn. lia. Qed.

  Ltac frame Hnd id :=
    let i := fresh "i" in let Hi := fresh "Hi" in
    intros i Hi; first [apply alter_frame|apply drop_frame];
    intros ->; specialize (Hnd id); rewrite ?cnt_mid, ?cnt_cons, ?decide_True in Hnd by done;
    cbn in Hnd; lia.

  Lemma hit_T1_ok s l1 id c l2 b1 t2 b2 z o :
    arel s (l1 ++ (id, c) :: l2) b1 t2 b2 z -> c_tbl (ar_c s) !! id = Some o ->
    arel (ar_set_t2 (ar_set_t1 (ar_set_c s (c_upd (ar_c s) id (fun o => o_set_p1 o 2)))
                       (q_del id (ar_t1 s)) (ar_s1 s - c))
            (id :: ar_t2 s) (ar_s2 s + c))
         (l1 ++ l2) b1 ((id, c) :: t2) b2 z.
  Proof.
    intros H Ho. pose proof H as [E1 E2 E3 E4 Hnd Hcov O1 O2 O3 O4 Oz S1 S2 G1 G2 Hocc Hn Hsz Hm Hp].
    destruct (own_lookup _ _ _ _ _ _ _ _ O1) as (Hc & o' & Ho' & Hos & Hp1 & Hp2). simplify_eq.
    unfold sum5 in *.
    rewrite wt_mid in *. rewrite len_mid in *.
    constructor; cbn; rewrite ?wt_cons; cbn [fst snd]; auto; try lia.
    - rewrite E1. apply qdel_mid. specialize (Hnd id). lia.
    - by rewrite E3.
    - intros i. specialize (Hnd i). rewrite cnt_mid in Hnd. unfold sum5. rewrite cnt_cons. cbn. lia.
    - intros i Hi. unfold sum5. rewrite cnt_cons. cbn. destruct (decide (id = i)) as [|Hne]; [lia|].
      rewrite alter_frame in Hi by done. specialize (Hcov i Hi).
      rewrite cnt_mid, decide_False in Hcov by done. lia.
    - apply own_drop in O1. eapply own_frame; [|exact O1]. frame Hnd id.
    - eapply own_frame; [|exact O2]. frame Hnd id.
    - eapply (own_cons _ _ _ _ _ _ (o_set_p1 o 2)); auto.
      + by rewrite lookup_alter, Ho.
      + eapply own_frame; [|exact O3]. frame Hnd id.
    - eapply own_frame; [|exact O4]. frame Hnd id.
    - eapply ownz_frame; [|exact Oz]. frame Hnd id.
  Qed.

  Lemma hit_T2_ok s t1 b1 l1 id c l2 b2 z :
    arel s t1 b1 (l1 ++ (id, c) :: l2) b2 z ->
    arel (ar_set_t2 s (q_to_head id (ar_t2 s)) (ar_s2 s)) t1 b1 ((id, c) :: l1 ++ l2) b2 z.
  Proof.
    intros [E1 E2 E3 E4 Hnd Hcov O1 O2 O3 O4 Oz S1 S2 G1 G2 Hocc Hn Hsz Hm Hp].
    unfold sum5 in *.
    assert (O3' : own (c_tbl (ar_c s)) md 2 0 ((id, c) :: l1 ++ l2)).
    { unfold own in *. by rewrite <- Permutation_middle in O3. }
    rewrite wt_mid in *. rewrite len_mid in *.
    constructor; cbn; rewrite ?wt_cons; cbn [fst snd]; auto; try lia.
    - unfold q_to_head. rewrite E3, qdel_mid; [done|]. specialize (Hnd id). lia.
    - intros i. specialize (Hnd i). rewrite cnt_mid in Hnd. unfold sum5. rewrite cnt_cons. cbn. lia.
    - intros i Hi. specialize (Hcov i Hi). rewrite cnt_mid in Hcov. unfold sum5.
      rewrite cnt_cons. cbn. lia.
  Qed.

  Lemma ghost_B1_ok s t1 l1 id c l2 t2 b2 z q :
    arel s t1 (l1 ++ (id, c) :: l2) t2 b2 z -> (0 <= q)%Q /\ (q <= dbl rnd cap)%Q ->
    arel (ar_set_c (ar_set_b1 (ar_set_p s q) (q_del id (ar_b1 s)) (ar_g1 s - c))
            (tbl_delete (ar_c s) id))
         t1 (l1 ++ l2) t2 b2 z.
  Proof.
    intros [E1 E2 E3 E4 Hnd Hcov O1 O2 O3 O4 Oz S1 S2 G1 G2 Hocc Hn Hsz Hm Hp] Hq.
    unfold sum5 in *. rewrite wt_mid in *.
    constructor; cbn; auto; try lia.
    - rewrite E2. apply qdel_mid. specialize (Hnd id). lia.
    - intros i. specialize (Hnd i). rewrite cnt_mid in Hnd. unfold sum5. lia.
    - intros i Hi. unfold sum5. destruct (decide (id = i)) as [<-|Hne].
      { rewrite lookup_delete in Hi. by destruct Hi. }
      rewrite drop_frame in Hi by done. specialize (Hcov i Hi).
      rewrite cnt_mid, decide_False in Hcov by done. lia.
    - eapply own_frame; [|exact O1]. frame Hnd id.
    - apply own_drop in O2. eapply own_frame; [|exact O2]. frame Hnd id.
    - eapply own_frame; [|exact O3]. frame Hnd id.
    - eapply own_frame; [|exact O4]. frame Hnd id.
    - eapply ownz_frame; [|exact Oz]. frame Hnd id.
  Qed.

  Lemma ghost_B2_ok s t1 b1 t2 l1 id c l2 z q :
    arel s t1 b1 t2 (l1 ++ (id, c) :: l2) z -> (0 <= q)%Q /\ (q <= dbl rnd cap)%Q ->
    arel (ar_set_c (ar_set_b2 (ar_set_p s q) (q_del id (ar_b2 s)) (ar_g2 s - c))
            (tbl_delete (ar_c s) id))
         t1 b1 t2 (l1 ++ l2) z.
  Proof.
    intros [E1 E2 E3 E4 Hnd Hcov O1 O2 O3 O4 Oz S1 S2 G1 G2 Hocc Hn Hsz Hm Hp] Hq.
    unfold sum5 in *. rewrite wt_mid in *.
    constructor; cbn; auto; try lia.
    - rewrite E4. apply qdel_mid. specialize (Hnd id). lia.
    - intros i. specialize (Hnd i). rewrite cnt_mid in Hnd. unfold sum5. lia.
    - intros i Hi. unfold sum5. destruct (decide (id = i)) as [<-|Hne].
      { rewrite lookup_delete in Hi. by destruct Hi. }
      rewrite drop_frame in Hi by done. specialize (Hcov i Hi).
      rewrite cnt_mid, decide_False in Hcov by done. lia.
    - eapply own_frame; [|exact O1]. frame Hnd id.
    - eapply own_frame; [|exact O2]. frame Hnd id.
    - eapply own_frame; [|exact O3]. frame Hnd id.
    - apply own_drop in O4. eapply own_frame; [|exact O4]. frame Hnd id.
    - eapply ownz_frame; [|exact Oz]. frame Hnd id.
  Qed.

  (** The same for an unlinked ghost: the lists do not change, a counter does. *)
  Lemma ghost_Z_ok s t1 b1 t2 b2 l1 id c l2 q d1 d2 f1 f2 :
    arel s t1 b1 t2 b2 (l1 ++ (id, c) :: l2) -> (0 <= q)%Q /\ (q <= dbl rnd cap)%Q ->
    0 <= d1 -> 0 <= d2 -> f1 = ar_b1 s -> f2 = ar_b2 s ->
    arel (ar_set_c (ar_set_b2 (ar_set_b1 (ar_set_p s q) f1 (ar_g1 s - d1)) f2 (ar_g2 s - d2))
            (tbl_delete (ar_c s) id))
         t1 b1 t2 b2 (l1 ++ l2).
  Proof.
    intros [E1 E2 E3 E4 Hnd Hcov O1 O2 O3 O4 Oz S1 S2 G1 G2 Hocc Hn Hsz Hm Hp] Hq Hd1 Hd2 -> ->.
    unfold sum5 in *.
    constructor; cbn; auto; try lia.
    - intros i. specialize (Hnd i). rewrite cnt_mid in Hnd. unfold sum5. lia.
    - intros i Hi. unfold sum5. destruct (decide (id = i)) as [<-|Hne].
      { rewrite lookup_delete in Hi. by destruct Hi. }
      rewrite drop_frame in Hi by done. specialize (Hcov i Hi).
      rewrite cnt_mid, decide_False in Hcov by done. lia.
    - eapply own_frame; [|exact O1]. frame Hnd id.
    - eapply own_frame; [|exact O2]. frame Hnd id.
    - eapply own_frame; [|exact O3]. frame Hnd id.
    - eapply own_frame; [|exact O4]. frame Hnd id.
    - apply ownz_drop in Oz. eapply ownz_frame; [|exact Oz]. frame Hnd id.
  Qed.

  (** Outcome of a find with update, by where the object is. *)
  Inductive found (id : Z) (s s' : arc) (t1 b1 t2 b2 z : list (Z * Z)) :
      bool -> list (Z * Z) -> list (Z * Z) -> list (Z * Z) -> list (Z * Z) -> list (Z * Z) -> Prop :=
  | f_t1 l1 c l2 : t1 = l1 ++ (id, c) :: l2 -> ar_p s' = ar_p s ->
      ar_g1 s' = ar_g1 s -> ar_g2 s' = ar_g2 s -> ar_f1 s' = false -> ar_f2 s' = false ->
      found id s s' t1 b1 t2 b2 z true (l1 ++ l2) b1 ((id, c) :: t2) b2 z
  | f_t2 l1 c l2 : t2 = l1 ++ (id, c) :: l2 -> ar_p s' = ar_p s ->
      ar_g1 s' = ar_g1 s -> ar_g2 s' = ar_g2 s -> ar_f1 s' = false -> ar_f2 s' = false ->
      found id s s' t1 b1 t2 b2 z true t1 b1 ((id, c) :: l1 ++ l2) b2 z
  | f_b1 l1 c l2 : b1 = l1 ++ (id, c) :: l2 ->
      ar_p s' = p_up rnd (ar_p s) (arc_delta rnd (ar_g2 s) (ar_g1 s)) cap ->
      ar_g1 s' = ar_g1 s - c -> ar_g2 s' = ar_g2 s ->
      ar_f1 s' = true -> ar_f2 s' = false -> ar_vt s' = c_nreq (ar_c s) ->
      found id s s' t1 b1 t2 b2 z false t1 (l1 ++ l2) t2 b2 z
  | f_b2 l1 c l2 : b2 = l1 ++ (id, c) :: l2 ->
      ar_p s' = p_down rnd (ar_p s) (arc_delta rnd (ar_g1 s) (ar_g2 s)) ->
      ar_g1 s' = ar_g1 s -> ar_g2 s' = ar_g2 s - c ->
      ar_f1 s' = false -> ar_f2 s' = true -> ar_vt s' = c_nreq (ar_c s) ->
      found id s s' t1 b1 t2 b2 z false t1 b1 t2 (l1 ++ l2) z
  | f_z l1 c l2 : z = l1 ++ (id, c) :: l2 ->
      found id s s' t1 b1 t2 b2 z false t1 b1 t2 b2 (l1 ++ l2)
  | f_none : sum5 id t1 b1 t2 b2 z = 0%nat -> s' = s ->
      found id s s' t1 b1 t2 b2 z false t1 b1 t2 b2 z.

  Lemma arc_find_ok s t1 b1 t2 b2 z r : arel s t1 b1 t2 b2 z ->
    exists s' b t1' b1' t2' b2' z', arc_find rnd s r true = Ok (s', b) /\
      arel s' t1' b1' t2' b2' z' /\ found (r_id r) s s' t1 b1 t2 b2 z b t1' b1' t2' b2' z' /\
      c_nreq (ar_c s') = c_nreq (ar_c s) /\ c_adm (ar_c s') = c_adm (ar_c s) /\
      (b = false -> c_tbl (ar_c s') !! r_id r = None).
  Proof.
    intros H. unfold arc_find, cache_find_base. set (id := r_id r).
    destruct (c_tbl (ar_c s) !! id) as [o|] eqn:Eo.
    2:{ rewrite Eo. exists s, false, t1, b1, t2, b2, z. split_and!; auto.
        constructor; [|done]. by eapply arel_absent. }
    cbn. rewrite lookup_alter, Eo. cbn.
    set (f := fun o => o_set_freq (o_set_next o (r_next r)) (o_freq o + 1)).
    assert (H0 : arel (ar_set_flags (ar_set_c s (c_upd (ar_c s) id f)) false false (ar_vt s)) t1 b1 t2 b2 z).
    { apply arel_flags, arel_upd; [done|exact H]. }
    destruct (arel_where _ _ _ _ _ _ _ _ H Eo) as (Hc & Hw). cbn in Hw, Hc.
    assert (Hch : charge (ar_c s) o = o_size o + md) by (eapply charge_ok; eauto).
    assert (Hch' : charge (c_upd (ar_c s) id f)
      (o_set_freq (o_set_next o (r_next r)) (o_freq o + 1)) = o_size o + md) by exact Hch.
    assert (Hp : (0 <= ar_p s)%Q /\ (ar_p s <= dbl rnd cap)%Q) by apply H.
    destruct Hw as [Hw|[Hw|[Hw|[Hw|Hw]]]].
    - destruct Hw as (l1 & l2 & -> & P1 & P2). rewrite P1, P2.
      rewrite ?(decide_True (P := 1 = 1)), ?(decide_True (P := 1 <> 0)), ?(decide_False (P := 2 = 1)), ?(decide_False (P := 0 <> 0)) by lia. cbn.
      rewrite !Hch'.
      eexists _, true, _, _, _, _, _. split; [reflexivity|]. split_and!; [|by econstructor|done|done|done].
      unshelve epose proof (hit_T1_ok _ _ _ _ _ _ _ _ _ (f o) H0 _) as Hx; [cbn; by rewrite lookup_alter, Eo|].
      exact Hx.
    - destruct Hw as (l1 & l2 & -> & P1 & P2). rewrite P1, P2.
      rewrite ?(decide_True (P := 1 = 1)), ?(decide_True (P := 1 <> 0)), ?(decide_False (P := 2 = 1)), ?(decide_False (P := 0 <> 0)) by lia. cbn.
      eexists _, false, _, _, _, _, _. split; [reflexivity|]. split_and!; [|eapply f_b1; try done|done|done|].
      + pose proof (ghost_B1_ok _ _ _ _ _ _ _ _ _ (p_up rnd (ar_p s) (arc_delta rnd (ar_g2 s) (ar_g1 s)) cap) H0) as Hx.
        specialize (Hx ltac:(apply p_up_ok; apply Hp)).
        apply (arel_flags _ _ _ _ _ _ true false (c_nreq (ar_c s))) in Hx.
        rewrite (a_size _ _ _ _ _ _ H), Hch'. exact Hx.
      + by rewrite (a_size _ _ _ _ _ _ H).
      + cbn. by rewrite Hch'.
      + intros _. cbn. apply lookup_delete.
    - destruct Hw as (l1 & l2 & -> & P1 & P2). rewrite P1, P2.
      rewrite ?(decide_True (P := 1 = 1)), ?(decide_True (P := 1 <> 0)), ?(decide_False (P := 2 = 1)), ?(decide_False (P := 0 <> 0)) by lia. cbn.
      eexists _, true, _, _, _, _, _. split; [reflexivity|]. split_and!; [|by econstructor|done|done|done].
      exact (hit_T2_ok _ _ _ _ _ _ _ _ _ H0).
    - destruct Hw as (l1 & l2 & -> & P1 & P2). rewrite P1, P2.
      rewrite ?(decide_True (P := 1 = 1)), ?(decide_True (P := 1 <> 0)), ?(decide_False (P := 2 = 1)), ?(decide_False (P := 0 <> 0)) by lia. cbn.
      eexists _, false, _, _, _, _, _. split; [reflexivity|]. split_and!; [|eapply f_b2; try done|done|done|].
      + pose proof (ghost_B2_ok _ _ _ _ _ _ _ _ _ (p_down rnd (ar_p s) (arc_delta rnd (ar_g1 s) (ar_g2 s))) H0) as Hx.
        specialize (Hx ltac:(apply p_down_ok; apply Hp)).
        apply (arel_flags _ _ _ _ _ _ false true (c_nreq (ar_c s))) in Hx.
        rewrite Hch'. exact Hx.
      + cbn. by rewrite Hch'.
      + intros _. cbn. apply lookup_delete.
    - destruct Hw as (l1 & l2 & -> & P2). rewrite P2, (decide_True (P := 1 <> 0)) by lia. cbn.
      assert (Hz : cnt id b1 = 0%nat /\ cnt id b2 = 0%nat).
      { pose proof (a_nd _ _ _ _ _ _ H id) as Hnd. unfold sum5 in Hnd.
        rewrite cnt_mid, decide_True in Hnd by done. lia. }
      destruct (decide (o_p1 o = 1)).
      + eexists _, false, _, _, _, _, _. split; [reflexivity|]. split_and!; [|by eapply f_z|done|done|].
        * pose proof (ghost_Z_ok _ _ _ _ _ _ _ _ _ (p_up rnd (ar_p s) (arc_delta rnd (ar_g2 s) (ar_g1 s)) cap)
            (charge (ar_c s) o) 0 (q_del id (ar_b1 s)) (ar_b2 s) H0) as Hx.
          specialize (Hx ltac:(apply p_up_ok; apply Hp) ltac:(lia) ltac:(lia)).
          specialize (Hx ltac:(rewrite (a_b1 _ _ _ _ _ _ H); cbn; rewrite (a_b1 _ _ _ _ _ _ H); apply qdel_none; apply Hz) eq_refl).
          apply (arel_flags _ _ _ _ _ _ true false (c_nreq (ar_c s))) in Hx.
          cbn in Hx. rewrite Z.sub_0_r in Hx. rewrite (a_size _ _ _ _ _ _ H). exact Hx.
        * intros _. cbn. apply lookup_delete.
      + eexists _, false, _, _, _, _, _. split; [reflexivity|]. split_and!; [|by eapply f_z|done|done|].
        * pose proof (ghost_Z_ok _ _ _ _ _ _ _ _ _ (p_down rnd (ar_p s) (arc_delta rnd (ar_g1 s) (ar_g2 s)))
            0 (charge (ar_c s) o) (ar_b1 s) (q_del id (ar_b2 s)) H0) as Hx.
          specialize (Hx ltac:(apply p_down_ok; apply Hp) ltac:(lia) ltac:(lia) eq_refl).
          specialize (Hx ltac:(rewrite (a_b2 _ _ _ _ _ _ H); cbn; rewrite (a_b2 _ _ _ _ _ _ H); apply qdel_none; apply Hz)).
          apply (arel_flags _ _ _ _ _ _ false true (c_nreq (ar_c s))) in Hx.
          cbn in Hx. rewrite Z.sub_0_r in Hx. exact Hx.
        * intros _. cbn. apply lookup_delete.
  Qed.

  Local Arguments cnt : simpl never.
  Lemma arc_insert_ok s t1 b1 t2 b2 z r : arel s t1 b1 t2 b2 z ->
    c_tbl (ar_c s) !! r_id r = None -> req_ok md r -> 0 < r_size r + md ->
    exists s', arc_insert s r = Ok s' /\
      ar_p s' = ar_p s /\ ar_g1 s' = ar_g1 s /\ ar_g2 s' = ar_g2 s /\
      c_nreq (ar_c s') = c_nreq (ar_c s) /\ c_adm (ar_c s') = c_adm (ar_c s) /\
      if in_ghost s
      then arel s' t1 b1 ((r_id r, r_size r + md) :: t2) b2 z /\ ar_f1 s' = false /\ ar_f2 s' = false
      else arel s' ((r_id r, r_size r + md) :: t1) b1 t2 b2 z /\
           ar_f1 s' = ar_f1 s /\ ar_f2 s' = ar_f2 s.
  Proof.
    intros H Hn Hr Hpos. destruct Hr as [Hr0 Hr1].
    pose proof (arel_absent _ _ _ _ _ _ _ H Hn) as Habs.
    destruct H as [E1 E2 E3 E4 Hnd Hcov O1 O2 O3 O4 Oz S1 S2 G1 G2 Hocc Hno Hsz Hm Hp].
    unfold arc_insert, cache_insert_base. rewrite Hn. cbn [rbind].
    assert (Hu : u32 (r_size r) = r_size r) by (unfold u32; apply Z.mod_small; lia).
    assert (Hfr : forall i f, i <> r_id r ->
      alter f (r_id r) (<[r_id r := obj_of_req r]> (c_tbl (ar_c s))) !! i = c_tbl (ar_c s) !! i).
    { intros i f Hi. by rewrite lookup_alter_ne, lookup_insert_ne by done. }
    assert (Hlk : forall f, alter f (r_id r) (<[r_id r := obj_of_req r]> (c_tbl (ar_c s))) !! r_id r
      = Some (f (obj_of_req r))).
    { intros f. by rewrite lookup_alter, lookup_insert. }
    assert (Hcv : forall i f, is_Some (alter f (r_id r) (<[r_id r := obj_of_req r]> (c_tbl (ar_c s))) !! i) ->
      r_id r = i \/ (1 <= sum5 i t1 b1 t2 b2 z)%nat).
    { intros i f Hi. destruct (decide (r_id r = i)); [by left|right]. rewrite Hfr in Hi by done.
      by apply Hcov. }
    unfold sum5 in *.
    destruct (in_ghost s) eqn:Eg; eexists; (split; [reflexivity|]); cbn;
      split_and!; auto; constructor; cbn; rewrite ?wt_cons; cbn [fst snd]; auto; try congruence; try lia;
      try (intros i; specialize (Hnd i); unfold sum5; rewrite cnt_cons; cbn;
           destruct (decide (r_id r = i)) as [<-|]; lia);
      try (intros i Hi; apply Hcv in Hi; unfold sum5; rewrite cnt_cons; cbn;
           destruct (decide (r_id r = i)); intuition lia);
      try (eapply own_cons; [lia|apply Hlk|cbn; lia|done|done|]);
      try (eapply own_frame; [|eassumption]; intros i Hi; apply Hfr; intros ->; lia);
      try (eapply ownz_frame; [|eassumption]; intros i Hi; apply Hfr; intros ->; lia).
  Qed.

  Lemma arc_tick_ok s t1 b1 t2 b2 z : arel s t1 b1 t2 b2 z ->
    arel (ar_set_c s (c_incr_nreq (ar_c s))) t1 b1 t2 b2 z.
  Proof. intros []. by constructor. Qed.

  Lemma arc_adm_ok s t1 b1 t2 b2 z a : arel s t1 b1 t2 b2 z ->
    arel (ar_set_c s (c_set_adm (ar_c s) a)) t1 b1 t2 b2 z.
  Proof. intros []. by constructor. Qed.

  (** Outcome of a remove. *)
  Inductive removed (id : Z) (t1 b1 t2 b2 z : list (Z * Z)) :
      bool -> list (Z * Z) -> list (Z * Z) -> list (Z * Z) -> list (Z * Z) -> list (Z * Z) -> Prop :=
  | rm_t1 l1 c l2 : t1 = l1 ++ (id, c) :: l2 -> removed id t1 b1 t2 b2 z true (l1 ++ l2) b1 t2 b2 z
  | rm_t2 l1 c l2 : t2 = l1 ++ (id, c) :: l2 -> removed id t1 b1 t2 b2 z true t1 b1 (l1 ++ l2) b2 z
  | rm_b1 l1 c l2 : b1 = l1 ++ (id, c) :: l2 ->
      removed id t1 b1 t2 b2 z true t1 (l1 ++ l2) t2 b2 ((id, c) :: z)
  | rm_b2 l1 c l2 : b2 = l1 ++ (id, c) :: l2 ->
      removed id t1 b1 t2 b2 z true t1 b1 t2 (l1 ++ l2) ((id, c) :: z)
  | rm_z : (1 <= cnt id z)%nat -> removed id t1 b1 t2 b2 z true t1 b1 t2 b2 z
  | rm_none : sum5 id t1 b1 t2 b2 z = 0%nat -> removed id t1 b1 t2 b2 z false t1 b1 t2 b2 z.

  Lemma arc_remove_ok s t1 b1 t2 b2 z id : arel s t1 b1 t2 b2 z ->
    exists s' b t1' b1' t2' b2' z', arc_remove s id = Ok (s', b) /\
      arel s' t1' b1' t2' b2' z' /\ removed id t1 b1 t2 b2 z b t1' b1' t2' b2' z'.
  Proof.
    intros H. unfold arc_remove. destruct (c_tbl (ar_c s) !! id) as [o|] eqn:Eo.
    2:{ exists s, false, t1, b1, t2, b2, z. split_and!; auto. constructor. by eapply arel_absent. }
    destruct (arel_where _ _ _ _ _ _ _ _ H Eo) as (Hc & Hw). cbn in Hw, Hc.
    assert (Hch : charge (ar_c s) o = o_size o + md) by (eapply charge_ok; eauto).
    pose proof H as [E1 E2 E3 E4 Hnd Hcov O1 O2 O3 O4 Oz S1 S2 G1 G2 Hocc Hno Hsz Hm Hp].
    unfold sum5 in *. rewrite Hch.
    assert (Hu : u32 (o_size o + md) = o_size o + md) by (unfold u32; apply Z.mod_small; lia).
    destruct Hw as [Hw|[Hw|[Hw|[Hw|Hw]]]].
    - destruct Hw as (l1 & l2 & -> & P1 & P2). rewrite P1, P2.
      rewrite decide_False, decide_True by lia. unfold cache_remove_obj_base. cbn. rewrite Eo, Hm, Hu. cbn.
      rewrite wt_mid in *. rewrite len_mid in *.
      eexists _, true, _, _, _, _, _. split; [reflexivity|]. split; [|by eapply rm_t1].
      constructor; cbn; auto; try lia.
      + rewrite E1. apply qdel_mid. specialize (Hnd id). lia.
      + intros i. specialize (Hnd i). rewrite cnt_mid in Hnd. unfold sum5. lia.
      + intros i Hi. unfold sum5. destruct (decide (id = i)) as [<-|Hne].
        { rewrite lookup_delete in Hi. by destruct Hi. }
        rewrite drop_frame in Hi by done. specialize (Hcov i Hi).
        rewrite cnt_mid, decide_False in Hcov by done. lia.
      + apply own_drop in O1. eapply own_frame; [|exact O1]. frame Hnd id.
      + eapply own_frame; [|exact O2]. frame Hnd id.
      + eapply own_frame; [|exact O3]. frame Hnd id.
      + eapply own_frame; [|exact O4]. frame Hnd id.
      + eapply ownz_frame; [|exact Oz]. frame Hnd id.
    - destruct Hw as (l1 & l2 & -> & P1 & P2). rewrite P1, P2.
      rewrite decide_True, decide_True by lia.
      rewrite wt_mid in *.
      eexists _, true, _, _, _, _, _. split; [reflexivity|]. split; [|by eapply rm_b1].
      constructor; cbn; auto; try lia.
      + rewrite E2. apply qdel_mid. specialize (Hnd id). lia.
      + intros i. specialize (Hnd i). rewrite cnt_mid in Hnd. unfold sum5. rewrite cnt_cons. cbn. lia.
      + intros i Hi. specialize (Hcov i Hi). rewrite cnt_mid in Hcov. unfold sum5. rewrite cnt_cons. cbn. lia.
      + by apply own_drop in O2.
      + apply Forall_cons. split; [|exact Oz]. split; [done|]. exists o. done.
    - destruct Hw as (l1 & l2 & -> & P1 & P2). rewrite P1, P2.
      rewrite decide_False, decide_False by lia. unfold cache_remove_obj_base. cbn. rewrite Eo, Hm, Hu. cbn.
      rewrite wt_mid in *. rewrite len_mid in *.
      eexists _, true, _, _, _, _, _. split; [reflexivity|]. split; [|by eapply rm_t2].
      constructor; cbn; auto; try lia.
      + rewrite E3. apply qdel_mid. specialize (Hnd id). lia.
      + intros i. specialize (Hnd i). rewrite cnt_mid in Hnd. unfold sum5. lia.
      + intros i Hi. unfold sum5. destruct (decide (id = i)) as [<-|Hne].
        { rewrite lookup_delete in Hi. by destruct Hi. }
        rewrite drop_frame in Hi by done. specialize (Hcov i Hi).
        rewrite cnt_mid, decide_False in Hcov by done. lia.
      + eapply own_frame; [|exact O1]. frame Hnd id.
      + eapply own_frame; [|exact O2]. frame Hnd id.
      + apply own_drop in O3. eapply own_frame; [|exact O3]. frame Hnd id.
      + eapply own_frame; [|exact O4]. frame Hnd id.
      + eapply ownz_frame; [|exact Oz]. frame Hnd id.
    - destruct Hw as (l1 & l2 & -> & P1 & P2). rewrite P1, P2.
      rewrite decide_True, decide_False by lia.
      rewrite wt_mid in *.
      eexists _, true, _, _, _, _, _. split; [reflexivity|]. split; [|by eapply rm_b2].
      constructor; cbn; auto; try lia.
      + rewrite E4. apply qdel_mid. specialize (Hnd id). lia.
      + intros i. specialize (Hnd i). rewrite cnt_mid in Hnd. unfold sum5. rewrite cnt_cons. cbn. lia.
      + intros i Hi. specialize (Hcov i Hi). rewrite cnt_mid in Hcov. unfold sum5. rewrite cnt_cons. cbn. lia.
      + by apply own_drop in O4.
      + apply Forall_cons. split; [|exact Oz]. split; [done|]. exists o. done.
    - destruct Hw as (l1 & l2 & -> & P2). rewrite P2, decide_True by lia.
      assert (Hz : cnt id b1 = 0%nat /\ cnt id b2 = 0%nat /\ (1 <= cnt id (l1 ++ (id, (o_size o + md)%Z) :: l2))%nat).
      { specialize (Hnd id). rewrite cnt_mid, decide_True in * by done. lia. }
      destruct Hz as (Hz1 & Hz2 & Hz3).
      destruct (decide (o_p1 o = 1));
      (eexists _, true, _, _, _, _, _; split; [reflexivity|]; split; [|by eapply rm_z]);
      constructor; cbn; auto; try lia.
      + rewrite E2. by apply qdel_none.
      + rewrite E4. by apply qdel_none.
  Qed.

  Lemma found_live id s s' t1 b1 t2 b2 z b t1' b1' t2' b2' z' :
    (forall i, (sum5 i t1 b1 t2 b2 z <= 1)%nat) ->
    found id s s' t1 b1 t2 b2 z b t1' b1' t2' b2' z' ->
    (b = true <-> (1 <= cnt id t1 + cnt id t2)%nat) /\
    wt t1' + wt t2' = wt t1 + wt t2 /\ (length t1' + length t2' = length t1 + length t2)%nat.
  Proof.
    intros Hnd Hf. specialize (Hnd id). unfold sum5 in Hnd.
    destruct Hf; subst; rewrite ?wt_mid, ?wt_cons, ?len_mid, ?cnt_mid, ?decide_True in * by done;
      cbn [fst snd length]; (split; [split; intros; try discriminate; try lia; done|split; lia]) ||
      (unfold sum5 in *; split; [split; intros; [discriminate|lia]|split; lia]).
  Qed.

  Lemma p_up_spec q a b : b <> 0 -> p_up rnd q (arc_delta rnd a b) cap = up rnd cap q a b.
  Proof.
    intros Hb. unfold arc_delta, up, bump, qmax, qmin, p_up. rewrite decide_False by done.
    by destruct (Qle_bool (rnd (dbl rnd a / dbl rnd b)) 1) eqn:E; unfold flt, dbl in *; rewrite E.
  Qed.
  Lemma p_down_spec q a b : b <> 0 -> p_down rnd q (arc_delta rnd a b) = down rnd q a b.
  Proof.
    intros Hb. unfold arc_delta, down, bump, qmax, p_down. rewrite decide_False by done.
    by destruct (Qle_bool (rnd (dbl rnd a / dbl rnd b)) 1) eqn:E; unfold flt, dbl in *; rewrite E.
  Qed.

  (** The state between requests of a trace with no removal: every list is
      exact and no ghost hit is pending. *)
  Definition clean (s : arc) (a : ARC) : Prop :=
    arel s (T1 a) (B1 a) (T2 a) (B2 a) [] /\ ar_g1 s = wt (B1 a) /\ ar_g2 s = wt (B2 a) /\
    ar_f1 s = false /\ ar_f2 s = false /\ ar_p s = p a /\ c_adm (ar_c s) = AdmNone.

  Lemma arc_get_ok s t1 b1 t2 b2 z r fuel : arel s t1 b1 t2 b2 z ->
    req_ok md r -> 0 < r_size r + md -> (length t1 + length t2 <= fuel)%nat -> wt t1 + wt t2 <= cap ->
    exists s' b t1' b1' t2' b2' z', cache_get_base O fuel s r = Ok (s', b) /\
      arel s' t1' b1' t2' b2' z' /\ wt t1' + wt t2' <= cap /\
      (length t1' + length t2' <= S (length t1 + length t2))%nat /\
      (b = true <-> (1 <= cnt (r_id r) t1 + cnt (r_id r) t2)%nat) /\
      (r_size r + md <= cap -> clean s (mkARC t1 b1 t2 b2 (ar_p s)) -> z = [] ->
       clean s' (mkARC t1' b1' t2' b2' (ar_p s')) /\
       REQUEST rnd cap (r_id r) (r_size r + md) (mkARC t1 b1 t2 b2 (ar_p s)) b
         (mkARC t1' b1' t2' b2' (ar_p s'))).
  Proof.
    intros H Hr Hpos Hfuel Hle. unfold cache_get_base. cbn [op_tick arc_ops op_find op_can_insert op_insert].
    apply arc_tick_ok in H as H0. set (s0 := ar_set_c s (c_incr_nreq (ar_c s))) in *.
    destruct (arc_find_ok s0 _ _ _ _ _ r H0) as
      (s1 & b & t1' & b1' & t2' & b2' & z' & -> & H1 & Hf & Hnr & Hadm & Habs). cbn [rbind].
    destruct (found_live _ _ _ _ _ _ _ _ _ _ _ _ _ _ (a_nd _ _ _ _ _ _ H0) Hf) as (Hb & Hw & Hl).
    destruct b.
    { exists s1, true, t1', b1', t2', b2', z'. split_and!; auto; try lia; try apply Hb.
      intros Hfit (_ & X1 & X2 & X3 & X4 & _ & X5) ->. cbn in X1, X2, X3, X4, X5.
      inversion Hf; subst; cbn in *; unfold clean; cbn; split; try (split_and!; auto; congruence);
        match goal with E : ar_p s1 = _ |- _ => rewrite E end.
      - by apply hit_T1.
      - by apply hit_T2. }
    unfold arc_can_insert, cache_can_insert_default.
    destruct (admit (c_adm (ar_c s1)) r) as [adm ok] eqn:Ea.
    set (s2 := ar_set_c s1 (c_set_adm (ar_c s1) adm)).
    assert (H2 : arel s2 t1' b1' t2' b2' z') by by apply arc_adm_ok.
    rewrite (a_size _ _ _ _ _ _ H1), (a_mds _ _ _ _ _ _ H1).
    destruct ok; cbn [rbind].
    2:{ exists s2, false, t1', b1', t2', b2', z'. split_and!; auto; try lia; try apply Hb.
        intros Hfit (_ & _ & _ & _ & _ & _ & X5) ->. exfalso.
        rewrite Hadm in Ea. cbn in X5, Ea. rewrite X5 in Ea. discriminate. }
    destruct (decide _) as [Hbig|Hfit]; cbn [rbind].
    { exists s2, false, t1', b1', t2', b2', z'. split_and!; auto; try lia; try apply Hb. }
    fold s2.
    destruct (arc_loop_ok r fuel s2 _ _ _ _ _ H2) as
      (s3 & t3 & b3 & t4 & b4 & -> & H3 & Hk & Hd1 & Hd2 & Hsub & Hlen & Hroom & Hspec); [lia|lia|].
    cbn [rbind].
    assert (Hn3 : c_tbl (ar_c s3) !! r_id r = None).
    { destruct (c_tbl (ar_c s3) !! r_id r) eqn:E3; [|done]. exfalso.
      assert (X : is_Some (c_tbl (ar_c s3) !! r_id r)) by eauto.
      apply (a_cov _ _ _ _ _ _ H3) in X. specialize (Hsub (r_id r)).
      pose proof (arel_absent _ _ _ _ _ _ _ H1 (Habs eq_refl)). lia. }
    destruct (arc_insert_ok s3 _ _ _ _ _ r H3 Hn3 Hr Hpos) as (s4 & -> & Hp4 & Hg1 & Hg2 & Hnr4 & Hadm4 & Hres).
    cbn [rbind].
    destruct Hk as (Kp & Kf1 & Kf2 & Kv & Kn & Ka).
    assert (Hig : in_ghost s3 = in_ghost s2) by (unfold in_ghost; by rewrite Kf1, Kf2, Kv, Kn).
    rewrite Hig in Hres.
    exists s4, false.
    destruct (in_ghost s2) eqn:Eg; [destruct Hres as (H4 & F1 & F2)|destruct Hres as (H4 & F1 & F2)];
      (eexists _, _, _, _, _; split; [reflexivity|]; split; [exact H4|]);
      rewrite ?wt_cons; cbn [fst snd length]; (split; [lia|]; split; [lia|]; split; [exact Hb|]);
      intros Hf' (_ & X1 & X2 & X3 & X4 & _ & X5) ->; cbn in X1, X2, X3, X4, X5.
    - (* ghost hit *)
      inversion Hf; subst; cbn in *.
      + (* B1 *)
        pose proof (own_wt _ _ _ _ _ (a_o2 _ _ _ _ _ _ H1)).
        pose proof (own_lookup _ _ _ _ _ _ _ _ (a_o2 _ _ _ _ _ _ H)) as [? _].
        rewrite wt_mid in *. specialize (Hspec ltac:(lia) ltac:(lia)).
        split.
        * unfold clean; cbn; split_and!; auto; try lia; try congruence.
          rewrite Hadm4, Ka. cbn. rewrite Hadm in Ea. cbn in Ea. rewrite X5 in Ea. cbn in Ea. congruence.
        * eapply (hit_B1 _ _ _ _ _ _ _ _ (mkARC t3 b3 t4 b4 (ar_p s4))); [done|]. cbn.
          replace (ar_f2 s1) with false in Hspec. rewrite Hp4.
          match goal with E : ar_p s1 = _ |- _ => rewrite E in Hspec end.
          rewrite p_up_spec in Hspec by lia.
          rewrite X1, X2 in Hspec. rewrite wt_mid. exact Hspec.
      + (* B2 *)
        pose proof (own_wt _ _ _ _ _ (a_o4 _ _ _ _ _ _ H1)).
        pose proof (own_lookup _ _ _ _ _ _ _ _ (a_o4 _ _ _ _ _ _ H)) as [? _].
        rewrite wt_mid in *. specialize (Hspec ltac:(lia) ltac:(lia)).
        split.
        * unfold clean; cbn; split_and!; auto; try lia; try congruence.
          rewrite Hadm4, Ka. cbn. rewrite Hadm in Ea. cbn in Ea. rewrite X5 in Ea. cbn in Ea. congruence.
        * eapply (hit_B2 _ _ _ _ _ _ _ _ (mkARC t3 b3 t4 b4 (ar_p s4))); [done|]. cbn.
          replace (ar_f2 s1) with true in Hspec. rewrite Hp4.
          match goal with E : ar_p s1 = _ |- _ => rewrite E in Hspec end.
          rewrite p_down_spec in Hspec by lia.
          rewrite X1, X2 in Hspec. rewrite wt_mid. exact Hspec.
      + by destruct l1.
      + unfold in_ghost in Eg. cbn in Eg. rewrite X3, X4, andb_false_r in Eg. discriminate.
    - inversion Hf; subst; cbn in *.
      + unfold in_ghost in Eg. cbn in Eg.
        rewrite bool_decide_true in Eg by congruence.
        replace (ar_f1 s1) with true in Eg. discriminate.
      + unfold in_ghost in Eg. cbn in Eg.
        rewrite bool_decide_true in Eg by congruence.
        replace (ar_f2 s1) with true in Eg. by rewrite orb_true_r in Eg.
      + by destruct l1.
      + specialize (Hspec X1 X2 X4).
        split.
        * unfold clean; cbn; split_and!; auto; try lia; try congruence.
          rewrite Hadm4, Ka. cbn. rewrite X5 in Ea. cbn in Ea. congruence.
        * eapply (miss _ _ _ _ _ (mkARC t3 b3 t4 b4 (ar_p s4))); [|rewrite Hp4; exact Hspec].
          unfold sum5 in *. cbn. rewrite !fmap_app, !not_elem_of_app, <- !cnt_zero. lia.
  Qed.

  Notation arc_call := (ARC_call cap md).

  Lemma removed_live id t1 b1 t2 b2 z b t1' b1' t2' b2' z' :
    Forall (fun x => 0 < x.2) t1 -> Forall (fun x => 0 < x.2) t2 ->
    removed id t1 b1 t2 b2 z b t1' b1' t2' b2' z' ->
    wt t1' + wt t2' <= wt t1 + wt t2 /\ (length t1' + length t2' <= length t1 + length t2)%nat.
  Proof.
    intros F1 F2 H. destruct H; subst; rewrite ?wt_mid, ?len_mid in *; try lia.
    - apply Forall_app in F1 as [_ F1]. apply Forall_cons in F1 as [F1 _]. cbn in F1. lia.
    - apply Forall_app in F2 as [_ F2]. apply Forall_cons in F2 as [F2 _]. cbn in F2. lia.
  Qed.

  Lemma own_pos tbl k g l : own tbl md k g l -> Forall (fun x => 0 < x.2) l.
  Proof. intros H. eapply Forall_impl; [exact H|]. intros x [[? _] _]. done. Qed.

  Lemma own_total tbl k g l : own tbl md k g l -> (0 < length l)%nat -> 0 < wt l.
  Proof. intros H Hl. destruct (own_wt _ _ _ _ _ H) as [Hw Hz]. destruct l; [cbn in Hl; lia|].
    match goal with |- 0 < wt ?x => destruct (decide (wt x = 0)) as [E|] end; [apply Hz in E; discriminate|lia]. Qed.

  Lemma arc_step_ok s t1 b1 t2 b2 z c fuel : arel s t1 b1 t2 b2 z -> arc_call c ->
    (length t1 + length t2 <= fuel)%nat -> wt t1 + wt t2 <= cap ->
    exists s' o t1' b1' t2' b2' z', step O fuel s c = Ok (s', o) /\
      arel s' t1' b1' t2' b2' z' /\ wt t1' + wt t2' <= cap /\
      (length t1' + length t2' <= S (length t1 + length t2))%nat.
  Proof.
    intros H Hc Hf Hle. destruct c as [r|r u|r|id|r|r]; cbn [ARC_call] in Hc; cbn [step].
    - destruct Hc as [Hr Hpos].
      destruct (arc_get_ok _ _ _ _ _ _ r fuel H Hr Hpos Hf Hle)
        as (s' & b & t1' & b1' & t2' & b2' & z' & -> & H' & Hw & Hl & _). cbn [rbind].
      by exists s', (OBool b), t1', b1', t2', b2', z'.
    - subst u. cbn [op_find arc_ops].
      destruct (arc_find_ok _ _ _ _ _ _ r H) as (s' & b & t1' & b1' & t2' & b2' & z' & -> & H' & Hfd & _).
      cbn [rbind].
      destruct (found_live _ _ _ _ _ _ _ _ _ _ _ _ _ _ (a_nd _ _ _ _ _ _ H) Hfd) as (_ & Hw & Hl).
      exists s', (OBool b), t1', b1', t2', b2', z'. split_and!; auto; lia.
    - done.
    - cbn [op_remove arc_ops].
      destruct (arc_remove_ok _ _ _ _ _ _ id H) as (s' & b & t1' & b1' & t2' & b2' & z' & -> & H' & Hrm).
      cbn [rbind]. exists s', (OBool b), t1', b1', t2', b2', z'.
      destruct (removed_live _ _ _ _ _ _ _ _ _ _ _ _
        (own_pos _ _ _ _ (a_o1 _ _ _ _ _ _ H)) (own_pos _ _ _ _ (a_o3 _ _ _ _ _ _ H)) Hrm).
      split_and!; auto; lia.
    - cbn [op_nobj op_evict arc_ops]. rewrite (a_nobj _ _ _ _ _ _ H).
      destruct (decide _) as [Hz|Hnz].
      { exists s, OUnit, t1, b1, t2, b2, z. split_and!; auto. }
      destruct (arc_evict_ok s t1 b1 t2 b2 z r H) as (s' & t1' & b1' & t2' & b2' & v & -> & He & _); [|done|].
      { pose proof (own_wt _ _ _ _ _ (a_o1 _ _ _ _ _ _ H)). pose proof (own_wt _ _ _ _ _ (a_o3 _ _ _ _ _ _ H)).
        pose proof (own_total _ _ _ _ (a_o1 _ _ _ _ _ _ H)). pose proof (own_total _ _ _ _ (a_o3 _ _ _ _ _ _ H)).
        lia. }
      cbn [rbind]. destruct He as [H1 Hk Hd1 Hd2 Hsub Hlive Hlen Hwt].
      exists s', OUnit, t1', b1', t2', b2', z. split_and!; auto; lia.
    - cbn [op_nobj op_to_evict arc_ops]. rewrite (a_nobj _ _ _ _ _ _ H).
      destruct (decide _) as [Hz|Hnz].
      { exists s, (OVictim None), t1, b1, t2, b2, z. split_and!; auto. }
      destruct (arc_evict_ok s t1 b1 t2 b2 z r H) as (s' & t1' & b1' & t2' & b2' & v & _ & _ & -> & _); [|done|].
      { pose proof (own_wt _ _ _ _ _ (a_o1 _ _ _ _ _ _ H)). pose proof (own_wt _ _ _ _ _ (a_o3 _ _ _ _ _ _ H)).
        pose proof (own_total _ _ _ _ (a_o1 _ _ _ _ _ _ H)). pose proof (own_total _ _ _ _ (a_o3 _ _ _ _ _ _ H)).
        lia. }
      cbn [rbind]. exists s, (OVictim (Some v)), t1, b1, t2, b2, z. split_and!; auto.
  Qed.

  Lemma arc_run_ok cs : forall s t1 b1 t2 b2 z fuel, arel s t1 b1 t2 b2 z -> Forall arc_call cs ->
    (length cs + (length t1 + length t2) <= fuel)%nat -> wt t1 + wt t2 <= cap ->
    exists s' os t1' b1' t2' b2' z', run O fuel s cs = Ok (s', os) /\
      arel s' t1' b1' t2' b2' z' /\ wt t1' + wt t2' <= cap /\
      (length t1' + length t2' <= length cs + (length t1 + length t2))%nat.
  Proof.
    induction cs as [|c cs IH]; intros s t1 b1 t2 b2 z fuel H Hcs Hf Hle.
    - exists s, [], t1, b1, t2, b2, z. by split_and!.
    - apply Forall_cons in Hcs as [Hc Hcs]. cbn [run length] in *.
      destruct (arc_step_ok _ _ _ _ _ _ c fuel H Hc) as (s1 & o & t1' & b1' & t2' & b2' & z' & -> & H1 & Hw & Hl);
        [lia|done|]. cbn [rbind].
      destruct (IH s1 _ _ _ _ _ fuel H1 Hcs) as (s2 & os & t3 & b3 & t4 & b4 & z4 & -> & H2 & Hw2 & Hl2); [lia|done|].
      cbn [rbind]. exists s2, (o :: os), t3, b3, t4, b4, z4. split_and!; auto. lia.
  Qed.

  Lemma arc_gets_ok rs : forall s a fuel, clean s a ->
    Forall (fun r => req_ok md r /\ 0 < r_size r + md <= cap) rs ->
    (length rs + (length (T1 a) + length (T2 a)) <= fuel)%nat -> wt (T1 a) + wt (T2 a) <= cap ->
    exists s' bs a', run O fuel s (map CGet rs) = Ok (s', map OBool bs) /\
      clean s' a' /\ REQUESTS rnd cap md a rs bs a' /\ wt (T1 a') + wt (T2 a') <= cap /\
      (forall hits' a'', REQUESTS rnd cap md a rs hits' a'' -> hits' = bs /\ a'' = a').
  Proof.
    induction rs as [|r rs IH]; intros s a fuel Hcl Hrs Hf Hle.
    - exists s, [], a. split_and!; auto; [constructor|]. inversion 1; auto.
    - apply Forall_cons in Hrs as [(Hr & Hpos & Hfit) Hrs]. cbn [map run length] in *. cbn [step].
      destruct a as [t1 b1 t2 b2 q]. cbn [T1 T2 B1 B2] in *.
      assert (Hq : ar_p s = q) by apply Hcl. subst q.
      destruct (arc_get_ok _ _ _ _ _ _ r fuel (proj1 Hcl) Hr Hpos) as
        (s1 & b & t1' & b1' & t2' & b2' & z' & -> & H1 & Hw & Hl & _ & Hsp); [cbn; lia|done|].
      cbn [rbind T1 T2 B1 B2] in *. destruct (Hsp Hfit Hcl eq_refl) as [Hcl' Hreq].
      destruct (IH s1 _ fuel Hcl' Hrs) as (s2 & bs & a2 & -> & Hcl2 & Hreqs & Hw2 & Hu); [cbn; lia|done|].
      cbn [rbind]. exists s2, (b :: bs), a2. split_and!; auto; [econstructor; eauto|].
      intros hits' a'' Hd. inversion Hd as [|? ? b0 a0 ? bs0 ? Hq0 Hrest]; subst.
      destruct (REQUEST_det _ _ _ _ _ _ _ _ _ ltac:(exact (a_nd _ _ _ _ _ _ (proj1 Hcl))) Hq0 Hreq) as [-> ->].
      destruct (Hu _ _ Hrest) as [-> ->]. done.
  Qed.

  Lemma arel_init cons adm : (if cons : bool then 40 else 0) = md ->
    arel (arc_init cons cap adm) [] [] [] [] [] /\
    (adm = AdmNone -> clean (arc_init cons cap adm) ARC_start).
  Proof.
    intros Hm. assert (arel (arc_init cons cap adm) [] [] [] [] []).
    { constructor; cbn; rewrite ?wt_nil; auto; try lia; try (unfold own, ownz; constructor).
      - intros i Hi. rewrite lookup_empty in Hi. by destruct Hi.
      - apply Qle_refl.
      - apply dbl_nonneg. }
    split; [done|]. intros ->. unfold clean; cbn. by rewrite ?wt_nil.
  Qed.
End ARCFacts.
