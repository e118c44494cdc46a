(** What every operation of the ARCv0 model does to its four LRU queues. *)
From stdpp Require Import gmap list numbers fin_maps.
From Coq Require Import QArith Lqa.
From Verif Require Import Base Driver ModelQueue QueueFacts QList CompFacts ModelTwoQ ModelSLRU ModelARC
  SpecARC ARCFacts ModelARCv0 SpecARCv0.
Open Scope Z_scope.

(** (id, bytes charged) *)
Definition chg (md : Z) (l : qlist) : list (Z * Z) := (fun x => (x.1, o_size x.2 + md)) <$> l.

Lemma chg_app md l1 l2 : chg md (l1 ++ l2) = chg md l1 ++ chg md l2.
Proof. apply fmap_app. Qed.
Lemma chg_ids md l : (chg md l).*1 = ids l.
Proof. unfold chg, ids. rewrite <- list_fmap_compose. by apply list_fmap_ext. Qed.
Lemma chg_wt md l : wt (chg md l) = bytes md l.
Proof.
  induction l as [|x l IH]; [done|]. change (chg md (x :: l)) with ((x.1, o_size x.2 + md) :: chg md l).
  rewrite wt_cons, bytes_cons, IH. done.
Qed.
Lemma chg_nil md l : chg md l = [] <-> l = [].
Proof. destruct l; done. Qed.

Lemma within_app m l1 l2 : Forall (fun x => 0 <= x.2) l1 -> wt l1 <= m -> within m (l1 ++ l2) = l1 ++ within (m - wt l1) l2.
Proof.
  intros H. revert m. induction H as [|x l Hx H IH]; intros m Hm.
  - rewrite wt_nil. cbn. by rewrite Z.sub_0_r.
  - rewrite wt_cons in Hm. cbn [within app].
    assert (0 <= wt l). { clear -H. induction H; [done|]. rewrite wt_cons. lia. }
    rewrite decide_True by lia. rewrite IH by lia. rewrite wt_cons. do 2 f_equal. f_equal. lia.
Qed.
Lemma within_all m l : Forall (fun x => 0 <= x.2) l -> wt l <= m -> within m l = l.
Proof. intros H Hm. pose proof (within_app m l [] H Hm) as E. by rewrite !app_nil_r in E. Qed.
Lemma within_prefix m l : exists l2, l = within m l ++ l2.
Proof.
  revert m. induction l as [|x l IH]; intros m; [by exists []|]. cbn [within]. destruct (decide _).
  - destruct (IH (m - x.2)) as (l2 & E). exists l2. cbn. by rewrite <- E.
  - by exists (x :: l).
Qed.

Lemma chg_pos md l : 0 <= md -> Forall (fun x => osz_ok md x.2) l -> Forall (fun x => 0 <= x.2) (chg md l).
Proof. intros Hm H. apply Forall_fmap. eapply Forall_impl; [exact H|]. intros x [? ?]. cbn. lia. Qed.

Lemma fits_within sz md need l1 l : 0 <= md -> Forall (fun x => osz_ok md x.2) l -> fits sz md need l1 l ->
  chg md l1 = within (sz - need) (chg md l).
Proof.
  intros Hm Ho (l2 & -> & Hb & Hx). apply Forall_app in Ho as [Ho1 Ho2].
  rewrite chg_app, within_app; [|by apply chg_pos|rewrite chg_wt; lia].
  destruct l2 as [|x l2]; [by rewrite app_nil_r|].
  change (chg md (x :: l2)) with ((x.1, o_size x.2 + md) :: chg md l2). cbn [within].
  rewrite bytes_app, bytes_cons in Hx. change (bytes md []) with 0 in Hx.
  rewrite decide_False; [by rewrite app_nil_r|]. rewrite chg_wt. cbn [snd]. lia.
Qed.

Lemma snoc_or {A} (l : list A) : l = [] \/ exists l' x, l = l' ++ [x].
Proof. destruct l as [|x l _] using rev_ind; [by left|right; eauto]. Qed.

Section ARCv0.
  Context (rnd : Q -> Q) (cap md omd : Z) (size_of : Z -> Z).
  Context (Hmono : forall x y, (x <= y)%Q -> (rnd x <= rnd y)%Q) (Hzero : (rnd 0 == 0)%Q)
          (Hidem : forall x, (rnd (rnd x) == rnd x)%Q).
  Context (Hcap : 0 <= cap) (Hmd : 0 <= md) (Homd : md <= omd).

  Definition G0 (id sz : Z) : Prop := sz = size_of id /\ 0 < sz + md.

  Record zok (s : arc0) (t1 b1 t2 b2 : qlist) : Prop := mkZ {
    zk_t1 : qok cap md (z_t1 s) t1;
    zk_b1 : qok cap md (z_b1 s) b1;
    zk_t2 : qok cap md (z_t2 s) t2;
    zk_b2 : qok cap md (z_b2 s) b2;
    zk_sz : c_size (z_c s) = cap;
    zk_md : c_md (z_c s) = omd;
    zk_12 : disj t1 b1;
    zk_13 : disj t1 t2;
    zk_14 : disj t1 b2;
    zk_23 : disj b1 t2;
    zk_24 : disj b1 b2;
    zk_34 : disj t2 b2;
    zk_occ : bytes md t1 + bytes md t2 <= cap;
    zk_c1 : bytes md b1 <= cap;
    zk_c2 : bytes md b2 <= cap;
    zk_g1 : allG G0 t1;
    zk_g2 : allG G0 b1;
    zk_g3 : allG G0 t2;
    zk_g4 : allG G0 b2;
    zk_p : (0 <= z_p s)%Q /\ (z_p s <= dbl rnd cap)%Q
  }.

  Definition absA (t1 b1 t2 b2 : qlist) (q : Q) : ARC := mkARC (chg md t1) (chg md b1) (chg md t2) (chg md b2) q.

  (** what an eviction leaves alone *)
  Definition zkeep (s s' : arc0) : Prop :=
    z_c s' = z_c s /\ z_p s' = z_p s /\ z_f1 s' = z_f1 s /\ z_f2 s' = z_f2 s /\ z_vt s' = z_vt s.
  Lemma zkeep_trans s1 s2 s3 : zkeep s1 s2 -> zkeep s2 s3 -> zkeep s1 s3.
  Proof. unfold zkeep. intuition congruence. Qed.

  Definition anywhere (t1 b1 t2 b2 : qlist) (id : Z) : Prop :=
    id ∈ ids t1 \/ id ∈ ids b1 \/ id ∈ ids t2 \/ id ∈ ids b2.

  Lemma allG_pos l : allG G0 l -> 0 <= bytes md l /\ (bytes md l = 0 <-> l = []).
  Proof.
    induction 1 as [|x l [_ Hx] _ IH]; [done|]. rewrite bytes_cons. split; [lia|]. split; [lia|done].
  Qed.
  Lemma allG_pos' l : allG G0 l -> 0 <= bytes md l.
  Proof. intros H. by apply allG_pos in H as [? _]. Qed.

  Lemma bytes_snoc l x : bytes md (l ++ [x]) = bytes md l + o_size x.2 + md.
  Proof. rewrite bytes_app, bytes_cons. change (bytes md []) with 0. lia. Qed.
  Lemma ids_snoc l (x : Z * cobj) i : i ∈ ids (l ++ [x]) <-> i ∈ ids l \/ i = x.1.
  Proof.
    rewrite ids_app, elem_of_app. change (ids [x]) with [x.1]. by rewrite elem_of_list_singleton.
  Qed.
  Lemma ids_cons' (x : Z * cobj) l i : i ∈ ids (x :: l) <-> i = x.1 \/ i ∈ ids l.
  Proof. change (ids (x :: l)) with (x.1 :: ids l). apply elem_of_cons. Qed.

  (** A victim of [o_size o + md] bytes that moves into a ghost queue. *)
  Lemma ghost_get q l v o : qok cap md q l -> v ∉ ids l -> osz_ok md o -> o_size o + md <= cap ->
    G0 v (o_size o) -> allG G0 l ->
    exists q' l' o', sub_get lru_ops q (req_of_obj v o) = Ok (q', false) /\ qok cap md q' ((v, o') :: l') /\
      o_size o' = o_size o /\ chg md ((v, o') :: l') = remember cap (v, o_size o + md) (chg md l) /\
      bytes md ((v, o') :: l') <= cap /\ allG G0 ((v, o') :: l') /\ (forall id, id ∈ ids l' -> id ∈ ids l).
  Proof.
    intros HQ Hv [Ho1 Ho2] Hc HG HGl. unfold sub_get. cbn [op_nobj lru_ops].
    assert (Hro : req_ok md (req_of_obj v o)) by (split; cbn; lia).
    destruct (lru_get_miss _ _ _ _ (req_of_obj v o) _ Hmd HQ Hro Hv (subget_fuel _ _ _ _ HQ))
      as (q' & l' & -> & HQ' & Hl).
    cbn [r_size req_of_obj r_id] in Hl. rewrite decide_True in Hl by lia. destruct Hl as (l1 & Hf & ->).
    assert (Hs : o_size (obj_of_req (req_of_obj v o)) = o_size o) by (by rewrite (o_size_of_req _ md)).
    exists q', l1, (obj_of_req (req_of_obj v o)). split_and!; try done.
    - change (chg md ((v, obj_of_req (req_of_obj v o)) :: l1))
        with ((v, o_size (obj_of_req (req_of_obj v o)) + md) :: chg md l1).
      rewrite Hs. unfold remember. f_equal. apply fits_within; [done|apply HQ|exact Hf].
    - rewrite bytes_cons. cbn [snd]. rewrite Hs. destruct Hf as (? & _ & ? & _). lia.
    - apply allG_cons; [cbn [fst snd]; by rewrite Hs|by eapply allG_fits].
    - by apply (fits_ids _ _ _ _ _ Hf).
  Qed.

  Lemma z_over_spec s t1 b1 t2 b2 : zok s t1 b1 t2 b2 ->
    z_over rnd s = true <-> t1 <> [] /\ over rnd (z_f2 s) (absA t1 b1 t2 b2 (z_p s)).
  Proof.
    intros H. unfold z_over, over, absA. cbn [T1 p]. rewrite chg_wt. unfold q_occ.
    rewrite (qok_occ _ _ _ _ (zk_t1 _ _ _ _ _ H)).
    pose proof (allG_pos _ (zk_g1 _ _ _ _ _ H)) as [Hn Hz].
    rewrite andb_true_iff, orb_true_iff, andb_true_iff, negb_true_iff, bool_decide_eq_true, Qeq_bool_iff.
    unfold flt, dbl.
    assert (HL : Qle_bool (rnd (inject_Z (bytes md t1))) (z_p s) = false <-> (z_p s < rnd (inject_Z (bytes md t1)))%Q).
    { rewrite <- not_true_iff_false, Qle_bool_iff. split; [apply Qnot_le_lt|apply Qlt_not_le]. }
    rewrite HL. assert (Hgt : bytes md t1 > 0 <-> t1 <> []).
    { split; [intros ? ->; cbn in *; lia|]. intros Hne. destruct (decide (bytes md t1 = 0)) as [e|]; [by apply Hz in e|lia]. }
    rewrite Hgt. done.
  Qed.

  Lemma osz_elem q l v o : qok cap md q l -> (v, o) ∈ l -> osz_ok md o.
  Proof. intros HQ. pose proof (qok_osz _ _ _ _ HQ) as H. rewrite Forall_forall in H. apply H. Qed.

  Lemma deref_ok q l v o : qok cap md q (l ++ [(v, o)]) -> deref q (Some v) = Ok (v, o).
  Proof.
    intros HQ. unfold deref.
    assert (Hin : (v, o) ∈ l ++ [(v, o)]) by (apply elem_of_app; right; left).
    by rewrite (proj2 (qok_lookup _ _ _ _ HQ v o) Hin).
  Qed.

  Lemma zreplace_ok s t1 b1 t2 b2 r : zok s t1 b1 t2 b2 -> t1 <> [] \/ t2 <> [] ->
    exists s' t1' b1' t2' b2', arc0_replace rnd s r = Ok s' /\ zok s' t1' b1' t2' b2' /\ zkeep s s' /\
      REPLACE0 rnd cap (z_f2 s) (absA t1 b1 t2 b2 (z_p s)) (absA t1' b1' t2' b2' (z_p s)) /\
      S (length t1' + length t2') = (length t1 + length t2)%nat /\
      bytes md t1' + bytes md t2' <= bytes md t1 + bytes md t2 /\
      (forall id, anywhere t1' b1' t2' b2' id -> anywhere t1 b1 t2 b2 id).
  Proof.
    intros H Hne. pose proof H as [Q1 Q2 Q3 Q4 Hsz Hcm D12 D13 D14 D23 D24 D34 Hocc C1 C2 g1 g2 g3 g4 Hp]. unfold arc0_replace.
    pose proof (z_over_spec _ _ _ _ _ H) as Hov.
    pose proof (allG_pos _ g1) as [Hn2 Hz2]. pose proof (allG_pos _ g3) as [Hn3 Hz3].
    assert (Hq2 : q_occ (z_t2 s) = bytes md t2) by (unfold q_occ; apply Q3).
    rewrite Hq2.
    destruct (z_over rnd s || bool_decide (bytes md t2 = 0)) eqn:E.
    - assert (Hc : t1 <> [] /\ (over rnd (z_f2 s) (absA t1 b1 t2 b2 (z_p s)) \/ t2 = [])).
      { apply orb_true_iff in E as [E|E]; [apply Hov in E as [? ?]; auto|].
        apply bool_decide_eq_true in E. apply Hz3 in E. subst t2. split; [|by right]. by destruct Hne. }
      destruct Hc as [Hne1 Hc]. destruct (snoc_or t1) as [->|(l & [v o] & ->)]; [done|].
      rewrite (qok_to_evict _ _ _ _ _ _ r Q1). cbn [rbind]. rewrite (deref_ok _ _ _ _ Q1). cbn [rbind].
      assert (Hin : (v, o) ∈ l ++ [(v, o)]) by (apply elem_of_app; right; left).
      assert (Hv : v ∈ ids (l ++ [(v, o)])) by (apply ids_elem; eauto).
      pose proof (NoDup_ids_mid l v o [] (qok_nd _ _ _ _ Q1)) as (Hvl & _ & _).
      rewrite bytes_snoc in *. cbn [snd] in *.
      apply allG_app in g1 as Hgl. destruct Hgl as [Hgl Hgv].
      assert (HGv : G0 v (o_size o)) by (apply (allG_elem _ _ _ _ Hgv); left).
      pose proof (allG_pos' _ Hgl) as Hp1.
      destruct (ghost_get _ _ v o Q2 ltac:(intros ?; by apply (D12 v)) (osz_elem _ _ _ _ Q1 Hin) ltac:(lia) HGv g2)
        as (q' & l' & o' & -> & HQ' & Hs' & Hch & Hby & HG' & Hsub).
      cbn [rbind]. destruct (qok_evict _ _ _ _ _ _ r Hmd Q1) as (i' & -> & Hi'). cbn [rbind].
      eexists _, l, ((v, o') :: l'), t2, b2. split; [done|].
      assert (Hl : forall id, id ∈ ids l -> id ∈ ids (l ++ [(v, o)])) by (intros id ?; apply ids_snoc; by left).
      assert (Hg : forall id, id ∈ ids ((v, o') :: l') -> id = v \/ id ∈ ids b1).
      { intros id [->|?]%ids_cons'; [by left|right; auto]. }
      destruct HGv as [_ HGv]. split_and!; [| done | | | lia |].
      + split; cbn [z_set_b1 z_set_t1 z_c z_t1 z_b1 z_t2 z_b2 z_p]; try done; try lia.
        * intros id H1 [->|H2]%Hg; [done|]. by apply (D12 id); auto.
        * eapply disj_sub; [exact Hl|done|done].
        * eapply disj_sub; [exact Hl|done|done].
        * intros id [->|H1]%Hg H2; [by apply (D13 v)|]. by apply (D23 id).
        * intros id [->|H1]%Hg H2; [by apply (D14 v)|]. by apply (D24 id).
      + unfold absA. rewrite Hch.
        eapply (replace0_T1 _ _ _ (absA (l ++ [(v, o)]) b1 t2 b2 (z_p s)) (chg md l) (v, o_size o + md)).
        * cbn [absA T1]. by rewrite chg_app.
        * destruct Hc as [Hc| ->]; [by left|by right].
      + rewrite !app_length. cbn. lia.
      + unfold anywhere. intros id [H1|[[->|H1]%Hg|H1]]; auto.
    - apply orb_false_iff in E as [E1 E2]. apply bool_decide_eq_false in E2.
      assert (Hne2 : t2 <> []) by (intros ->; by apply E2). clear Hne.
      destruct (snoc_or t2) as [->|(l & [v o] & ->)]; [done|].
      rewrite (qok_to_evict _ _ _ _ _ _ r Q3). cbn [rbind]. rewrite (deref_ok _ _ _ _ Q3). cbn [rbind].
      assert (Hin : (v, o) ∈ l ++ [(v, o)]) by (apply elem_of_app; right; left).
      assert (Hv : v ∈ ids (l ++ [(v, o)])) by (apply ids_elem; eauto).
      pose proof (NoDup_ids_mid l v o [] (qok_nd _ _ _ _ Q3)) as (Hvl & _ & _).
      rewrite bytes_snoc in *. cbn [snd] in *.
      apply allG_app in g3 as Hgl. destruct Hgl as [Hgl Hgv].
      assert (HGv : G0 v (o_size o)) by (apply (allG_elem _ _ _ _ Hgv); left).
      pose proof (allG_pos' _ Hgl) as Hp1. pose proof (allG_pos' _ g1) as Hp2.
      destruct (qok_evict _ _ _ _ _ _ r Hmd Q3) as (i' & -> & Hi'). cbn [rbind].
      destruct (ghost_get _ _ v o Q4 ltac:(intros ?; by apply (D34 v)) (osz_elem _ _ _ _ Q3 Hin) ltac:(lia) HGv g4)
        as (q' & l' & o' & -> & HQ' & Hs' & Hch & Hby & HG' & Hsub).
      cbn [rbind]. eexists _, t1, b1, l, ((v, o') :: l'). split; [done|].
      assert (Hl : forall id, id ∈ ids l -> id ∈ ids (l ++ [(v, o)])) by (intros id ?; apply ids_snoc; by left).
      assert (Hg : forall id, id ∈ ids ((v, o') :: l') -> id = v \/ id ∈ ids b2).
      { intros id [->|?]%ids_cons'; [by left|right; auto]. }
      destruct HGv as [_ HGv]. split_and!; [| done | | | lia |].
      + split; cbn [z_set_b2 z_set_t2 z_c z_t1 z_b1 z_t2 z_b2 z_p]; try done; try lia.
        * eapply disj_sub; [done|exact Hl|done].
        * intros id H1 [->|H2]%Hg; [by apply (D13 v)|]. by apply (D14 id).
        * eapply disj_sub; [done|exact Hl|done].
        * intros id H1 [->|H2]%Hg; [by apply (D23 v)|]. by apply (D24 id).
        * intros id H1 [->|H2]%Hg; [done|]. by apply (D34 id); auto.
      + unfold absA. rewrite Hch.
        eapply (replace0_T2 _ _ _ (absA t1 b1 (l ++ [(v, o)]) b2 (z_p s)) (chg md l) (v, o_size o + md)).
        * cbn [absA T2]. by rewrite chg_app.
        * intros [Hx Hy]. apply not_true_iff_false in E1. apply E1, Hov. split; [|done].
          intros ->. by apply Hx.
      + rewrite !app_length. cbn. lia.
      + unfold anywhere. intros id [H1|[H1|[H1|[->|H1]%Hg]]]; auto.
  Qed.

  Lemma q_occ_ok q l : qok cap md q l -> q_occ q = bytes md l.
  Proof. intros H. apply H. Qed.

  (** dropping the last object of a queue *)
  Lemma drop_sub l x : (forall id, id ∈ ids l -> id ∈ ids (l ++ [x])).
  Proof. intros id ?. apply ids_snoc. by left. Qed.

  Lemma zok_b1 s t1 b1 t2 b2 q b1' : zok s t1 b1 t2 b2 -> qok cap md q b1' ->
    (forall id, id ∈ ids b1' -> id ∈ ids b1) -> bytes md b1' <= cap -> allG G0 b1' ->
    zok (z_set_b1 s q) t1 b1' t2 b2.
  Proof.
    intros [Q1 Q2 Q3 Q4 Hsz Hcm D12 D13 D14 D23 D24 D34 Hocc C1 C2 g1 g2 g3 g4 Hp] HQ Hs Hb Hg.
    split; cbn [z_set_b1 z_c z_t1 z_b1 z_t2 z_b2 z_p]; try done.
    - by eapply disj_sub; [|exact Hs|exact D12].
    - by eapply disj_sub; [exact Hs| |exact D23].
    - by eapply disj_sub; [exact Hs| |exact D24].
  Qed.
  Lemma zok_b2 s t1 b1 t2 b2 q b2' : zok s t1 b1 t2 b2 -> qok cap md q b2' ->
    (forall id, id ∈ ids b2' -> id ∈ ids b2) -> bytes md b2' <= cap -> allG G0 b2' ->
    zok (z_set_b2 s q) t1 b1 t2 b2'.
  Proof.
    intros [Q1 Q2 Q3 Q4 Hsz Hcm D12 D13 D14 D23 D24 D34 Hocc C1 C2 g1 g2 g3 g4 Hp] HQ Hs Hb Hg.
    split; cbn [z_set_b2 z_c z_t1 z_b1 z_t2 z_b2 z_p]; try done.
    - by eapply disj_sub; [|exact Hs|exact D14].
    - by eapply disj_sub; [|exact Hs|exact D24].
    - by eapply disj_sub; [|exact Hs|exact D34].
  Qed.
  Lemma zok_t1 s t1 b1 t2 b2 q t1' : zok s t1 b1 t2 b2 -> qok cap md q t1' ->
    (forall id, id ∈ ids t1' -> id ∈ ids t1) -> bytes md t1' <= bytes md t1 -> allG G0 t1' ->
    zok (z_set_t1 s q) t1' b1 t2 b2.
  Proof.
    intros [Q1 Q2 Q3 Q4 Hsz Hcm D12 D13 D14 D23 D24 D34 Hocc C1 C2 g1 g2 g3 g4 Hp] HQ Hs Hb Hg.
    split; cbn [z_set_t1 z_c z_t1 z_b1 z_t2 z_b2 z_p]; try done; [..|lia].
    - by eapply disj_sub; [exact Hs| |exact D12].
    - by eapply disj_sub; [exact Hs| |exact D13].
    - by eapply disj_sub; [exact Hs| |exact D14].
  Qed.
  Lemma zok_t2 s t1 b1 t2 b2 q t2' : zok s t1 b1 t2 b2 -> qok cap md q t2' ->
    (forall id, id ∈ ids t2' -> id ∈ ids t2) -> bytes md t2' <= bytes md t2 -> allG G0 t2' ->
    zok (z_set_t2 s q) t1 b1 t2' b2.
  Proof.
    intros [Q1 Q2 Q3 Q4 Hsz Hcm D12 D13 D14 D23 D24 D34 Hocc C1 C2 g1 g2 g3 g4 Hp] HQ Hs Hb Hg.
    split; cbn [z_set_t2 z_c z_t1 z_b1 z_t2 z_b2 z_p]; try done; [..|lia].
    - by eapply disj_sub; [|exact Hs|exact D13].
    - by eapply disj_sub; [|exact Hs|exact D23].
    - by eapply disj_sub; [exact Hs| |exact D34].
  Qed.
  Lemma zok_flags s t1 b1 t2 b2 f1 f2 vt : zok s t1 b1 t2 b2 -> zok (z_set_flags s f1 f2 vt) t1 b1 t2 b2.
  Proof. intros []. by split. Qed.
  Lemma zok_p s t1 b1 t2 b2 q : zok s t1 b1 t2 b2 -> (0 <= q)%Q /\ (q <= dbl rnd cap)%Q -> zok (z_set_p s q) t1 b1 t2 b2.
  Proof. intros [] ?. by split. Qed.
  Lemma zok_c s t1 b1 t2 b2 c : zok s t1 b1 t2 b2 -> c_size c = c_size (z_c s) -> c_md c = c_md (z_c s) ->
    zok (z_set_c s c) t1 b1 t2 b2.
  Proof. intros [] ? ?. split; try done; cbn; congruence. Qed.

  (** The loop of 503-508. *)
  Lemma cut_ok n r fuel : n < 2 * cap -> forall l q, (length l < fuel)%nat -> qok cap md q l -> allG G0 l ->
    exists q' l', while_ fuel (fun b2 => Ok (bool_decide (n + q_occ b2 >= cap * 2)))
                    (fun b2 => q_evict_tail b2 r) q = Ok q' /\ qok cap md q' l' /\
      fits (2 * cap - 1 - n) md 0 l' l.
  Proof.
    intros Hn. induction fuel as [|fuel IH]; intros l q Hf HQ HG; [lia|]. cbn [while_].
    rewrite (q_occ_ok _ _ HQ). cbn [rbind]. destruct (bool_decide _) eqn:E.
    - apply bool_decide_eq_true in E. destruct (snoc_or l) as [->|(l' & [v o] & ->)]; [cbn in E; lia|].
      destruct (qok_evict _ _ _ _ _ _ r Hmd HQ) as (q1 & -> & HQ1). cbn [rbind].
      apply allG_app in HG as [HG _].
      destruct (IH l' q1) as (q' & l1 & -> & HQ' & (l2 & -> & Hb & Hm)); [rewrite app_length in Hf; cbn in Hf; lia|done|done|].
      exists q', l1. split_and!; [done|done|]. exists (l2 ++ [(v, o)]). split_and!; [by rewrite app_assoc|done|].
      destruct l2 as [|x l2]; cbn; [|done]. rewrite app_nil_r in *. lia.
    - apply bool_decide_eq_false in E. exists q, l. split_and!; [done|done|]. exists [].
      split_and!; [by rewrite app_nil_r|lia|done].
  Qed.

  (** What an eviction for request [r] does. *)
  Definition zevicted (s : arc0) (t1 b1 t2 b2 : qlist) (s' : arc0) (t1' b1' t2' b2' : qlist) : Prop :=
    zok s' t1' b1' t2' b2' /\ zkeep s s' /\
    S (length t1' + length t2') = (length t1 + length t2)%nat /\
    bytes md t1' + bytes md t2' <= bytes md t1 + bytes md t2 /\
    (forall id, anywhere t1' b1' t2' b2' id -> anywhere t1 b1 t2 b2 id).

  Lemma zevict_miss_ok s t1 b1 t2 b2 r : zok s t1 b1 t2 b2 -> t1 <> [] \/ t2 <> [] ->
    0 < r_size r + omd <= cap ->
    exists s' t1' b1' t2' b2', arc0_evict_miss rnd s r = Ok s' /\ zevicted s t1 b1 t2 b2 s' t1' b1' t2' b2' /\
      (z_f2 s = false -> CASE40 rnd cap (r_size r + omd) (absA t1 b1 t2 b2 (z_p s)) (absA t1' b1' t2' b2' (z_p s))).
  Proof.
    intros H Hne Hr.
    pose proof H as [Q1 Q2 Q3 Q4 Hsz Hcm D12 D13 D14 D23 D24 D34 Hocc C1 C2 g1 g2 g3 g4 Hp].
    unfold arc0_evict_miss, z_full. rewrite Hsz, Hcm, !(q_occ_ok _ _ Q1), !(q_occ_ok _ _ Q2), !(q_occ_ok _ _ Q3).
    pose proof (allG_pos _ g1) as [Hp1 _]. pose proof (allG_pos _ g2) as [Hp2 Hz2]. pose proof (allG_pos' _ g3) as Hp3.
    destruct (bool_decide _) eqn:E.
    - apply bool_decide_eq_true in E. destruct (decide (bytes md b1 > 0)) as [Hb|Hb].
      + destruct (snoc_or b1) as [->|(l & [v o] & ->)]; [cbn in Hb; lia|].
        destruct (qok_evict _ _ _ _ _ _ r Hmd Q2) as (q1 & -> & HQ1). cbn [rbind].
        pose proof (proj1 (proj1 (allG_app _ _ _) g2)) as Hgl.
        assert (Hbl : bytes md l <= bytes md (l ++ [(v, o)])).
        { rewrite bytes_app. pose proof (allG_pos' _ (proj2 (proj1 (allG_app _ _ _) g2))). lia. }
        pose proof (zok_b1 s _ _ _ _ q1 l H HQ1 (drop_sub _ _) ltac:(lia) Hgl) as H1.
        destruct (zreplace_ok _ _ _ _ _ r H1 Hne) as (s' & t1' & b1' & t2' & b2' & -> & H' & Hk & HR & Hlen & Hby & Hsub).
        exists s', t1', b1', t2', b2'. split; [done|]. split.
        * split_and!; try done. intros id Hid. apply Hsub in Hid. unfold anywhere in *.
          pose proof (drop_sub l (v, o) id). tauto.
        * cbn [z_set_b1 z_f2 z_p] in HR. intros Hf. rewrite Hf in HR.
          eapply (case40_A1 _ _ _ (absA t1 (l ++ [(v, o)]) t2 b2 (z_p s)) (chg md l) (v, o_size o + md)).
          -- cbn [absA T1 B1]. rewrite !chg_wt. lia.
          -- cbn [absA B1]. by rewrite chg_app.
          -- exact HR.
      + assert (b1 = []) as -> by (apply Hz2; lia). change (bytes md []) with 0 in *.
        destruct (snoc_or t1) as [->|(l & [v o] & ->)]; [cbn in E; lia|].
        destruct (qok_evict _ _ _ _ _ _ r Hmd Q1) as (q1 & -> & HQ1). cbn [rbind].
        pose proof (proj1 (proj1 (allG_app _ _ _) g1)) as Hgl.
        assert (Hbl : bytes md l <= bytes md (l ++ [(v, o)])).
        { rewrite bytes_app. pose proof (allG_pos' _ (proj2 (proj1 (allG_app _ _ _) g1))). lia. }
        eexists _, l, [], t2, b2. split; [done|]. split.
        * split; [exact (zok_t1 s _ _ _ _ q1 l H HQ1 (drop_sub _ _) Hbl Hgl)|].
          split; [done|]. split; [rewrite app_length; cbn; lia|]. split; [lia|].
          intros id Hid. unfold anywhere in *. pose proof (drop_sub l (v, o) id). tauto.
        * intros _. eapply (case40_A2 _ _ _ (absA (l ++ [(v, o)]) [] t2 b2 (z_p s)) (chg md l) (v, o_size o + md)).
          -- cbn [absA T1 B1]. rewrite !chg_wt. change (bytes md []) with 0. lia.
          -- done.
          -- cbn [absA T1]. by rewrite chg_app.
    - apply bool_decide_eq_false in E.
      destruct (cut_ok (bytes md t1 + bytes md b1 + bytes md t2) r (S (Z.to_nat (q_nobj (z_b2 s)))) ltac:(lia) b2 (z_b2 s))
        as (q' & l' & -> & HQ' & Hfits).
      { pose proof (subget_fuel _ _ _ _ Q4). lia. }
      { done. }
      { done. }
      cbn [rbind].
      assert (Hbl : bytes md l' <= cap).
      { destruct Hfits as (l2 & -> & _). rewrite bytes_app in C2.
        pose proof (allG_pos' _ (proj2 (proj1 (allG_app _ _ _) g4))). lia. }
      assert (Hsb : forall id, id ∈ ids l' -> id ∈ ids b2) by apply (fits_ids _ _ _ _ _ Hfits).
      pose proof (zok_b2 s _ _ _ _ q' l' H HQ' Hsb Hbl (allG_fits _ _ _ _ _ _ Hfits g4)) as H1.
      destruct (zreplace_ok _ _ _ _ _ r H1 Hne) as (s' & t1' & b1' & t2' & b2' & -> & H' & Hk & HR & Hlen & Hby & Hsub).
      exists s', t1', b1', t2', b2'. split; [done|]. split.
      + split_and!; try done. intros id Hid. apply Hsub in Hid. unfold anywhere in *. specialize (Hsb id). tauto.
      + cbn [z_set_b2 z_f2 z_p] in HR. intros Hf. rewrite Hf in HR. apply case40_B.
        * cbn [absA T1 B1]. rewrite !chg_wt. lia.
        * cbn [absA T1 B1 T2 B2 p]. rewrite !chg_wt.
          replace (within (2 * cap - 1 - (bytes md t1 + bytes md b1 + bytes md t2)) (chg md b2)) with (chg md l'); [exact HR|].
          rewrite (fits_within _ _ 0 l' b2 Hmd (qok_osz _ _ _ _ Q4) Hfits). f_equal. lia.
  Qed.

  Lemma zevict_ok s t1 b1 t2 b2 r : zok s t1 b1 t2 b2 -> t1 <> [] \/ t2 <> [] ->
    0 < r_size r + omd <= cap ->
    exists s' t1' b1' t2' b2', arc0_evict rnd s r = Ok s' /\ zevicted s t1 b1 t2 b2 s' t1' b1' t2' b2' /\
      (if z_in_ghost s then REPLACE0 rnd cap (z_f2 s) (absA t1 b1 t2 b2 (z_p s)) (absA t1' b1' t2' b2' (z_p s))
       else z_f2 s = false ->
         CASE40 rnd cap (r_size r + omd) (absA t1 b1 t2 b2 (z_p s)) (absA t1' b1' t2' b2' (z_p s))).
  Proof.
    intros H Hne Hr. unfold arc0_evict. destruct (z_in_ghost s).
    - destruct (zreplace_ok _ _ _ _ _ r H Hne) as (s' & t1' & b1' & t2' & b2' & -> & H' & Hk & HR & Hlen & Hby & Hsub).
      exists s', t1', b1', t2', b2'. by split_and!.
    - by apply zevict_miss_ok.
  Qed.

  Lemma zkeep_ghost s s' : zkeep s s' -> z_in_ghost s' = z_in_ghost s.
  Proof. intros (E1 & _ & E2 & E3 & E4). unfold z_in_ghost. by rewrite E1, E2, E3, E4. Qed.

  Lemma zloop_ok r : 0 < r_size r + omd <= cap -> forall n s t1 b1 t2 b2 fuel,
    (length t1 + length t2 <= n)%nat -> (n <= fuel)%nat -> zok s t1 b1 t2 b2 ->
    exists s' t1' b1' t2' b2', evict_loop (arc0_ops rnd) fuel s r = Ok s' /\ zok s' t1' b1' t2' b2' /\ zkeep s s' /\
      bytes md t1' + bytes md t2' + (r_size r + omd) <= cap /\ (length t1' + length t2' <= n)%nat /\
      (forall id, anywhere t1' b1' t2' b2' id -> anywhere t1 b1 t2 b2 id) /\
      (if z_in_ghost s then
         ROOM cap (r_size r + omd) (REPLACE0 rnd cap (z_f2 s)) (absA t1 b1 t2 b2 (z_p s)) (absA t1' b1' t2' b2' (z_p s))
       else z_f2 s = false ->
         ROOM cap (r_size r + omd) (CASE40 rnd cap (r_size r + omd)) (absA t1 b1 t2 b2 (z_p s)) (absA t1' b1' t2' b2' (z_p s))).
  Proof.
    intros Hr n. induction n as [|n IH]; intros s t1 b1 t2 b2 fuel Hn Hf H.
    - assert (t1 = [] /\ t2 = []) as [-> ->] by (destruct t1, t2; cbn in Hn; try lia; done).
      assert (Hl : op_occupied (arc0_ops rnd) s + r_size r + op_md (arc0_ops rnd) s <= op_size (arc0_ops rnd) s).
      { cbn [op_occupied op_md op_size arc0_ops].
        rewrite (q_occ_ok _ _ (zk_t1 _ _ _ _ _ H)), (q_occ_ok _ _ (zk_t2 _ _ _ _ _ H)), (zk_sz _ _ _ _ _ H), (zk_md _ _ _ _ _ H).
        cbn. lia. }
      exists s, [], b1, [], b2. split_and!; try done.
      + destruct fuel; cbn [evict_loop]; by rewrite decide_False by lia.
      + cbn. lia.
      + destruct (z_in_ghost s); [|intros _]; apply room_fits; cbn; lia.
    - destruct fuel as [|fuel]; [lia|]. cbn [evict_loop].
      assert (Hocc : op_occupied (arc0_ops rnd) s + r_size r + op_md (arc0_ops rnd) s
                     = bytes md t1 + bytes md t2 + (r_size r + omd) /\ op_size (arc0_ops rnd) s = cap).
      { cbn [op_occupied op_md op_size arc0_ops].
        rewrite (q_occ_ok _ _ (zk_t1 _ _ _ _ _ H)), (q_occ_ok _ _ (zk_t2 _ _ _ _ _ H)), (zk_sz _ _ _ _ _ H), (zk_md _ _ _ _ _ H).
        split; [lia|done]. }
      destruct Hocc as [Hocc Hsz]. destruct (decide _) as [Hgt|Hle].
      + cbn [op_evict arc0_ops].
        assert (Hne : t1 <> [] \/ t2 <> []).
        { destruct t1; [|by left]. destruct t2; [change (bytes md []) with 0 in Hocc; lia|by right]. }
        destruct (zevict_ok s t1 b1 t2 b2 r H Hne Hr)
          as (s1 & t1a & b1a & t2a & b2a & -> & (H1 & Hk1 & Hlen & Hby & Hsub) & HE).
        cbn [rbind]. destruct (IH s1 t1a b1a t2a b2a fuel ltac:(lia) ltac:(lia) H1)
          as (s' & t1' & b1' & t2' & b2' & -> & H' & Hk' & Hc & Hl' & Hsub' & HR).
        exists s', t1', b1', t2', b2'. split_and!; try done; [by eapply zkeep_trans|lia|auto|].
        rewrite (zkeep_ghost _ _ Hk1) in HR. destruct Hk1 as (_ & Ep & _ & Ef & _). rewrite Ep, Ef in HR.
        destruct (z_in_ghost s).
        * eapply room_evict; [|exact HE|exact HR]. cbn [absA T1 T2]. rewrite !chg_wt. lia.
        * intros Hf2. eapply room_evict; [|exact (HE Hf2)|exact (HR Hf2)]. cbn [absA T1 T2]. rewrite !chg_wt. lia.
      + exists s, t1, b1, t2, b2. split_and!; try done; try lia.
        destruct (z_in_ghost s); [|intros _]; apply room_fits; cbn [absA T1 T2]; rewrite !chg_wt; lia.
  Qed.

  (** Without update nothing changes. *)
  Lemma zfind_false s t1 b1 t2 b2 r : zok s t1 b1 t2 b2 ->
    arc0_find rnd s r false = Ok (s, bool_decide (r_id r ∈ ids t1 \/ r_id r ∈ ids t2)).
  Proof.
    intros H. unfold arc0_find. rewrite (qok_lru_false _ _ _ _ (zk_t1 _ _ _ _ _ H)). cbn [rbind].
    rewrite (qok_lru_false _ _ _ _ (zk_t2 _ _ _ _ _ H)). cbn [rbind]. do 2 f_equal.
    repeat case_bool_decide; tauto.
  Qed.

  Lemma chg_cons id o l : chg md ((id, o) :: l) = (id, o_size o + md) :: chg md l.
  Proof. done. Qed.

  Lemma zfind_true s t1 b1 t2 b2 r : zok s t1 b1 t2 b2 -> req_ok md r -> r_size r = size_of (r_id r) ->
    exists s' t1' b1' t2' b2',
      arc0_find rnd s r true = Ok (s', bool_decide (r_id r ∈ ids t1 \/ r_id r ∈ ids t2)) /\
      zok s' t1' b1' t2' b2' /\ z_c s' = z_c s /\ (length t1' + length t2' = length t1 + length t2)%nat /\
      bytes md t1' + bytes md t2' = bytes md t1 + bytes md t2 /\
      ((~ anywhere t1 b1 t2 b2 (r_id r) /\ s' = s /\ t1' = t1 /\ b1' = b1 /\ t2' = t2 /\ b2' = b2) \/
       ((r_id r ∈ ids t1 \/ r_id r ∈ ids t2) /\ z_f1 s' = false /\ z_f2 s' = false /\ z_p s' = z_p s /\
        forall n m, REQUEST0 rnd cap (r_id r) n m (absA t1 b1 t2 b2 (z_p s)) true (absA t1' b1' t2' b2' (z_p s'))) \/
       (r_id r ∈ ids b1 /\ ~ anywhere t1' b1' t2' b2' (r_id r) /\ z_f1 s' = true /\ z_f2 s' = false /\
        z_vt s' = c_nreq (z_c s) /\
        z_p s' = up rnd cap (z_p s) (wt (chg md b2)) (wt (chg md b1)) /\
        t1' = t1 /\ t2' = t2 /\ b2' = b2 /\
        exists l1 c l2, chg md b1 = l1 ++ (r_id r, c) :: l2 /\ chg md b1' = l1 ++ l2) \/
       (r_id r ∈ ids b2 /\ ~ anywhere t1' b1' t2' b2' (r_id r) /\ z_f1 s' = false /\ z_f2 s' = true /\
        z_vt s' = c_nreq (z_c s) /\
        z_p s' = down rnd (z_p s) (wt (chg md b1)) (wt (chg md b2)) /\
        t1' = t1 /\ b1' = b1 /\ t2' = t2 /\
        exists l1 c l2, chg md b2 = l1 ++ (r_id r, c) :: l2 /\ chg md b2' = l1 ++ l2)).
  Proof.
    intros H Hr Hrs.
    pose proof H as [Q1 Q2 Q3 Q4 Hsz Hcm D12 D13 D14 D23 D24 D34 Hocc C1 C2 g1 g2 g3 g4 Hp].
    unfold arc0_find. rewrite (qok_lru_false _ _ _ _ Q1). cbn [rbind]. rewrite (qok_lru_false _ _ _ _ Q3). cbn [rbind].
    rewrite (qok_lru_false _ _ _ _ Q2). cbn [rbind]. rewrite (qok_lru_false _ _ _ _ Q4). cbn [rbind].
    set (id := r_id r) in *.
    destruct (decide (id ∈ ids t1)) as [H1|H1].
    { assert (N1 : id ∉ ids b1) by (intros ?; by apply (D12 id)).
      assert (N2 : id ∉ ids t2) by (intros ?; by apply (D13 id)).
      assert (N3 : id ∉ ids b2) by (intros ?; by apply (D14 id)).
      rewrite (bool_decide_eq_true_2 (id ∈ ids t1)), (bool_decide_eq_false_2 (id ∈ ids t2)),
        (bool_decide_eq_false_2 (id ∈ ids b1)), (bool_decide_eq_false_2 (id ∈ ids b2)) by done.
      cbn [negb orb z_set_flags z_t1 z_t2]. fold id.
      destruct (qok_remove_hit _ _ _ _ Q1 id Hmd H1) as (q1 & -> & HQ1). cbn [rbind].
      unfold sub_get. cbn [op_nobj lru_ops].
      destruct (lru_get_miss _ _ _ _ r _ Hmd Q3 Hr N2 (subget_fuel _ _ _ _ Q3)) as (q2 & l' & -> & HQ2 & Hl).
      cbn [rbind]. pose proof H1 as (o & Ho)%ids_elem.
      assert (HGo : o_size o = r_size r /\ 0 < o_size o + md).
      { destruct (allG_elem _ _ _ _ g1 Ho) as [E ?]. rewrite Hrs. by split. }
      destruct HGo as [HGo HGp].
      pose proof (bytes_del md id o t1 (qok_nd _ _ _ _ Q1) Ho) as Hbd.
      pose proof (allG_pos' _ g3) as Hp3. pose proof (allG_pos' _ (allG_del _ id _ g1)) as Hp1.
      rewrite decide_True in Hl by lia. destruct Hl as (l1 & (l2 & E2 & Hb & Hx) & ->).
      assert (l2 = []) as ->.
      { destruct l2 as [|x l2]; [done|]. exfalso. subst t2. rewrite !bytes_app, !bytes_cons in *.
        pose proof (allG_pos' _ (proj2 (proj1 (allG_app _ _ _) g3))) as Hq. rewrite bytes_cons in Hq.
        apply allG_app in g3 as [_ Hg3]. apply Forall_cons in Hg3 as [[_ ?] Hg3].
        pose proof (allG_pos' _ Hg3). change (bytes md []) with 0 in *. lia. }
      rewrite app_nil_r in E2. subst l1.
      assert (Hos : o_size (obj_of_req r) = o_size o) by (by rewrite (o_size_of_req _ md)).
      eexists _, (l_del id t1), b1, ((r_id r, obj_of_req r) :: t2), b2. fold id.
      rewrite (bool_decide_eq_true_2 (id ∈ ids t1 \/ id ∈ ids t2)) by (by left). split; [done|].
      assert (Hby : bytes md ((id, obj_of_req r) :: t2) = o_size o + md + bytes md t2) by (by rewrite bytes_cons; cbn [snd]; rewrite Hos).
      split.
      { split; cbn [z_set_t2 z_set_t1 z_set_flags z_c z_t1 z_b1 z_t2 z_b2 z_p]; try done; try lia.
        - by eapply disj_sub; [apply del_sub| |exact D12].
        - intros j Hj [->|Hk]%ids_cons'; [by apply elem_ids_del in Hj as [_ ?]|].
          apply elem_ids_del in Hj as [? _]. by apply (D13 j).
        - by eapply disj_sub; [apply del_sub| |exact D14].
        - intros j Hj [->|Hk]%ids_cons'; [done|]. by apply (D23 j).
        - intros j [->|Hk]%ids_cons' Hj; [done|]. by apply (D34 j).
        - by apply allG_del.
        - apply allG_cons; [|done]. cbn [fst snd]. rewrite Hos. split; [|lia]. by rewrite <- Hrs. }
      split; [done|]. split.
      { cbn [length]. pose proof (length_del id o t1 (qok_nd _ _ _ _ Q1) Ho). lia. }
      split; [lia|]. right. left. split_and!; try done; [by left|]. intros n m.
      apply split_at in Ho as (la & lb & E). pose proof (qok_nd _ _ _ _ Q1) as Hnd. subst t1.
      rewrite (l_del_mid _ _ _ _ Hnd). unfold absA at 2. rewrite !chg_cons, chg_app, Hos.
      eapply (hit0_T1 _ _ _ _ _ (absA (la ++ (id, o) :: lb) b1 t2 b2 (z_p s)) (chg md la) (o_size o + md) (chg md lb)).
      cbn [absA T1]. by rewrite chg_app, chg_cons. }
    destruct (decide (id ∈ ids t2)) as [H2|H2].
    { assert (N1 : id ∉ ids b1) by (intros ?; by apply (D23 id)).
      assert (N3 : id ∉ ids b2) by (intros ?; by apply (D34 id)).
      rewrite (bool_decide_eq_false_2 (id ∈ ids t1)), (bool_decide_eq_true_2 (id ∈ ids t2)),
        (bool_decide_eq_false_2 (id ∈ ids b1)), (bool_decide_eq_false_2 (id ∈ ids b2)) by done.
      cbn [negb orb z_set_flags z_t1 z_t2].
      destruct (qok_lru_hit _ _ _ _ r Q3 H2) as (q2 & o' & -> & (o & Ho & Heq) & HQ2). cbn [rbind].
      fold id in Ho, HQ2. assert (Hos : o_size o' = o_size o) by (by rewrite Heq).
      assert (Hids : forall j, j ∈ ids ((id, o') :: l_del id t2) <-> j ∈ ids t2).
      { intros j. rewrite ids_cons', elem_ids_del. cbn [fst]. destruct (decide (j = id)) as [->|]; tauto. }
      assert (Hby : bytes md ((id, o') :: l_del id t2) = bytes md t2).
      { rewrite bytes_cons, (bytes_del _ _ o); [cbn; lia|apply Q3|done]. }
      eexists _, t1, b1, ((id, o') :: l_del id t2), b2.
      rewrite (bool_decide_eq_true_2 (id ∈ ids t1 \/ id ∈ ids t2)) by (by right). split; [done|]. split.
      { pose proof (zok_t2 (z_set_flags s false false (z_vt s)) _ _ _ _ q2 _ (zok_flags _ _ _ _ _ _ _ _ H) HQ2) as X.
        apply X; [apply Hids|lia|]. apply allG_cons; [|by apply allG_del]. cbn [fst snd]. rewrite Hos.
        by apply (allG_elem _ _ _ _ g3). }
      split; [done|]. split; [cbn [length]; rewrite (length_del id o t2); [done|apply Q3|done]|].
      split; [lia|]. right. left. split_and!; try done; [by right|]. intros n m.
      apply split_at in Ho as (la & lb & E). pose proof (qok_nd _ _ _ _ Q3) as Hnd. subst t2.
      rewrite (l_del_mid _ _ _ _ Hnd). unfold absA at 2. rewrite !chg_cons, chg_app, Hos.
      eapply (hit0_T2 _ _ _ _ _ (absA t1 b1 (la ++ (id, o) :: lb) b2 (z_p s)) (chg md la) (o_size o + md) (chg md lb)).
      cbn [absA T2]. by rewrite chg_app, chg_cons. }
    rewrite (bool_decide_eq_false_2 (id ∈ ids t1)), (bool_decide_eq_false_2 (id ∈ ids t2)) by done.
    rewrite (bool_decide_eq_false_2 (id ∈ ids t1 \/ id ∈ ids t2)) by tauto.
    destruct (decide (id ∈ ids b1)) as [H3|H3].
    { rewrite (bool_decide_eq_true_2 (id ∈ ids b1)) by done.
      cbn [negb orb z_set_flags z_set_p z_b1 z_b2 z_c z_p].
      destruct (qok_remove_hit _ _ _ _ Q2 id Hmd H3) as (q1 & Eq & HQ1). fold id. rewrite Eq. cbn [rbind].
      rewrite (q_occ_ok _ _ Q2), (q_occ_ok _ _ Q4), Hsz.
      assert (N3 : id ∉ ids b2) by (intros ?; by apply (D24 id)).
      pose proof H3 as (o & Ho)%ids_elem.
      assert (Hbn : bytes md b1 <> 0).
      { intros E. apply (allG_pos _ g2) in E. subst b1. by apply elem_of_nil in Ho. }
      eexists _, t1, (l_del id b1), t2, b2. split; [done|]. split.
      { pose proof (zok_flags s _ _ _ _ true false (c_nreq (z_c s)) H) as X1.
        pose proof (zok_p _ _ _ _ _ (p_up rnd (z_p s) (arc_delta rnd (bytes md b2) (bytes md b1)) cap) X1) as X2.
        specialize (X2 ltac:(eapply p_up_ok; eauto; apply Hp)).
        exact (zok_b1 _ _ _ _ _ q1 _ X2 HQ1 (del_sub _ _) ltac:(pose proof (bytes_del_le _ _ _ _ id Hmd Q2); lia)
                 (allG_del _ _ _ g2)). }
      do 3 (split; [done|]). right. right. left. split; [done|]. split.
      { unfold anywhere. rewrite elem_ids_del. tauto. }
      split_and!; try done.
      - cbn [z_set_b1 z_set_p z_set_flags z_p]. rewrite !chg_wt. by apply p_up_spec.
      - apply split_at in Ho as (la & lb & E). pose proof (qok_nd _ _ _ _ Q2) as Hnd. subst b1.
        rewrite (l_del_mid _ _ _ _ Hnd), !chg_app, chg_cons. by eexists _, _, _. }
    rewrite (bool_decide_eq_false_2 (id ∈ ids b1)) by done.
    destruct (decide (id ∈ ids b2)) as [H4|H4].
    { rewrite (bool_decide_eq_true_2 (id ∈ ids b2)) by done.
      cbn [negb orb z_set_flags z_set_p z_b1 z_b2 z_c z_p].
      destruct (qok_remove_hit _ _ _ _ Q4 id Hmd H4) as (q1 & Eq & HQ1). fold id. rewrite Eq. cbn [rbind].
      rewrite (q_occ_ok _ _ Q2), (q_occ_ok _ _ Q4).
      pose proof H4 as (o & Ho)%ids_elem.
      assert (Hbn : bytes md b2 <> 0).
      { intros E. apply (allG_pos _ g4) in E. subst b2. by apply elem_of_nil in Ho. }
      eexists _, t1, b1, t2, (l_del id b2). split; [done|]. split.
      { pose proof (zok_flags s _ _ _ _ false true (c_nreq (z_c s)) H) as X1.
        pose proof (zok_p _ _ _ _ _ (p_down rnd (z_p s) (arc_delta rnd (bytes md b1) (bytes md b2))) X1) as X2.
        specialize (X2 ltac:(eapply p_down_ok; eauto; apply Hp)).
        exact (zok_b2 _ _ _ _ _ q1 _ X2 HQ1 (del_sub _ _) ltac:(pose proof (bytes_del_le _ _ _ _ id Hmd Q4); lia)
                 (allG_del _ _ _ g4)). }
      do 3 (split; [done|]). right. right. right. split; [done|]. split.
      { unfold anywhere. rewrite elem_ids_del. tauto. }
      split_and!; try done.
      - cbn [z_set_b2 z_set_p z_set_flags z_p]. rewrite !chg_wt. by apply p_down_spec.
      - apply split_at in Ho as (la & lb & E). pose proof (qok_nd _ _ _ _ Q4) as Hnd. subst b2.
        rewrite (l_del_mid _ _ _ _ Hnd), !chg_app, chg_cons. by eexists _, _, _. }
    rewrite (bool_decide_eq_false_2 (id ∈ ids b2)) by done. cbn [negb orb].
    exists s, t1, b1, t2, b2. split_and!; try done. left. split_and!; try done. unfold anywhere. tauto.
  Qed.

  Lemma zinsert_ok s t1 b1 t2 b2 r : zok s t1 b1 t2 b2 -> req_ok md r -> r_size r = size_of (r_id r) ->
    0 < r_size r + md -> ~ anywhere t1 b1 t2 b2 (r_id r) ->
    bytes md t1 + bytes md t2 + (r_size r + omd) <= cap ->
    exists s' t1' t2' o, arc0_insert s r = Ok s' /\ zok s' t1' b1 t2' b2 /\ o_size o = r_size r /\
      z_c s' = z_c s /\ z_p s' = z_p s /\
      (if z_in_ghost s then t1' = t1 /\ t2' = (r_id r, o) :: t2 /\ z_f1 s' = false /\ z_f2 s' = false
       else t1' = (r_id r, o) :: t1 /\ t2' = t2 /\ z_f1 s' = z_f1 s /\ z_f2 s' = z_f2 s).
  Proof.
    intros H Hr Hrs Hpos Hno Hc.
    pose proof H as [Q1 Q2 Q3 Q4 Hsz Hcm D12 D13 D14 D23 D24 D34 Hocc C1 C2 g1 g2 g3 g4 Hp].
    assert (Hos : o_size (obj_of_req r) = r_size r) by (by rewrite (o_size_of_req _ md)).
    assert (HG : G0 (r_id r) (o_size (obj_of_req r))) by (rewrite Hos; by split).
    unfold anywhere in Hno. unfold arc0_insert. destruct (z_in_ghost s).
    - destruct (qok_insert _ _ _ _ Q3 r ltac:(tauto) Hr Hmd) as (q & -> & HQ). cbn [rbind].
      eexists _, t1, _, (obj_of_req r). split; [done|]. split; [|by split_and!].
      split; cbn [z_set_t2 z_set_flags z_c z_t1 z_b1 z_t2 z_b2 z_p]; try done.
      + intros j Hj [->|Hk]%ids_cons'; [tauto|]. by apply (D13 j).
      + intros j Hj [->|Hk]%ids_cons'; [tauto|]. by apply (D23 j).
      + intros j [->|Hk]%ids_cons' Hj; [tauto|]. by apply (D34 j).
      + rewrite bytes_cons. cbn [snd]. lia.
      + by apply allG_cons.
    - destruct (qok_insert _ _ _ _ Q1 r ltac:(tauto) Hr Hmd) as (q & -> & HQ). cbn [rbind].
      eexists _, _, t2, (obj_of_req r). split; [done|]. split; [|by split_and!].
      split; cbn [z_set_t1 z_c z_t1 z_b1 z_t2 z_b2 z_p]; try done.
      + intros j [->|Hk]%ids_cons' Hj; [tauto|]. by apply (D12 j).
      + intros j [->|Hk]%ids_cons' Hj; [tauto|]. by apply (D13 j).
      + intros j [->|Hk]%ids_cons' Hj; [tauto|]. by apply (D14 j).
      + rewrite bytes_cons. cbn [snd]. lia.
      + by apply allG_cons.
  Qed.

  Lemma zremove_ok s t1 b1 t2 b2 id : zok s t1 b1 t2 b2 ->
    exists s', arc0_remove s id = Ok (s', bool_decide (id ∈ ids t1 \/ id ∈ ids t2)) /\
      zok s' (l_del id t1) b1 (l_del id t2) b2 /\ zkeep s s'.
  Proof.
    intros H. pose proof H as [Q1 Q2 Q3 Q4 Hsz Hcm D12 D13 D14 D23 D24 D34 Hocc C1 C2 g1 g2 g3 g4 Hp].
    unfold arc0_remove.
    assert (HR : forall q l, qok cap md q l -> exists q', q_remove q id = Ok (q', bool_decide (id ∈ ids l)) /\ qok cap md q' (l_del id l)).
    { intros q l HQ. destruct (decide (id ∈ ids l)) as [Hi|Hi].
      - rewrite bool_decide_eq_true_2 by done. by apply qok_remove_hit.
      - rewrite bool_decide_eq_false_2 by done. exists q. rewrite l_del_notin by done. split; [|done].
        by apply (qok_remove_miss _ _ _ _ HQ). }
    destruct (HR _ _ Q1) as (q1 & -> & HQ1). cbn [rbind]. destruct (HR _ _ Q3) as (q2 & -> & HQ2). cbn [rbind].
    eexists. split; [do 2 f_equal; repeat case_bool_decide; tauto|].
    split; [|done].
    pose proof (zok_t1 s _ _ _ _ q1 _ H HQ1 (del_sub _ _) (bytes_del_le _ _ _ _ id Hmd Q1) (allG_del _ _ _ g1)) as H1.
    exact (zok_t2 _ _ _ _ _ q2 _ H1 HQ2 (del_sub _ _) (bytes_del_le _ _ _ _ id Hmd Q3) (allG_del _ _ _ g3)).
  Qed.

  Lemma zset_t1_id s : z_set_t1 s (z_t1 s) = s.
  Proof. by destruct s. Qed.
  Lemma zset_t2_id s : z_set_t2 s (z_t2 s) = s.
  Proof. by destruct s. Qed.

  (** to_evict changes nothing, and names nobody or a resident. *)
  Lemma zto_evict_ok s t1 b1 t2 b2 r : zok s t1 b1 t2 b2 ->
    exists v, arc0_to_evict rnd s r = Ok (s, v) /\
      match v with None => True | Some v => v ∈ ids t1 \/ v ∈ ids t2 end.
  Proof.
    intros H.
    assert (HL : forall l v, last (ids l) = Some v -> v ∈ ids l).
    { intros l v. rewrite last_Some. intros (l' & ->). apply elem_of_app. right. left. }
    assert (HT1 : last (q_q (z_t1 s)) = last (ids t1)) by (by rewrite (qok_q _ _ _ _ (zk_t1 _ _ _ _ _ H))).
    assert (HT2 : last (q_q (z_t2 s)) = last (ids t2)) by (by rewrite (qok_q _ _ _ _ (zk_t2 _ _ _ _ _ H))).
    assert (HR : exists v, arc0_to_replace rnd s r = Ok (s, v) /\
                   match v with None => True | Some v => v ∈ ids t1 \/ v ∈ ids t2 end).
    { unfold arc0_to_replace, q_to_evict_tail. destruct (z_over rnd s); cbn [rbind].
      - exists (last (ids t1)). rewrite HT1, zset_t1_id. split; [done|]. destruct (last (ids t1)) eqn:E; [left; by apply HL|done].
      - exists (last (ids t2)). rewrite HT2, zset_t2_id. split; [done|]. destruct (last (ids t2)) eqn:E; [right; by apply HL|done]. }
    unfold arc0_to_evict, arc0_to_evict_miss. destruct (z_in_ghost s); [done|].
    destruct (z_full s r); [|done]. destruct (decide _); [done|].
    unfold q_to_evict_tail. cbn [rbind]. exists (last (ids t1)). rewrite HT1, zset_t1_id. split; [done|].
    destruct (last (ids t1)) eqn:E; [left; by apply HL|done].
  Qed.

  (** Between gets of a trace. *)
  Definition zclean (s : arc0) : Prop := z_f1 s = false /\ z_f2 s = false /\ c_adm (z_c s) = AdmNone.

  Lemma in_ghost_flags s : z_f1 s = true \/ z_f2 s = true -> z_vt s = c_nreq (z_c s) -> z_in_ghost s = true.
  Proof.
    intros Hf Hv. unfold z_in_ghost. rewrite bool_decide_eq_true_2 by done. cbn.
    destruct Hf as [-> | ->]; [done|]. apply orb_true_r.
  Qed.

  Lemma zget_ok s t1 b1 t2 b2 r fuel : zok s t1 b1 t2 b2 -> req_ok md r -> r_size r = size_of (r_id r) ->
    0 < r_size r + md -> (length t1 + length t2 <= fuel)%nat ->
    exists s' t1' b1' t2' b2',
      cache_get_base (arc0_ops rnd) fuel s r = Ok (s', bool_decide (r_id r ∈ ids t1 \/ r_id r ∈ ids t2)) /\
      zok s' t1' b1' t2' b2' /\ (length t1' + length t2' <= S (length t1 + length t2))%nat /\
      (zclean s -> r_size r + omd <= cap ->
         zclean s' /\
         REQUEST0 rnd cap (r_id r) (r_size r + md) (r_size r + omd) (absA t1 b1 t2 b2 (z_p s))
           (bool_decide (r_id r ∈ ids t1 \/ r_id r ∈ ids t2)) (absA t1' b1' t2' b2' (z_p s'))).
  Proof.
    intros H Hr Hrs Hpos Hf. unfold cache_get_base. cbn [op_tick op_find arc0_ops].
    set (s0 := z_set_c s (c_incr_nreq (z_c s))).
    assert (H0 : zok s0 t1 b1 t2 b2) by (by apply zok_c).
    destruct (zfind_true s0 t1 b1 t2 b2 r H0 Hr Hrs)
      as (s1 & u1 & v1 & u2 & v2 & -> & H1 & Hc1 & Hlen & Hby & Hcase).
    cbn [rbind].
    assert (Ha0 : c_adm (z_c s0) = c_adm (z_c s)) by done.
    change (z_p s) with (z_p s0) in *.
    destruct (bool_decide (r_id r ∈ ids t1 \/ r_id r ∈ ids t2)) eqn:Eb.
    - apply bool_decide_eq_true in Eb. exists s1, u1, v1, u2, v2. split_and!; [done|done|lia|].
      intros (Hf1 & Hf2 & Had) _.
      assert (Hin : anywhere t1 b1 t2 b2 (r_id r)) by (unfold anywhere; tauto).
      pose proof H0 as [Q1 Q2 Q3 Q4 Hsz Hcm D12 D13 D14 D23 D24 D34 Hocc C1 C2 g1 g2 g3 g4 Hp].
      destruct Hcase as [(Hn & _)|[(_ & F1 & F2 & Ep & HQ)|[(Hb & _)|(Hb & _)]]]; [done| | |].
      + split; [|apply HQ]. split_and!; [done|done|by rewrite Hc1].
      + exfalso. destruct Eb; [by apply (D12 (r_id r))|by apply (D23 (r_id r))].
      + exfalso. destruct Eb; [by apply (D14 (r_id r))|by apply (D34 (r_id r))].
    - apply bool_decide_eq_false in Eb. cbn [op_can_insert arc0_ops]. unfold arc0_can_insert, cache_can_insert_default.
      destruct (admit (c_adm (z_c s1)) r) as [adm' ok] eqn:Ea.
      assert (Hno : ~ anywhere u1 v1 u2 v2 (r_id r)).
      { destruct Hcase as [(Hn & _ & -> & -> & -> & ->)|[(Hb & _)|[(_ & Hn & _)|(_ & Hn & _)]]]; done. }
      assert (Hrej : forall c', c_size c' = c_size (z_c s1) -> c_md c' = c_md (z_c s1) ->
        (zclean s -> r_size r + omd <= cap -> False) ->
        exists (s' : arc0) (t1' b1' t2' b2' : qlist),
          Ok (z_set_c s1 c', false) = Ok (s', false) /\ zok s' t1' b1' t2' b2' /\
          (length t1' + length t2' <= S (length t1 + length t2))%nat /\
          (zclean s -> r_size r + omd <= cap -> zclean s' /\
            REQUEST0 rnd cap (r_id r) (r_size r + md) (r_size r + omd) (absA t1 b1 t2 b2 (z_p s0)) false
              (absA t1' b1' t2' b2' (z_p s')))).
      { intros c' E1 E2 E3. eexists _, u1, v1, u2, v2. split; [done|]. split; [by apply zok_c|]. split; [lia|].
        intros X Y. by destruct (E3 X Y). }
      destruct ok.
      2:{ cbn [rbind]. apply Hrej; [done|done|]. intros (_ & _ & Had) _. rewrite Hc1, Ha0, Had in Ea. done. }
      rewrite (zk_md _ _ _ _ _ H1), (zk_sz _ _ _ _ _ H1).
      destruct (decide (r_size r + omd > cap)) as [Hbig|Hfit].
      { cbn [rbind]. apply Hrej; [done|done|]. lia. }
      cbn [rbind]. set (s2 := z_set_c s1 (c_set_adm (z_c s1) adm')).
      assert (H2 : zok s2 u1 v1 u2 v2) by (by apply zok_c).
      destruct (zloop_ok r ltac:(lia) (length u1 + length u2) s2 u1 v1 u2 v2 fuel ltac:(lia) ltac:(lia) H2)
        as (s3 & w1 & x1 & w2 & x2 & -> & H3 & Hk3 & Hc3 & Hl3 & Hsub3 & HR).
      cbn [rbind op_insert arc0_ops].
      destruct (zinsert_ok s3 w1 x1 w2 x2 r H3 Hr Hrs Hpos ltac:(auto) Hc3)
        as (s4 & w1' & w2' & o & -> & H4 & Hos & Hc4 & Hp4 & Hins).
      cbn [rbind]. exists s4, w1', x1, w2', x2. split; [done|]. split; [done|].
      rewrite (zkeep_ghost _ _ Hk3) in Hins.
      split; [destruct (z_in_ghost s2); destruct Hins as (-> & -> & _); cbn [length]; lia|].
      intros (Hf1 & Hf2 & Had) _.
      assert (Ead : c_adm (z_c s4) = AdmNone).
      { rewrite Hc4. destruct Hk3 as (-> & _). cbn. rewrite Hc1, Ha0, Had in Ea. injection Ea as <-. done. }
      assert (Eg : z_in_ghost s2 = z_in_ghost s1) by done. rewrite Eg in *.
      assert (Ep : z_p s4 = z_p s1) by (rewrite Hp4; destruct Hk3 as (_ & -> & _); done).
      change (z_f2 s2) with (z_f2 s1) in HR. change (z_p s2) with (z_p s1) in HR.
      destruct Hk3 as (_ & _ & E31 & E32 & _). change (z_f1 s2) with (z_f1 s1) in E31. change (z_f2 s2) with (z_f2 s1) in E32.
      destruct Hcase as [(Hn & -> & -> & -> & -> & ->)|[(Hb & _)|[(Hb & _ & F1 & F2 & Ev & Epp & -> & -> & -> & l1 & c & l2 & El & El')|
         (Hb & _ & F1 & F2 & Ev & Epp & -> & -> & -> & l1 & c & l2 & El & El')]]].
      + assert (Hg : z_in_ghost s0 = false).
        { unfold z_in_ghost. cbn [s0 z_set_c z_f1 z_f2]. rewrite Hf1, Hf2. apply andb_false_r. }
        rewrite Hg in *. specialize (HR Hf2). destruct Hins as (-> & -> & E1 & E2). split.
        { split_and!; [by rewrite E1, E31|by rewrite E2, E32|done]. }
        rewrite Ep. unfold absA at 2. rewrite chg_cons, Hos.
        eapply (miss0 _ _ _ _ _ _ (absA w1 x1 w2 x2 (z_p s0))); [|exact HR].
        cbn [absA T1 B1 T2 B2]. rewrite !fmap_app, !chg_ids, !elem_of_app. exact Hn.
      + done.
      + assert (Hg : z_in_ghost s1 = true) by (apply in_ghost_flags; [by left|by rewrite Hc1, Ev]).
        rewrite Hg in *. destruct Hins as (-> & -> & E1 & E2). split; [by split_and!|].
        rewrite Ep. unfold absA at 2. rewrite chg_cons, Hos.
        eapply (hit0_B1 _ _ _ _ _ _ l1 c l2 (absA w1 x1 w2 x2 (z_p s1))); [exact El|].
        cbn [absA T1 B1 T2 B2 p]. rewrite F2 in HR. unfold absA at 1 in HR. rewrite El', Epp in HR. rewrite Epp. exact HR.
      + assert (Hg : z_in_ghost s1 = true) by (apply in_ghost_flags; [by right|by rewrite Hc1, Ev]).
        rewrite Hg in *. destruct Hins as (-> & -> & E1 & E2). split; [by split_and!|].
        rewrite Ep. unfold absA at 2. rewrite chg_cons, Hos.
        eapply (hit0_B2 _ _ _ _ _ _ l1 c l2 (absA w1 x1 w2 x2 (z_p s1))); [exact El|].
        cbn [absA T1 B1 T2 B2 p]. rewrite F2 in HR. unfold absA at 1 in HR. rewrite El', Epp in HR. rewrite Epp. exact HR.
  Qed.

  Lemma zlen_nobj s t1 b1 t2 b2 : zok s t1 b1 t2 b2 ->
    op_nobj (arc0_ops rnd) s = Z.of_nat (length t1 + length t2).
  Proof.
    intros H. cbn [op_nobj arc0_ops]. unfold q_nobj.
    rewrite (qok_nobj _ _ _ _ (zk_t1 _ _ _ _ _ H)), (qok_nobj _ _ _ _ (zk_t2 _ _ _ _ _ H)). lia.
  Qed.

  Lemma zstep_ok s t1 b1 t2 b2 c fuel : zok s t1 b1 t2 b2 -> ARC0_call cap md omd size_of c ->
    (length t1 + length t2 <= fuel)%nat ->
    exists s' o t1' b1' t2' b2', step (arc0_ops rnd) fuel s c = Ok (s', o) /\ zok s' t1' b1' t2' b2' /\
      (length t1' + length t2' <= S (length t1 + length t2))%nat.
  Proof.
    intros H Hc Hf. destruct c as [r|r u|r|id|r|r]; cbn [ARC0_call] in Hc; cbn [step].
    - destruct Hc as (Hr & Hpos & Hrs).
      destruct (zget_ok s t1 b1 t2 b2 r fuel H Hr Hrs Hpos Hf) as (s' & t1' & b1' & t2' & b2' & -> & H' & Hl & _).
      cbn [rbind]. by eexists _, _, t1', b1', t2', b2'.
    - destruct Hc as (Hr & Hrs). cbn [op_find arc0_ops]. destruct u.
      + destruct (zfind_true s t1 b1 t2 b2 r H Hr Hrs) as (s' & t1' & b1' & t2' & b2' & -> & H' & _ & Hl & _).
        cbn [rbind]. eexists _, _, t1', b1', t2', b2'. split_and!; [done|done|lia].
      + rewrite (zfind_false _ _ _ _ _ _ H). cbn [rbind]. eexists _, _, t1, b1, t2, b2. split_and!; [done|done|lia].
    - done.
    - cbn [op_remove arc0_ops]. destruct (zremove_ok s t1 b1 t2 b2 id H) as (s' & -> & H' & _). cbn [rbind].
      eexists _, _, _, b1, _, b2. split_and!; [done|done|].
      pose proof (length_del_le id t1). pose proof (length_del_le id t2). lia.
    - rewrite (zlen_nobj _ _ _ _ _ H). destruct (decide _) as [Hz|Hz].
      + eexists _, _, t1, b1, t2, b2. split_and!; [done|done|lia].
      + cbn [op_evict arc0_ops].
        assert (Hne : t1 <> [] \/ t2 <> []) by (destruct t1, t2; auto; cbn in Hz; lia).
        destruct (zevict_ok s t1 b1 t2 b2 r H Hne Hc) as (s' & t1' & b1' & t2' & b2' & -> & (H' & _ & Hl & _) & _).
        cbn [rbind]. eexists _, _, t1', b1', t2', b2'. split_and!; [done|done|lia].
    - rewrite (zlen_nobj _ _ _ _ _ H). destruct (decide _) as [Hz|Hz].
      + eexists _, _, t1, b1, t2, b2. split_and!; [done|done|lia].
      + cbn [op_to_evict arc0_ops]. destruct (zto_evict_ok s t1 b1 t2 b2 r H) as (v & -> & _).
        cbn [rbind]. eexists _, _, t1, b1, t2, b2. split_and!; [done|done|lia].
  Qed.

  Lemma zrun_ok cs : forall s t1 b1 t2 b2 fuel, zok s t1 b1 t2 b2 -> Forall (ARC0_call cap md omd size_of) cs ->
    (length t1 + length t2 + length cs <= fuel)%nat ->
    exists s' os t1' b1' t2' b2', run (arc0_ops rnd) fuel s cs = Ok (s', os) /\ zok s' t1' b1' t2' b2'.
  Proof.
    induction cs as [|c cs IH]; intros s t1 b1 t2 b2 fuel H Hcs Hf.
    - by eexists _, _, t1, b1, t2, b2.
    - apply Forall_cons in Hcs as [Hc Hcs]. cbn [length] in Hf. cbn [run].
      destruct (zstep_ok s t1 b1 t2 b2 c fuel H Hc ltac:(lia)) as (s1 & o & u1 & v1 & u2 & v2 & -> & H1 & Hl).
      cbn [rbind]. destruct (IH s1 u1 v1 u2 v2 fuel H1 Hcs ltac:(lia)) as (s' & os & t1' & b1' & t2' & b2' & -> & H').
      cbn [rbind]. by eexists _, _, t1', b1', t2', b2'.
  Qed.

  Lemma zgets_ok rs : forall s t1 b1 t2 b2 fuel, zok s t1 b1 t2 b2 -> zclean s ->
    Forall (fun r => req_ok md r /\ 0 < r_size r + md /\ r_size r + omd <= cap /\ r_size r = size_of (r_id r)) rs ->
    (length t1 + length t2 + length rs <= fuel)%nat ->
    exists s' bs t1' b1' t2' b2', run (arc0_ops rnd) fuel s (map CGet rs) = Ok (s', map OBool bs) /\
      zok s' t1' b1' t2' b2' /\
      REQUESTS0 rnd cap md omd (absA t1 b1 t2 b2 (z_p s)) rs bs (absA t1' b1' t2' b2' (z_p s')).
  Proof.
    induction rs as [|r rs IH]; intros s t1 b1 t2 b2 fuel H Hcl Hrs Hf.
    - exists s, [], t1, b1, t2, b2. split_and!; [done|done|]. constructor.
    - apply Forall_cons in Hrs as [(Hr & Hpos & Hfit & Hsz) Hrs]. cbn [length] in Hf. cbn [map run step].
      destruct (zget_ok s t1 b1 t2 b2 r fuel H Hr Hsz Hpos ltac:(lia)) as (s1 & u1 & v1 & u2 & v2 & -> & H1 & Hl & Hcl1).
      destruct (Hcl1 Hcl Hfit) as [Hcl2 HRQ]. cbn [rbind].
      destruct (IH s1 u1 v1 u2 v2 fuel H1 Hcl2 Hrs ltac:(lia)) as (s' & bs & t1' & b1' & t2' & b2' & -> & H' & HRS).
      cbn [rbind]. exists s', (bool_decide (r_id r ∈ ids t1 \/ r_id r ∈ ids t2) :: bs), t1', b1', t2', b2'.
      split_and!; [done|done|]. by eapply reqs0_cons.
  Qed.
End ARCv0.

Lemma zok_init rnd cap (consider : bool) size_of adm : (rnd 0 == 0)%Q -> (forall x y, (x <= y)%Q -> (rnd x <= rnd y)%Q) -> 0 <= cap ->
  zok rnd cap (if consider then 16 else 0) (if consider then 40 else 0) size_of (arc0_init consider cap adm) [] [] [] [].
Proof.
  intros Hz Hm Hcap.
  split; try done; try apply qok_init; try (intros ? ? ?; by eapply elem_of_nil); try apply Forall_nil_2.
  split; [apply Qle_refl|]. cbn [arc0_init z_p]. unfold dbl. rewrite <- Hz. apply Hm.
  change 0%Q with (inject_Z 0). by rewrite <- Zle_Qle.
Qed.
