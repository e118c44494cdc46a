(** SR_LRU and Cacheus on lists: which objects are where, youngest first. *)
From stdpp Require Import gmap list numbers fin_maps sorting.
From Verif Require Import Base Driver Abs AbsFacts Sim ModelQueue QueueFacts SimQueue ClockFacts SimClock
  QList SpecApi SpecComp CompFacts ModelLFU SimLFU ModelTwoQ ModelS3FIFO S3Facts ModelCacheus SpecCacheus CRFacts.
Open Scope Z_scope.

Definition noflag (l : qlist) : Prop := Forall (fun x => o_p2 x.2 = 0 /\ o_p3 x.2 = 0) l.
Definition within (z : Z) (l : qlist) : Prop := Forall (fun x => 1 <= o_size x.2 <= z) l.

Lemma szs_app l1 l2 : szs (l1 ++ l2) = szs l1 ++ szs l2.
Proof. apply fmap_app. Qed.

Lemma szs_cons id o l : szs ((id, o) :: l) = (id, o_size o) :: szs l.
Proof. done. Qed.

Lemma szs_eq_ids l1 l2 : szs l1 = szs l2 -> ids l1 = ids l2.
Proof. intros E. by rewrite <- !szs_ids, E. Qed.

Lemma szs_eq_bytes l1 l2 : szs l1 = szs l2 -> bytes 0 l1 = bytes 0 l2.
Proof. intros E. rewrite !(szs_bytes 0), E. apply (f_equal length) in E. rewrite !szs_length in E. lia. Qed.

Lemma within_szs z l1 l2 : szs l1 = szs l2 -> within z l1 -> within z l2.
Proof.
  revert l2. induction l1 as [|x l1 IH]; intros [|y l2] E H; try done.
  cbn in E. injection E as E1 E2 E3. apply Forall_cons in H as [H1 H2]. apply Forall_cons. split; [by rewrite <- E2|].
  by apply IH.
Qed.

Lemma within_app z l1 l2 : within z (l1 ++ l2) <-> within z l1 /\ within z l2.
Proof. apply Forall_app. Qed.

Lemma within_elem z l id o : within z l -> (id, o) ∈ l -> 1 <= o_size o <= z.
Proof. intros H Ho. unfold within in H. rewrite Forall_forall in H. by apply H in Ho. Qed.

Lemma within_bytes z l : within z l -> 0 <= bytes 0 l /\ (l <> [] -> 0 < bytes 0 l).
Proof.
  induction 1 as [|x l Hx Hl [IH _]]; [by cbn|]. rewrite bytes_cons. split; [lia|]. intros _. lia.
Qed.

Lemma within_upd z f id l : (forall o, o_size (f o) = o_size o) -> within z l -> within z (l_upd f id l).
Proof. intros Hf. apply Forall_upd. intros i o. cbn. by rewrite Hf. Qed.

Lemma elem_szs l id z : (id, z) ∈ szs l <-> exists o, (id, o) ∈ l /\ o_size o = z.
Proof.
  unfold szs. rewrite elem_of_list_fmap. split.
  - intros ([j o] & [= -> ->] & Hin). by exists o.
  - intros (o & Ho & <-). by exists (id, o).
Qed.

Lemma keep_szs (l1 l2 : qlist) : forall z, Forall (fun x => 0 <= o_size x.2) l1 -> bytes 0 l1 <= z ->
  match l2 with [] => True | x :: _ => bytes 0 (l1 ++ [x]) > z end -> keep z (szs (l1 ++ l2)) = szs l1.
Proof.
  induction l1 as [|[id o] l1 IH]; intros z HF Hb Hx; cbn [app].
  - destruct l2 as [|[id o] l2]; [done|]. cbn in Hx. rewrite szs_cons. cbn. rewrite decide_False by (cbn; lia). done.
  - rewrite !szs_cons. cbn [keep snd]. apply Forall_cons in HF as [H0 HF]. cbn in H0.
    rewrite bytes_cons in Hb. cbn [snd] in Hb.
    assert (0 <= bytes 0 l1).
    { clear -HF. induction HF as [|x l H1 H2 IH]; [done|]. rewrite bytes_cons. lia. }
    rewrite decide_True by lia. f_equal. apply IH; [done|lia|]. destruct l2 as [|y l2]; [done|].
    cbn [app] in Hx. rewrite bytes_cons in Hx. cbn [snd] in Hx. lia.
Qed.

Lemma fits_keep sz need l1 l2 l : fits sz 0 need l1 l -> l = l1 ++ l2 -> Forall (fun x => 0 <= o_size x.2) l ->
  szs l1 = keep (sz - need) (szs l) /\ szs l2 = rest (sz - need) (szs l).
Proof.
  intros (l3 & E3 & Hb1 & Hb2) -> HF. apply app_inv_head in E3 as ->.
  assert (keep (sz - need) (szs (l1 ++ l3)) = szs l1) as E.
  { apply keep_szs; [by apply Forall_app in HF as [? _]|lia|]. destruct l3; [done|lia]. }
  split; [done|]. unfold rest. rewrite E, szs_app. by rewrite drop_app.
Qed.

Lemma qok_nonneg sz q l : qok sz 0 q l -> Forall (fun x => 0 <= o_size x.2) l.
Proof. intros HQ. apply (Forall_impl _ _ _ (qok_osz _ _ _ _ HQ)). by intros x [? _]. Qed.

(** * The loops of SR_LRU *)

Section Loops.
  Context (cap : Z) (Hcap : 0 < cap).
  Notation half := (cap / 2).

  Lemma half_pos : 0 <= half < cap.
  Proof using All. split; [apply Z.div_pos; lia|]. apply Z.div_lt; lia. Qed.

  (** From the tail of R_list to SR_list. *)
  Lemma sr_demote_spec need : 0 <= need <= half -> forall lR R lS Q cd fuel,
    qok half 0 R lR -> qok half 0 Q lS -> disj lR lS -> noflag lR -> (length lR <= fuel)%nat ->
    exists R' Q' cd' l1 l2 l2', sr_demote fuel need R Q cd = Ok (R', Q', cd') /\
      lR = l1 ++ l2 /\ fits half 0 need l1 lR /\ qok half 0 R' l1 /\ qok half 0 Q' (l2' ++ lS) /\ szs l2' = szs l2.
  Proof using All.
    intros Hneed lR. induction lR as [|[v o] lR IH] using rev_ind; intros R lS Q cd fuel HR HQ Hd Hn Hf.
    - exists R, Q, cd, [], [], []. split_and!; try done.
      + destruct fuel; cbn; rewrite decide_False; try done; unfold q_occ, q_size; destruct HR; cbn in *; lia.
      + exists []. cbn. split_and!; [done|lia|done].
    - destruct (qok_snoc_lookup _ _ _ _ _ _ HR) as [Hl Ho].
      destruct (decide (q_occ R + need > q_size R)) as [Hgt|Hle].
      + destruct fuel as [|fuel]; [rewrite app_length in Hf; cbn in Hf; lia|]. cbn [sr_demote].
        rewrite decide_True by done. rewrite Hl, Ho.
        assert (Hin : (v, o) ∈ lR ++ [(v, o)]) by (apply elem_of_app; right; left).
        assert (HvS : v ∉ ids lS).
        { intros Hx. apply (Hd v); [|done]. apply ids_elem. eauto. }
        destruct (qok_insert _ _ _ _ HQ (req_of_obj v o) HvS (req_of_obj_ok _ _ _ _ _ HR Hin) ltac:(lia)) as (Q1 & -> & HQ1).
        cbn [rbind]. unfold noflag in Hn. apply Forall_app in Hn as [Hn Hnv]. apply Forall_cons in Hnv as [[_ Hp3] _].
        cbn [snd] in Hp3. rewrite decide_True by done.
        pose proof (qok_q_upd _ _ _ _ (fun o => o_set_p3 o 1) v HQ1 ltac:(done)) as HQ2.
        cbn [r_id req_of_obj] in HQ2. rewrite l_upd_head in HQ2 by done.
        destruct (qok_evict _ _ _ _ _ _ (req_of_obj v o) (Z.le_refl 0) HR) as (R1 & -> & HR1). cbn [rbind].
        pose proof (NoDup_ids_mid lR v o [] (qok_nd _ _ _ _ HR)) as (HvR & _ & _).
        rewrite app_length in Hf. cbn in Hf.
        edestruct (IH R1 _ _ (u64 (cd + 1)) fuel HR1 HQ2) as (R' & Q' & cd' & l1 & l2 & l2' & He & El & Hfit & HR' & HQ' & Hsz).
        { intros id H1 H2. cbn [ids fmap list_fmap fst] in H2. apply elem_of_cons in H2 as [->|H2]; [done|].
          apply (Hd id); [|done]. rewrite ids_app. apply elem_of_app. by left. }
        { done. }
        { lia. }
        exists R', Q', cd', l1, (l2 ++ [(v, o)]), (l2' ++ [(v, o_set_p3 (obj_of_req (req_of_obj v o)) 1)]).
        split; [exact He|]. split; [rewrite El; by rewrite <- app_assoc|]. split.
        * exists (l2 ++ [(v, o)]). rewrite El. split; [by rewrite <- app_assoc|].
          destruct Hfit as (l3 & E3 & Hb1 & Hb2). split; [done|].
          rewrite El in E3. apply app_inv_head in E3 as <-. destruct l2 as [|y l2]; [|done]. cbn.
          rewrite app_nil_r in El. subst l1. unfold q_occ, q_size in Hgt. rewrite (qok_occ _ _ _ _ HR), (qok_size _ _ _ _ HR) in Hgt. done.
        * split; [done|]. split; [by rewrite <- app_assoc|]. rewrite !szs_app, Hsz. f_equal. cbn.
          do 2 f_equal. exact (o_size_req_of_obj _ _ _ _ _ HR Hin).
      + exists R, Q, cd, (lR ++ [(v, o)]), [], []. split_and!; try done.
        * destruct fuel; cbn [sr_demote]; by rewrite decide_False.
        * by rewrite app_nil_r.
        * exists []. rewrite app_nil_r. split; [done|]. split; [|done].
          unfold q_occ, q_size in Hle. rewrite (qok_occ _ _ _ _ HR), (qok_size _ _ _ _ HR) in Hle. lia.
  Qed.

  (** From the tail of SR_list to the history; CR_LFU drops the objects too and
      leaves their frequencies in the history. *)
  Lemma sr_shrink_spec t : forall lS Q H lH x m cd cn fuel,
    qok half 0 Q lS -> qok cap 0 H lH -> crok cap 0 x t m -> disj lS lH ->
    (forall id o, (id, o) ∈ lS -> is_Some (m !! id)) -> (length lS <= fuel)%nat ->
    exists Q' H' x' cd' cn' l1 l2 l2' m', sr_shrink fuel Q H (Some x) cd cn = Ok (Q', H', Some x', cd', cn') /\
      lS = l1 ++ l2 /\ fits half 0 0 l1 lS /\ qok half 0 Q' l1 /\ qok cap 0 H' (l2' ++ lH) /\ szs l2' = szs l2 /\
      crok cap 0 x' t m' /\ (forall id, m' !! id = if decide (id ∈ ids l2) then None else m !! id) /\
      (forall id o, (id, o) ∈ l2' -> exists e, m !! id = Some e /\ o_p1 o = e_cnt e).
  Proof using All.
    intros lS. pose proof half_pos as Hh.
    induction lS as [|[v o] lS IH] using rev_ind; intros Q H lH x m cd cn fuel HQ HH HC Hd Hm Hf.
    - exists Q, H, x, cd, cn, [], [], [], m. split_and!; try done.
      + destruct fuel; cbn; rewrite decide_False; try done; unfold q_occ, q_size; destruct HQ; cbn in *; lia.
      + exists []. cbn. split_and!; [done|lia|done].
      + intros id o Ho. by apply elem_of_nil in Ho.
    - destruct (qok_snoc_lookup _ _ _ _ _ _ HQ) as [Hl Ho].
      destruct (decide (q_occ Q > q_size Q)) as [Hgt|Hle].
      + destruct fuel as [|fuel]; [rewrite app_length in Hf; cbn in Hf; lia|]. cbn [sr_shrink].
        rewrite decide_True by done. rewrite Hl, Ho.
        assert (Hin : (v, o) ∈ lS ++ [(v, o)]) by (apply elem_of_app; right; left).
        assert (HvH : v ∉ ids lH).
        { intros Hx. apply (Hd v); [|done]. apply ids_elem. eauto. }
        destruct (qok_insert _ _ _ _ HH (req_of_obj v o) HvH (req_of_obj_ok _ _ _ _ _ HQ Hin) ltac:(lia)) as (H1 & -> & HH1).
        cbn [rbind r_id req_of_obj] in HH1 |- *. destruct (Hm _ _ Hin) as [e He].
        set (o1 := obj_of_req (req_of_obj v o)) in *.
        assert (Hnote : cr_note (Some H1) v (e_cnt e) = Ok (Some (q_upd H1 v (fun o => o_set_p1 o (e_cnt e))))).
        { cbn. rewrite (proj2 (qok_lookup _ _ _ _ HH1 v o1)) by left. done. }
        destruct (cr_remove_hit cap 0 ltac:(lia) x t m _ _ v e HC He Hnote) as (x1 & -> & HC1 & _). cbn [rbind default from_option]. unfold id.
        pose proof (qok_q_upd _ _ _ _ (fun o => o_set_p1 o (e_cnt e)) v HH1 ltac:(done)) as HH2.
        rewrite l_upd_head in HH2 by done.
        assert (HFL : exists H3 cd3 cn3 o3, (let '(H, cn) := if decide (o_p2 o = 0) then (q_upd H1 v (fun o => o_set_p1 o (e_cnt e)), cn)
                    else (q_upd (q_upd H1 v (fun o => o_set_p1 o (e_cnt e))) v (fun o => o_set_p2 o 1), u64 (cn + 1)) in
                  let '(H, cd) := if decide (o_p3 o = 0) then (H, cd) else (q_upd H v (fun o => o_set_p3 o 0), u64 (cd - 1)) in
                  let! Q := q_evict_tail Q (req_of_obj v o) in sr_shrink fuel Q H (Some x1) cd cn) =
                  (let! Q := q_evict_tail Q (req_of_obj v o) in sr_shrink fuel Q H3 (Some x1) cd3 cn3) /\
                  qok cap 0 H3 ((v, o3) :: lH) /\ o_size o3 = o_size o1 /\ o_p1 o3 = e_cnt e).
        { destruct (decide (o_p2 o = 0)), (decide (o_p3 o = 0)).
          - eexists _, _, _, _. split; [reflexivity|]. split; [exact HH2|done].
          - eexists _, _, _, _. split; [reflexivity|].
            pose proof (qok_q_upd _ _ _ _ (fun o => o_set_p3 o 0) v HH2 ltac:(done)) as HH3. rewrite l_upd_head in HH3 by done.
            split; [exact HH3|done].
          - eexists _, _, _, _. split; [reflexivity|].
            pose proof (qok_q_upd _ _ _ _ (fun o => o_set_p2 o 1) v HH2 ltac:(done)) as HH3. rewrite l_upd_head in HH3 by done.
            split; [exact HH3|done].
          - eexists _, _, _, _. split; [reflexivity|].
            pose proof (qok_q_upd _ _ _ _ (fun o => o_set_p2 o 1) v HH2 ltac:(done)) as HH3. rewrite l_upd_head in HH3 by done.
            pose proof (qok_q_upd _ _ _ _ (fun o => o_set_p3 o 0) v HH3 ltac:(done)) as HH4. rewrite l_upd_head in HH4 by done.
            split; [exact HH4|done]. }
        destruct HFL as (H3 & cd3 & cn3 & o3 & -> & HH3 & Hsz3 & Hp3).
        destruct (qok_evict _ _ _ _ _ _ (req_of_obj v o) (Z.le_refl 0) HQ) as (Q1 & -> & HQ1). cbn [rbind].
        pose proof (NoDup_ids_mid lS v o [] (qok_nd _ _ _ _ HQ)) as (HvS & _ & _).
        rewrite app_length in Hf. cbn in Hf.
        edestruct (IH Q1 H3 _ x1 (delete v m) cd3 cn3 fuel HQ1 HH3 HC1)
          as (Q' & H' & x' & cd' & cn' & l1 & l2 & l2' & m' & Hrun & El & Hfit & HQ' & HH' & Hsz & HC' & Hm' & Hfr).
        { intros id Hx1 Hx2. cbn [ids fmap list_fmap fst] in Hx2. apply elem_of_cons in Hx2 as [->|Hx2]; [done|].
          apply (Hd id); [|done]. rewrite ids_app. apply elem_of_app. by left. }
        { intros id p Hp. rewrite lookup_delete_ne; [|intros <-; apply HvS, ids_elem; eauto].
          eapply Hm. apply elem_of_app. left. done. }
        { lia. }
        exists Q', H', x', cd', cn', l1, (l2 ++ [(v, o)]), (l2' ++ [(v, o3)]), m'.
        split; [exact Hrun|]. split; [rewrite El; by rewrite <- app_assoc|]. split; [|split; [done|split]].
        * exists (l2 ++ [(v, o)]). rewrite El. split; [by rewrite <- app_assoc|].
          destruct Hfit as (l3 & E3 & Hb1 & Hb2). split; [done|].
          rewrite El in E3. apply app_inv_head in E3 as <-. destruct l2 as [|y l2]; [|done]. cbn.
          rewrite app_nil_r in El. subst l1. unfold q_occ, q_size in Hgt. rewrite (qok_occ _ _ _ _ HQ), (qok_size _ _ _ _ HQ) in Hgt. lia.
        * by rewrite <- app_assoc.
        * split; [|split; [done|split]].
          -- rewrite !szs_app, Hsz. f_equal. cbn. do 2 f_equal. rewrite Hsz3. exact (o_size_req_of_obj _ _ _ _ _ HQ Hin).
          -- intros id. rewrite Hm', ids_app. cbn [ids fmap list_fmap fst].
             destruct (decide (id = v)) as [->|Hne].
             ++ rewrite lookup_delete. rewrite (decide_True (P := v ∈ _ ++ [v])) by (apply elem_of_app; right; left).
                by destruct (decide _).
             ++ rewrite lookup_delete_ne by done. destruct (decide (id ∈ ids l2)) as [Hi|Hi].
                ** rewrite decide_True; [done|]. apply elem_of_app. by left.
                ** rewrite decide_False; [done|]. intros [?|Hx%elem_of_list_singleton]%elem_of_app; done.
          -- intros id p [Hp|[= -> ->]%elem_of_list_singleton]%elem_of_app; [|by exists e].
             destruct (Hfr _ _ Hp) as (e' & He' & Hpe). apply lookup_delete_Some in He' as [_ He']. by exists e'.
      + exists Q, H, x, cd, cn, (lS ++ [(v, o)]), [], [], m. split_and!; try done.
        * destruct fuel; cbn [sr_shrink]; by rewrite decide_False.
        * by rewrite app_nil_r.
        * exists []. rewrite app_nil_r. split; [done|]. split; [|done].
          unfold q_occ, q_size in Hle. rewrite (qok_occ _ _ _ _ HQ), (qok_size _ _ _ _ HQ) in Hle. lia.
        * intros id p Hp. by apply elem_of_nil in Hp.
  Qed.

  (** The oldest entries leave the history until it is below its size. *)
  Lemma sr_trim_spec : forall lH H fuel, qok cap 0 H lH -> (length lH <= fuel)%nat ->
    exists H' l1, sr_trim fuel H = Ok H' /\ qok cap 0 H' l1 /\ fits cap 0 1 l1 lH.
  Proof using All.
    intros lH. induction lH as [|[v o] lH IH] using rev_ind; intros H fuel HH Hf.
    - exists H, []. split_and!; try done.
      + destruct fuel; cbn; rewrite decide_False; try done; unfold q_occ, q_size; destruct HH; cbn in *; lia.
      + exists []. cbn. split_and!; [done|lia|done].
    - destruct (decide (q_occ H >= q_size H)) as [Hge|Hlt].
      + destruct fuel as [|fuel]; [rewrite app_length in Hf; cbn in Hf; lia|]. cbn [sr_trim].
        rewrite decide_True by done.
        destruct (qok_evict _ _ _ _ _ _ (mkReq 0 0 0 0 0) (Z.le_refl 0) HH) as (H1 & -> & HH1). cbn [rbind]. change (r_id (req_of_obj v o)) with v in HH1.
        rewrite app_length in Hf. cbn in Hf.
        destruct (IH H1 fuel HH1 ltac:(lia)) as (H' & l1 & He & HH' & l2 & El & Hb1 & Hb2).
        exists H', l1. split; [done|]. split; [done|]. exists (l2 ++ [(v, o)]). split; [rewrite El; by rewrite <- app_assoc|].
        split; [done|]. destruct l2 as [|y l2]; [|done]. cbn. rewrite app_nil_r in El. subst l1.
        unfold q_occ, q_size in Hge. rewrite (qok_occ _ _ _ _ HH), (qok_size _ _ _ _ HH) in Hge. lia.
      + exists H, (lH ++ [(v, o)]). split; [destruct fuel; cbn [sr_trim]; by rewrite decide_False|]. split; [done|].
        exists []. rewrite app_nil_r. split; [done|]. split; [|done].
        unfold q_occ, q_size in Hlt. rewrite (qok_occ _ _ _ _ HH), (qok_size _ _ _ _ HH) in Hlt. lia.
  Qed.

  Lemma fits_head sz n x l1 l : o_size x.2 + n <= sz -> fits sz 0 n l1 (x :: l) ->
    exists l1', l1 = x :: l1' /\ fits sz 0 (o_size x.2 + n) l1' l.
  Proof using.
    intros Hx (l2 & El & Hb1 & Hb2). destruct l1 as [|y l1].
    - cbn in El. subst l2. cbn in Hb2. lia.
    - cbn in El. injection El as <- ->. exists l1. split; [done|]. exists l2. split; [done|].
      rewrite bytes_cons in Hb1. split; [lia|]. destruct l2 as [|z l2]; [done|]. cbn [app] in Hb2. rewrite bytes_cons in Hb2. lia.
  Qed.

  Lemma sr_trim_head H v o lH : qok cap 0 H ((v, o) :: lH) -> o_size o < cap ->
    exists H' l1, sr_trim (S (length (q_q H))) H = Ok H' /\ qok cap 0 H' ((v, o) :: l1) /\ fits cap 0 (o_size o + 1) l1 lH.
  Proof using All.
    intros HH Hs. destruct (sr_trim_spec _ H (S (length (q_q H))) HH) as (H' & l1 & He & HH' & Hfit).
    { rewrite (qok_q _ _ _ _ HH). unfold ids. rewrite fmap_length. lia. }
    destruct (fits_head cap 1 (v, o) l1 lH) as (l1' & -> & Hf'); [cbn; lia|done|]. exists H', l1'. by split.
  Qed.

  Lemma sr_flags_spec H v o0 lH o d cd cn : qok cap 0 H ((v, o0) :: lH) ->
    exists H' o' cd' cn', sr_flags H v o d cd cn = (H', cd', cn') /\ qok cap 0 H' ((v, o') :: lH) /\ o_size o' = o_size o0.
  Proof using.
    intros HH. assert (Hv : v ∉ ids lH) by (pose proof (qok_nd _ _ _ _ HH) as Hn; by apply NoDup_cons in Hn as [? _]).
    unfold sr_flags.
    assert (HU : forall H1 o1 f, qok cap 0 H1 ((v, o1) :: lH) -> (forall o, o_size (f o) = o_size o) ->
       qok cap 0 (q_upd H1 v f) ((v, f o1) :: lH)).
    { intros H1 o1 f HH1 Hf. pose proof (qok_q_upd _ _ _ _ f v HH1 Hf) as HH2. by rewrite l_upd_head in HH2. }
    destruct (decide (o_p2 o = 0)), (decide (o_p3 o = 0)).
    - eexists _, _, _, _. split; [reflexivity|]. by split.
    - eexists _, _, _, _. split; [reflexivity|]. split; [by apply HU|done].
    - eexists _, _, _, _. split; [reflexivity|]. split; [by apply HU|done].
    - eexists _, _, _, _. split; [reflexivity|]. split; [apply HU; [by apply HU|done]|done].
  Qed.

  (** Taking an object out of R_list or SR_list into the history. *)
  Definition taken (x : sr) (lR lS lH : qlist) (v : Z) (x' : sr) : Prop :=
    exists o o' lH1, ((v, o) ∈ lR ++ lS) /\ qok half 0 (sr_R x') (l_del v lR) /\ qok half 0 (sr_S x') (l_del v lS) /\
      qok cap 0 (sr_H x') ((v, o') :: lH1) /\ o_size o' = o_size o /\ fits cap 0 (o_size o + 1) lH1 lH.

  Section SR.
    Context (x : sr) (lR lS lH : qlist).
    Context (HR : qok half 0 (sr_R x) lR) (HS : qok half 0 (sr_S x) lS) (HH : qok cap 0 (sr_H x) lH).
    Context (WR : within half lR) (WS : within half lS).
    Context (D1 : disj lR lS) (D2 : disj lR lH) (D3 : disj lS lH).

    Lemma l_del_last (l : qlist) v o : NoDup (ids (l ++ [(v, o)])) -> l_del v (l ++ [(v, o)]) = l.
    Proof using. intros Hn. rewrite (l_del_mid _ _ _ _ Hn). by rewrite app_nil_r. Qed.

    Lemma occ_S : q_occ (sr_S x) = 0 <-> lS = [].
    Proof using All.
      unfold q_occ. rewrite (qok_occ _ _ _ _ HS). destruct (within_bytes _ _ WS) as [H1 H2]. split; [|by intros ->].
      intros E. destruct lS; [done|]. specialize (H2 ltac:(done)). lia.
    Qed.

    (** The victim: the tail of SR_list, or of R_list if SR_list is empty. *)
    Lemma sr_to_evict_spec : lR ++ lS <> [] ->
      (exists l v o, lS = l ++ [(v, o)] /\ sr_to_evict x = Some v) \/
      (lS = [] /\ exists l v o, lR = l ++ [(v, o)] /\ sr_to_evict x = Some v).
    Proof using All.
      intros Hne. unfold sr_to_evict. destruct (decide (lS = [])) as [E|E].
      - right. split; [done|]. rewrite decide_True by (by apply occ_S).
        destruct lR as [|[v o] l _] using rev_ind; [by rewrite E in Hne|]. exists l, v, o. split; [done|].
        by apply (qok_snoc_lookup _ _ _ _ _ _ HR).
      - left. rewrite decide_False by (by intros ?%occ_S).
        destruct lS as [|[v o] l _] using rev_ind; [done|]. exists l, v, o. split; [done|].
        by apply (qok_snoc_lookup _ _ _ _ _ _ HS).
    Qed.

    Lemma sr_evict_spec v r : sr_to_evict x = Some v -> lR ++ lS <> [] ->
      exists x', sr_evict x r = Ok x' /\ taken x lR lS lH v x'.
    Proof using All.
      intros Hv Hne. pose proof half_pos as Hh. unfold sr_evict. rewrite Hv.
      assert (HQ : exists o, c_tbl (q_c (if decide (q_occ (sr_S x) = 0) then sr_R x else sr_S x)) !! v = Some o /\
        (v, o) ∈ lR ++ lS /\ v ∉ ids lH /\
        exists R Q, (if decide (q_occ (sr_S x) > 0) then let! Q := q_evict_tail (sr_S x) r in Ok (sr_R x, Q)
                     else let! R := q_evict_tail (sr_R x) r in Ok (R, sr_S x)) = Ok (R, Q) /\
          qok half 0 R (l_del v lR) /\ qok half 0 Q (l_del v lS)).
      { destruct (sr_to_evict_spec Hne) as [(l & v' & o & El & Hv')|(E & l & v' & o & El & Hv')];
          rewrite Hv in Hv'; injection Hv' as <-.
        - pose proof HS as HS1. rewrite El in HS1. destruct (qok_snoc_lookup _ _ _ _ _ _ HS1) as [_ Ho].
          assert (lS <> []) as Hn by (rewrite El; by destruct l). rewrite decide_False by (by intros ?%occ_S).
          assert (Hin : (v, o) ∈ lS) by (rewrite El; apply elem_of_app; right; left).
          assert (v ∈ ids lS) by (apply ids_elem; eauto).
          exists o. split; [done|]. split; [apply elem_of_app; by right|]. split; [intros ?; by apply (D3 v)|].
          assert (q_occ (sr_S x) > 0) as Hp.
          { unfold q_occ. rewrite (qok_occ _ _ _ _ HS). destruct (within_bytes _ _ WS) as [_ H2]. specialize (H2 Hn). lia. }
          rewrite decide_True by done.
          destruct (qok_evict _ _ _ _ _ _ r (Z.le_refl 0) HS1) as (Q & -> & HQ'). cbn [rbind]. exists (sr_R x), Q.
          split; [done|]. rewrite El, l_del_last by apply HS1. split; [|done].
          rewrite l_del_notin; [done|]. intros ?. by apply (D1 v).
        - pose proof HR as HR1. rewrite El in HR1. destruct (qok_snoc_lookup _ _ _ _ _ _ HR1) as [_ Ho].
          assert (q_occ (sr_S x) = 0) as Hz by (by apply occ_S). rewrite decide_True by done.
          assert (Hin : (v, o) ∈ lR) by (rewrite El; apply elem_of_app; right; left).
          assert (v ∈ ids lR) by (apply ids_elem; eauto).
          exists o. split; [done|]. split; [apply elem_of_app; by left|]. split; [intros ?; by apply (D2 v)|].
          rewrite decide_False by lia.
          destruct (qok_evict _ _ _ _ _ _ r (Z.le_refl 0) HR1) as (R & -> & HR'). cbn [rbind]. exists R, (sr_S x).
          split; [done|]. rewrite El, l_del_last by apply HR1. split; [done|]. pose proof HS as HS1. rewrite E in HS1 |- *. done. }
      destruct HQ as (o & -> & Hin & HvH & R & Q & HRQ & HR' & HQ').
      assert (Hok : req_ok 0 (req_of_obj v o) /\ o_size (obj_of_req (req_of_obj v o)) = o_size o /\ o_size o < cap).
      { apply elem_of_app in Hin as [Hin|Hin].
        - split; [exact (req_of_obj_ok _ _ _ _ _ HR Hin)|]. split; [exact (o_size_req_of_obj _ _ _ _ _ HR Hin)|].
          pose proof (within_elem _ _ _ _ WR Hin). lia.
        - split; [exact (req_of_obj_ok _ _ _ _ _ HS Hin)|]. split; [exact (o_size_req_of_obj _ _ _ _ _ HS Hin)|].
          pose proof (within_elem _ _ _ _ WS Hin). lia. }
      destruct Hok as (Hok & Hsz & Hlt).
      destruct (qok_insert _ _ _ _ HH (req_of_obj v o) HvH Hok ltac:(lia)) as (H1 & -> & HH1). cbn [rbind]. change (r_id (req_of_obj v o)) with v in HH1.
      destruct (sr_flags_spec _ _ _ _ o 1 (sr_cd x) (sr_cn x) HH1) as (H2 & o2 & cd & cn & -> & HH2 & Hsz2).
      rewrite HRQ. cbn [rbind].
      destruct (sr_trim_head _ _ _ _ HH2) as (H3 & lH1 & -> & HH3 & Hfit); [lia|]. cbn [rbind].
      eexists. split; [done|]. exists o, o2, lH1. cbn [sr_R sr_S sr_H].
      split; [done|]. split; [done|]. split; [done|]. split; [exact HH3|]. split; [lia|].
      replace (o_size o) with (o_size o2) by lia. done.
    Qed.

    Lemma sr_remove_spec v : v ∈ ids (lR ++ lS) ->
      exists x', sr_remove x v = Ok (x', true) /\ taken x lR lS lH v x'.
    Proof using All.
      intros Hv. pose proof half_pos as Hh. unfold sr_remove.
      assert (HQ : exists o (inR : bool), (match c_tbl (q_c (sr_R x)) !! v with
         | Some o => Some (o, true)
         | None => match c_tbl (q_c (sr_S x)) !! v with
                   | Some o => Some (o, false)
                   | None => None
                   end
         end) = Some (o, inR) /\ (v, o) ∈ lR ++ lS /\ v ∉ ids lH /\
         exists R Q, (if inR then let! (R, _) := q_remove (sr_R x) v in Ok (R, sr_S x)
                     else let! (Q, _) := q_remove (sr_S x) v in Ok (sr_R x, Q)) = Ok (R, Q) /\
          qok half 0 R (l_del v lR) /\ qok half 0 Q (l_del v lS)).
      { rewrite ids_app in Hv. destruct (c_tbl (q_c (sr_R x)) !! v) as [o|] eqn:E.
        - apply (qok_lookup _ _ _ _ HR) in E. assert (v ∈ ids lR) as HvR by (apply ids_elem; eauto).
          exists o, true. split; [done|]. split; [apply elem_of_app; by left|]. split; [intros ?; by apply (D2 v)|].
          destruct (qok_remove_hit _ _ _ _ HR v ltac:(lia) HvR) as (R & -> & HR'). cbn [rbind]. exists R, (sr_S x).
          split; [done|]. split; [done|]. rewrite l_del_notin; [done|]. intros ?. by apply (D1 v).
        - apply (qok_lookup_None _ _ _ _ HR) in E. apply elem_of_app in Hv as [?|HvS]; [done|].
          pose proof HvS as (o & Ho)%ids_elem. rewrite (proj2 (qok_lookup _ _ _ _ HS v o) Ho).
          exists o, false. split; [done|]. split; [apply elem_of_app; by right|]. split; [intros ?; by apply (D3 v)|].
          destruct (qok_remove_hit _ _ _ _ HS v ltac:(lia) HvS) as (Q & -> & HQ'). cbn [rbind]. exists (sr_R x), Q.
          split; [done|]. split; [by rewrite l_del_notin|done]. }
      destruct HQ as (o & inR & -> & Hin & HvH & R & Q & HRQ & HR' & HQ').
      assert (Hok : req_ok 0 (req_of_obj v o) /\ o_size (obj_of_req (req_of_obj v o)) = o_size o /\ o_size o < cap).
      { apply elem_of_app in Hin as [Hin|Hin].
        - split; [exact (req_of_obj_ok _ _ _ _ _ HR Hin)|]. split; [exact (o_size_req_of_obj _ _ _ _ _ HR Hin)|].
          pose proof (within_elem _ _ _ _ WR Hin). lia.
        - split; [exact (req_of_obj_ok _ _ _ _ _ HS Hin)|]. split; [exact (o_size_req_of_obj _ _ _ _ _ HS Hin)|].
          pose proof (within_elem _ _ _ _ WS Hin). lia. }
      destruct Hok as (Hok & Hsz & Hlt).
      destruct (qok_insert _ _ _ _ HH (req_of_obj v o) HvH Hok ltac:(lia)) as (H1 & -> & HH1). cbn [rbind]. change (r_id (req_of_obj v o)) with v in HH1.
      destruct (sr_flags_spec _ _ _ _ o 0 (sr_cd x) (sr_cn x) HH1) as (H2 & o2 & cd & cn & -> & HH2 & Hsz2).
      rewrite HRQ. cbn [rbind].
      destruct (sr_trim_head _ _ _ _ HH2) as (H3 & lH1 & -> & HH3 & Hfit); [lia|]. cbn [rbind].
      eexists. split; [done|]. exists o, o2, lH1. cbn [sr_R sr_S sr_H].
      split; [done|]. split; [done|]. split; [done|]. split; [exact HH3|]. split; [lia|].
      replace (o_size o) with (o_size o2) by lia. done.
    Qed.

    Lemma sr_remove_miss v : v ∉ ids (lR ++ lS) -> sr_remove x v = Ok (x, false).
    Proof using HR HS.
      rewrite ids_app, not_elem_of_app. intros [H1 H2]. unfold sr_remove.
      by rewrite (proj2 (qok_lookup_None _ _ _ _ HR v) H1), (proj2 (qok_lookup_None _ _ _ _ HS v) H2).
    Qed.
  End SR.
End Loops.

(** * Cacheus *)

(** Lists with the same ids and sizes. *)
Lemma perm_ids L L' : szs L ≡ₚ szs L' -> ids L ≡ₚ ids L'.
Proof. intros HP. rewrite <- !szs_ids. by apply fmap_Permutation. Qed.

Lemma perm_bytes L L' : szs L ≡ₚ szs L' -> bytes 0 L = bytes 0 L'.
Proof.
  intros HP. rewrite !(szs_bytes 0).
  assert (total_bytes (szs L) = total_bytes (szs L')); [|lia].
  unfold total_bytes. induction HP; cbn; try lia.
Qed.

Lemma perm_within z L L' : szs L ≡ₚ szs L' -> within z L -> within z L'.
Proof.
  intros HP HW. unfold within in *. rewrite Forall_forall in *. intros [id o] Ho. cbn.
  assert (Hin : (id, o_size o) ∈ szs L') by (apply elem_szs; eauto). rewrite <- HP in Hin.
  apply elem_szs in Hin as (o1 & Ho1 & <-). exact (HW _ Ho1).
Qed.

Lemma perm_disj L L' l : szs L ≡ₚ szs L' -> disj L l -> disj L' l.
Proof. intros HP Hd id H1 H2. apply (Hd id); [|done]. by rewrite (perm_ids _ _ HP). Qed.

Lemma perm_disj_r L L' l : szs L ≡ₚ szs L' -> disj l L -> disj l L'.
Proof. intros HP Hd. apply disj_comm, (perm_disj _ _ _ HP), disj_comm, Hd. Qed.

Lemma perm_nodup L L' : szs L ≡ₚ szs L' -> NoDup (ids L) -> NoDup (ids L').
Proof. intros HP. by rewrite (perm_ids _ _ HP). Qed.

Lemma szs_upd_hit r id l : szs (l_upd (o_hit r) id l) = szs l.
Proof.
  unfold szs, l_upd. rewrite <- list_fmap_compose. apply list_fmap_ext. intros i [j o] _. cbn.
  by destruct (decide (j = id)).
Qed.

Lemma perm_to_head id o o' l : NoDup (ids l) -> (id, o) ∈ l -> o_size o' = o_size o ->
  szs ((id, o') :: l_del id l) ≡ₚ szs l.
Proof.
  intros Hn (l1 & l2 & ->)%split_at Hs. rewrite (l_del_mid _ _ _ _ Hn). cbn. rewrite Hs, !szs_app. cbn.
  by rewrite Permutation_middle.
Qed.

Lemma szs_del id l : szs (l_del id l) = filter (fun x => x.1 <> id) (szs l).
Proof.
  induction l as [|[j o] l IH]; [done|]. unfold l_del, szs in *. cbn [fmap list_fmap fst snd].
  destruct (decide (j = id)) as [->|Hne].
  - rewrite !filter_cons_False by (cbn; tauto). exact IH.
  - rewrite !filter_cons_True by done. cbn. f_equal. exact IH.
Qed.

Lemma l_del_perm id L L' : szs L ≡ₚ szs L' -> szs (l_del id L) ≡ₚ szs (l_del id L').
Proof. intros HP. rewrite !szs_del. by apply filter_Permutation. Qed.

Lemma q_remove_any sz s l id : qok sz 0 s l -> exists s' b, q_remove s id = Ok (s', b) /\ qok sz 0 s' (l_del id l).
Proof.
  intros HQ. destruct (decide (id ∈ ids l)) as [Hin|Hn].
  - destruct (qok_remove_hit _ _ _ _ HQ id (Z.le_refl 0) Hin) as (s' & He & HQ'). eauto.
  - exists s, false. split; [by apply (qok_remove_miss _ _ _ _ HQ)|]. by rewrite l_del_notin.
Qed.

Section Cacheus.
  Context {W : Type} (reweigh : bool -> bool -> W -> W) (relearn : Z -> W -> W) (draw : W -> bool * W).
  Context (cap : Z) (Hcap : 0 < cap).
  Notation half := (cap / 2).
  Notation ops := (cu_ops reweigh draw).

  Record cuok (s : cacheus W) (lR lS lH : qlist) (t : Z) (m : gmap Z entry) (lgl lgf : qlist) : Prop := mkCuok {
    k_size : c_size (cu_c s) = cap;
    k_md   : c_md (cu_c s) = 0;
    k_nreq : 0 <= c_nreq (cu_c s);
    k_gen  : cu_gen s <= 0;
    k_zero : c_nreq (cu_c s) = 0 -> lR ++ lS = [];
    k_R    : qok half 0 (sr_R (cu_sr s)) lR;
    k_S    : qok half 0 (sr_S (cu_sr s)) lS;
    k_H    : qok cap 0 (sr_H (cu_sr s)) lH;
    k_gl   : qok half 0 (cu_gl s) lgl;
    k_gf   : qok half 0 (cu_gf s) lgf;
    k_flag : noflag lR;
    k_nd   : NoDup (ids (lR ++ lS));
    k_dH   : disj (lR ++ lS) lH;
    k_bR   : bytes 0 lR <= half;
    k_b    : bytes 0 (lR ++ lS) <= cap;
    k_bH   : bytes 0 lH < cap;
    k_w    : within half (lR ++ lS);
    k_C    : crok cap 0 (cu_lfu s) t m;
    k_same : forall id z, (id, z) ∈ szs (lR ++ lS) <-> exists e, m !! id = Some e /\ e_size e = z;
    k_mem  : Forall (fun x => 1 <= o_p1 x.2) lH;
    k_min  : m = ∅ -> l_min (cu_lfu s) = -1 \/ lH = [];
    k_dgl  : disj lgl (lR ++ lS);
    k_dgf  : disj lgf (lR ++ lS);
    k_dg   : disj lgl lgf
  }.

  Lemma k_in s lR lS lH t m lgl lgf : cuok s lR lS lH t m lgl lgf ->
    forall id, id ∈ ids (lR ++ lS) <-> is_Some (m !! id).
  Proof using.
    intros HK id. rewrite ids_elem. split.
    - intros (o & Ho). destruct (proj1 (k_same _ _ _ _ _ _ _ _ HK id (o_size o))) as (e & He & _); [|eauto].
      apply elem_szs. eauto.
    - intros (e & He). destruct (proj1 (elem_szs _ _ _) (proj2 (k_same _ _ _ _ _ _ _ _ HK id (e_size e)) ltac:(eauto))) as (o & Ho).
      exists o. apply Ho.
  Qed.

  Lemma k_none s lR lS lH t m lgl lgf id : cuok s lR lS lH t m lgl lgf -> id ∉ ids (lR ++ lS) -> m !! id = None.
  Proof using.
    intros HK Hn. destruct (m !! id) eqn:E; [|done]. exfalso. apply Hn. eapply k_in; [done|]. rewrite E. eauto.
  Qed.

  Lemma k_d1 s lR lS lH t m lgl lgf : cuok s lR lS lH t m lgl lgf -> disj lR lS.
  Proof using.
    intros HK id H1 H2. pose proof (k_nd _ _ _ _ _ _ _ _ HK) as Hn. rewrite ids_app in Hn.
    apply NoDup_app in Hn as (_ & Hn & _). by apply (Hn id).
  Qed.
  Lemma k_d2 s lR lS lH t m lgl lgf : cuok s lR lS lH t m lgl lgf -> disj lR lH.
  Proof using.
    intros HK id H1. apply (k_dH _ _ _ _ _ _ _ _ HK). rewrite ids_app. apply elem_of_app. by left.
  Qed.
  Lemma k_d3 s lR lS lH t m lgl lgf : cuok s lR lS lH t m lgl lgf -> disj lS lH.
  Proof using.
    intros HK id H1. apply (k_dH _ _ _ _ _ _ _ _ HK). rewrite ids_app. apply elem_of_app. by right.
  Qed.

  Lemma cu_find_false s lR lS lH t m lgl lgf r : cuok s lR lS lH t m lgl lgf ->
    cu_find reweigh s r false = Ok (s, bool_decide (r_id r ∈ ids (lR ++ lS))).
  Proof using.
    intros HK. unfold cu_find, sr_find.
    rewrite (qok_lru_false _ _ _ _ (k_R _ _ _ _ _ _ _ _ HK)). cbn [rbind].
    rewrite (qok_lru_false _ _ _ _ (k_S _ _ _ _ _ _ _ _ HK)). cbn [rbind].
    rewrite andb_false_r. cbn [andb rbind].
    rewrite (cr_find_false cap 0 ltac:(lia) _ _ _ r (k_C _ _ _ _ _ _ _ _ HK)). cbn [rbind].
    destruct s as [c [R Q H cd cn] l gl gf h w ca g]. cbn. do 2 f_equal.
    rewrite ids_app. apply eq_true_iff_eq. rewrite orb_true_iff, !bool_decide_eq_true, elem_of_app. done.
  Qed.

  Lemma cu_find_miss s lR lS lH t m lgl lgf r : cuok s lR lS lH t m lgl lgf -> r_id r ∉ ids (lR ++ lS) ->
    exists s', cu_find reweigh s r true = Ok (s', false) /\
      cuok s' lR lS lH t m (l_del (r_id r) lgl) (l_del (r_id r) lgf) /\
      cu_c s' = cu_c s /\ cu_sr s' = cu_sr s /\ cu_lfu s' = cu_lfu s /\ cu_hit s' = cu_hit s /\
      cu_w s' = reweigh (bool_decide (r_id r ∈ ids lgl)) (bool_decide (r_id r ∈ ids lgf)) (cu_w s).
  Proof using.
    intros HK Hn. pose proof Hn as Hn'.
    rewrite ids_app in Hn'. apply not_elem_of_app in Hn' as [HnR HnS].
    unfold cu_find, sr_find.
    rewrite (qok_lru_miss _ _ _ _ (k_R _ _ _ _ _ _ _ _ HK)) by done. cbn [rbind].
    rewrite (qok_lru_miss _ _ _ _ (k_S _ _ _ _ _ _ _ _ HK)) by done. cbn [rbind andb orb].
    rewrite (cr_find_miss cap 0 ltac:(lia) _ _ _ r true (k_C _ _ _ _ _ _ _ _ HK)) by (by eapply k_none). cbn [rbind].
    cbn [cu_upd cu_gl cu_gf].
    rewrite (qok_lru_false _ _ _ _ (k_gl _ _ _ _ _ _ _ _ HK)). cbn [rbind].
    rewrite (qok_lru_false _ _ _ _ (k_gf _ _ _ _ _ _ _ _ HK)). cbn [rbind].
    destruct (q_remove_any _ _ _ (r_id r) (k_gl _ _ _ _ _ _ _ _ HK)) as (gl & b1 & -> & Hgl). cbn [rbind].
    destruct (q_remove_any _ _ _ (r_id r) (k_gf _ _ _ _ _ _ _ _ HK)) as (gf & b2 & -> & Hgf). cbn [rbind].
    eexists. split; [done|].
    assert (mkSR (sr_R (cu_sr s)) (sr_S (cu_sr s)) (sr_H (cu_sr s)) (sr_cd (cu_sr s)) (sr_cn (cu_sr s)) = cu_sr s) as E
      by (by destruct (cu_sr s)).
    cbn. rewrite E. split; [|done]. destruct HK. split; cbn; try done.
    - eapply disj_sub; [apply del_sub| |exact k_dgl0]. done.
    - eapply disj_sub; [apply del_sub| |exact k_dgf0]. done.
    - eapply disj_sub; [apply del_sub|apply del_sub|exact k_dg0].
  Qed.

  (** What stays the same on a hit. *)
  Lemma same_touch (L L' : qlist) (m : gmap Z entry) t r e : szs L' ≡ₚ szs L -> m !! r_id r = Some e ->
    (forall id z, (id, z) ∈ szs L <-> exists e, m !! id = Some e /\ e_size e = z) ->
    forall id z, (id, z) ∈ szs L' <-> exists e', <[r_id r := touch t r e]> m !! id = Some e' /\ e_size e' = z.
  Proof using.
    intros HP He HS id z. rewrite HP, HS. destruct (decide (id = r_id r)) as [->|Hne].
    - rewrite lookup_insert, He. split; intros (e' & [= <-] & <-); by eexists.
    - by rewrite lookup_insert_ne.
  Qed.

  (** A hit: the object goes to the head of R_list; objects at the tail of R_list
      may go to SR_list. *)
  Lemma cu_find_hit s lR lS lH t m lgl lgf r e : cuok s lR lS lH t m lgl lgf -> m !! r_id r = Some e ->
    exists s' o' lR1 lR' lS', cu_find reweigh s r true = Ok (s', true) /\
      cuok s' lR' lS' lH (t + 1) (<[r_id r := touch t r e]> m) lgl lgf /\
      cu_c s' = cu_c s /\ cu_hit s' = cu_hit s + 1 /\ cu_w s' = cu_w s /\ sr_H (cu_sr s') = sr_H (cu_sr s) /\
      o_size o' = e_size e /\ lR' = (r_id r, o') :: lR1 /\ fits half 0 (e_size e) lR1 (l_del (r_id r) lR) /\
      szs (lR' ++ lS') ≡ₚ szs (lR ++ lS) /\
      (exists l2, l_del (r_id r) lR = lR1 ++ l2 /\ szs lS' = szs l2 ++ szs (l_del (r_id r) lS)).
  Proof using All.
    intros HK He. pose proof (half_pos cap Hcap) as Hh.
    destruct (cr_find_hit cap 0 ltac:(lia) _ _ _ r e (k_C _ _ _ _ _ _ _ _ HK) He) as (l' & Hl & HC' & _).
    destruct (cr_min_node cap 0 ltac:(lia) _ _ _ HC') as (mnd & _); [intros E; by apply (insert_non_empty m (r_id r) (touch t r e))|].
    assert (Hne : <[r_id r := touch t r e]> m <> ∅) by apply insert_non_empty.
    destruct (proj1 (elem_szs _ _ _) (proj2 (k_same _ _ _ _ _ _ _ _ HK (r_id r) (e_size e)) ltac:(eauto))) as (o & Ho & Hoz).
    pose proof (k_d1 _ _ _ _ _ _ _ _ HK) as D1.
    pose proof (within_elem _ _ _ _ (k_w _ _ _ _ _ _ _ _ HK) Ho) as Hw.
    unfold cu_find, sr_find. apply elem_of_app in Ho as [Ho|Ho].
    - (* in R_list *)
      assert (HinR : r_id r ∈ ids lR) by (apply ids_elem; eauto).
      assert (HnS : r_id r ∉ ids lS) by (intros ?; by apply (D1 (r_id r))).
      destruct (qok_lru_hit _ _ _ _ r (k_R _ _ _ _ _ _ _ _ HK) HinR) as (R' & o' & -> & (o2 & Ho2 & ->) & HR'). cbn [rbind].
      assert (o2 = o) as ->.
      { apply (qok_lookup _ _ _ _ (k_R _ _ _ _ _ _ _ _ HK)) in Ho, Ho2. congruence. }
      rewrite (qok_lru_miss _ _ _ _ (k_S _ _ _ _ _ _ _ _ HK)) by done. cbn [rbind andb orb].
      rewrite Hl. cbn [rbind].
      assert (HP1 : szs ((r_id r, o_hit r o) :: l_del (r_id r) lR) ≡ₚ szs lR).
      { apply (perm_to_head _ o); [apply (k_R _ _ _ _ _ _ _ _ HK)|done|done]. }
      assert (HP : szs (((r_id r, o_hit r o) :: l_del (r_id r) lR) ++ lS) ≡ₚ szs (lR ++ lS)).
      { rewrite !szs_app. by rewrite HP1. }
      eexists _, (o_hit r o), (l_del (r_id r) lR), ((r_id r, o_hit r o) :: l_del (r_id r) lR), lS. split; [done|]. split.
      + destruct HK. split; cbn [cu_upd cu_c cu_sr cu_lfu cu_gl cu_gf cu_gen sr_R sr_S sr_H]; try done.
        * intros E. specialize (k_zero0 E). apply app_nil in k_zero0 as [-> ->]. by apply elem_of_nil in Ho.
        * apply Forall_cons. split; [|by apply Forall_del].
          unfold noflag in k_flag0. rewrite Forall_forall in k_flag0. apply k_flag0 in Ho. exact Ho.
        * by eapply perm_nodup; [symmetry|].
        * by eapply perm_disj; [symmetry|].
        * by rewrite (perm_bytes _ _ HP1).
        * by rewrite (perm_bytes _ _ HP).
        * by eapply perm_within; [symmetry|].
        * by eapply same_touch.
        * by eapply perm_disj_r; [symmetry|].
        * by eapply perm_disj_r; [symmetry|].
      + split; [done|]. split; [done|]. split; [done|]. split; [done|]. split; [by cbn|]. split; [done|]. split; [|split; [done|]].
        * exists []. rewrite app_nil_r. split; [done|]. split; [|done].
          rewrite (bytes_del 0 (r_id r) o) by (done || apply (k_R _ _ _ _ _ _ _ _ HK)).
          pose proof (k_bR _ _ _ _ _ _ _ _ HK). lia.
        * exists []. rewrite app_nil_r. split; [done|]. cbn. by rewrite l_del_notin.
    - (* in SR_list *)
      assert (HinS : r_id r ∈ ids lS) by (apply ids_elem; eauto).
      assert (HnR : r_id r ∉ ids lR) by (intros ?; by apply (D1 (r_id r))).
      rewrite (qok_lru_miss _ _ _ _ (k_R _ _ _ _ _ _ _ _ HK)) by done. cbn [rbind].
      destruct (qok_lru_hit _ _ _ _ r (k_S _ _ _ _ _ _ _ _ HK) HinS) as (Q' & o' & -> & (o2 & Ho2 & ->) & HQ'). cbn [rbind].
      assert (o2 = o) as ->.
      { apply (qok_lookup _ _ _ _ (k_S _ _ _ _ _ _ _ _ HK)) in Ho, Ho2. congruence. }
      cbn [andb negb]. assert (Hin' : (r_id r, o_hit r o) ∈ (r_id r, o_hit r o) :: l_del (r_id r) lS) by left.
      rewrite (proj2 (qok_lookup _ _ _ _ HQ' (r_id r) (o_hit r o)) Hin').
      destruct (qok_insert _ _ _ _ (k_R _ _ _ _ _ _ _ _ HK) (req_of_obj (r_id r) (o_hit r o)) HnR
                  (req_of_obj_ok _ _ _ _ _ HQ' Hin') ltac:(lia)) as (R1 & -> & HR1). cbn [rbind].
      change (r_id (req_of_obj (r_id r) (o_hit r o))) with (r_id r) in HR1.
      pose proof (o_size_req_of_obj _ _ _ _ _ HQ' Hin') as Hs1. change (o_size (o_hit r o)) with (o_size o) in Hs1.
      set (o1 := obj_of_req (req_of_obj (r_id r) (o_hit r o))) in *.
      destruct (qok_remove_hit _ _ _ _ HQ' (r_id r) (Z.le_refl 0)) as (Q1 & -> & HQ1); [by left|]. cbn [rbind].
      assert (l_del (r_id r) ((r_id r, o_hit r o) :: l_del (r_id r) lS) = l_del (r_id r) lS) as E.
      { unfold l_del at 1. rewrite filter_cons_False by (cbn; tauto). apply l_del_notin. rewrite elem_ids_del. tauto. }
      rewrite E in HQ1. clear E.
      edestruct (sr_demote_spec cap Hcap 0 ltac:(lia) _ R1 _ Q1 (sr_cd (cu_sr s)) (length (q_q R1)) HR1 HQ1)
        as (R2 & Q2 & cd & l1 & l2 & l2' & -> & El & Hfit & HR2 & HQ2 & Hsz).
      { intros id H1 H2. cbn [ids fmap list_fmap fst] in H1. apply elem_ids_del in H2 as [H2 Hne2].
        apply elem_of_cons in H1 as [->|H1]; [done|]. by apply (D1 id). }
      { apply Forall_cons. split; [done|]. apply HK. }
      { rewrite (qok_q _ _ _ _ HR1). unfold ids. by rewrite fmap_length. }
      cbn [rbind].
      destruct (fits_head half 0 (r_id r, o1) l1 lR) as (l1' & E1 & Hfit'); [cbn [snd]; lia|done|].
      cbn [snd] in Hfit'. rewrite E1 in El, HR2. cbn in El. injection El as ElR.
      rewrite (proj2 (qok_lookup _ _ _ _ HR2 (r_id r) o1)) by left.
      rewrite decide_True by done. cbn [rbind]. rewrite Hl. cbn [rbind].
      assert (HP : szs (((r_id r, o1) :: l1') ++ l2' ++ l_del (r_id r) lS) ≡ₚ szs (lR ++ lS)).
      { rewrite !szs_app, Hsz, ElR, szs_app, <- !app_assoc, szs_cons, Hs1.
        pose proof (perm_to_head (r_id r) o o lS (qok_nd _ _ _ _ (k_S _ _ _ _ _ _ _ _ HK)) Ho eq_refl) as HP2.
        rewrite szs_cons in HP2. rewrite <- HP2. cbn [app]. by rewrite !Permutation_middle. }
      eexists _, o1, l1', ((r_id r, o1) :: l1'), (l2' ++ l_del (r_id r) lS). split; [done|]. split.
      + destruct HK. split; cbn [cu_upd cu_c cu_sr cu_lfu cu_gl cu_gf cu_gen sr_R sr_S sr_H]; try done.
        * intros E. specialize (k_zero0 E). apply app_nil in k_zero0 as [-> ->]. by apply elem_of_nil in Ho.
        * apply Forall_cons. split; [done|]. unfold noflag in k_flag0. rewrite ElR in k_flag0. by apply Forall_app in k_flag0 as [? _].
        * by eapply perm_nodup; [symmetry|].
        * by eapply perm_disj; [symmetry|].
        * destruct Hfit' as (? & _ & Hb & _). rewrite bytes_cons. cbn [snd]. lia.
        * by rewrite (perm_bytes _ _ HP).
        * by eapply perm_within; [symmetry|].
        * by eapply same_touch.
        * by eapply perm_disj_r; [symmetry|].
        * by eapply perm_disj_r; [symmetry|].
      + split; [done|]. split; [done|]. split; [done|]. split; [done|]. split; [lia|]. split; [done|].
        rewrite (l_del_notin (r_id r) lR) by done.
        replace (e_size e) with (o_size o1 + 0) by lia. split; [done|]. split; [done|].
        exists l2. split; [done|]. by rewrite szs_app, Hsz.
  Qed.

  (** After the new object is in R_list or at the head of SR_list. *)
  Lemma cu_insert_tail R Q H lR lS lH l t m k cd cn :
    qok half 0 R lR -> qok half 0 Q lS -> qok cap 0 H lH -> NoDup (ids (lR ++ lS)) -> disj (lR ++ lS) lH ->
    within half (lR ++ lS) -> crok cap 0 l t m ->
    (forall id z, (id, z) ∈ szs (lR ++ lS) <-> exists e, m !! id = Some e /\ e_size e = z) ->
    Forall (fun x => 1 <= o_p1 x.2) lH -> (k ∈ ids lR \/ exists o l', lS = (k, o) :: l') ->
    exists Q' H1 H' l' cd' cn' lS' lH' m',
      sr_shrink (length (q_q Q)) Q H (Some l) cd cn = Ok (Q', H1, Some l', cd', cn') /\
      sr_trim (S (length (q_q H1))) H1 = Ok H' /\
      qok half 0 Q' lS' /\ qok cap 0 H' lH' /\ crok cap 0 l' t m' /\
      szs lS' = keep half (szs lS) /\ szs lH' = keep (cap - 1) (rest half (szs lS) ++ szs lH) /\
      bytes 0 lH' < cap /\ bytes 0 lS' <= half /\ szs lS = szs lS' ++ rest half (szs lS) /\
      (forall id, m' !! id = if decide (id ∈ (rest half (szs lS)).*1) then None else m !! id) /\
      k ∈ ids (lR ++ lS') /\ NoDup (ids (lR ++ lS')) /\ disj (lR ++ lS') lH' /\ within half (lR ++ lS') /\
      (forall id z, (id, z) ∈ szs (lR ++ lS') <-> exists e, m' !! id = Some e /\ e_size e = z) /\
      (forall id o, (id, o) ∈ lH' -> (id, o) ∈ lH \/ exists e, m !! id = Some e /\ o_p1 o = e_cnt e).
  Proof using All.
    intros HR HQ HH HN HD HW HC HS HM Hk. pose proof (half_pos cap Hcap) as Hh.
    assert (Hin : forall id o, (id, o) ∈ lS -> is_Some (m !! id)).
    { intros id o Ho. destruct (proj1 (HS id (o_size o))) as (e & He & _); [|eauto].
      apply elem_szs. exists o. split; [|done]. apply elem_of_app. by right. }
    destruct (sr_shrink_spec cap Hcap t lS Q H lH l m cd cn (length (q_q Q)) HQ HH HC)
      as (Q' & H1 & l' & cd' & cn' & l1 & l2 & l2' & m' & Hrun & El & Hfit & HQ' & HH1 & Hsz & HC' & Hm' & Hfr).
    { eapply disj_sub; [| |exact HD]; [|done]. intros id Hid. rewrite ids_app. apply elem_of_app. by right. }
    { done. }
    { rewrite (qok_q _ _ _ _ HQ). unfold ids. by rewrite fmap_length. }
    destruct (sr_trim_spec cap Hcap _ H1 (S (length (q_q H1))) HH1) as (H' & lH' & Htrim & HH' & HfitH).
    { rewrite (qok_q _ _ _ _ HH1). unfold ids. rewrite fmap_length. lia. }
    destruct (fits_keep _ _ _ _ _ Hfit El (qok_nonneg _ _ _ HQ)) as [Hk1 Hk2].
    rewrite Z.sub_0_r in Hk1, Hk2.
    destruct HfitH as (lt & Elt & Hbt & Hct).
    destruct (fits_keep cap 1 lH' lt (l2' ++ lH)) as [Hk3 _]; [by exists lt|done|exact (qok_nonneg _ _ _ HH1)|].
    exists Q', H1, H', l', cd', cn', l1, lH', m'.
    split; [done|]. split; [done|]. split; [done|]. split; [done|]. split; [done|]. split; [done|].
    split; [by rewrite Hk3, szs_app, Hsz, <- Hk2|]. split; [lia|].
    split; [destruct Hfit as (? & _ & Hb & _); lia|].
    split; [rewrite <- Hk2, El at 1; by rewrite szs_app|].
    assert (Hids : (rest half (szs lS)).*1 = ids l2) by (rewrite <- Hk2; apply szs_ids).
    split; [by rewrite Hids|].
    assert (Hkin : k ∈ ids (lR ++ l1)).
    { rewrite ids_app. apply elem_of_app. destruct Hk as [Hk|(o & ls & Els)]; [by left|right].
      rewrite Els in Hfit. destruct (fits_head half 0 (k, o) l1 ls) as (l1' & -> & _); [|done|by left].
      assert (1 <= o_size o <= half); [|cbn; lia]. eapply (within_elem _ _ k _ HW). rewrite Els. apply elem_of_app. right. left. }
    split; [done|].
    rewrite El, app_assoc in HN, HD, HW.
    assert (HN' := HN). rewrite ids_app in HN'. apply NoDup_app in HN' as (HN1 & HN2 & _).
    split; [done|]. split; [|split; [|split]].
    - intros id Hi1 Hi2. assert (Hi3 : id ∈ ids (l2' ++ lH)) by (rewrite Elt, ids_app; apply elem_of_app; by left).
      rewrite ids_app, (szs_eq_ids _ _ Hsz) in Hi3. apply elem_of_app in Hi3 as [Hi3|Hi3]; [by apply (HN2 id)|].
      apply (HD id); [|done]. rewrite ids_app. apply elem_of_app. by left.
    - by apply within_app in HW as [? _].
    - intros id z. rewrite Hm'. destruct (decide (id ∈ ids l2)) as [Hi|Hi].
      + split; [|by intros (? & ? & _)]. intros (o & Ho & _)%elem_szs. exfalso. apply (HN2 id); [|done]. apply ids_elem. eauto.
      + rewrite <- HS, El, app_assoc, (szs_app (lR ++ l1) l2), elem_of_app. split; [by left|].
        intros [?|Hx]; [done|]. apply elem_szs in Hx as (o & Ho & _). exfalso. apply Hi, ids_elem. eauto.
    - intros id o Ho. assert (Ho' : (id, o) ∈ l2' ++ lH) by (rewrite Elt; apply elem_of_app; by left).
      apply elem_of_app in Ho' as [Ho'|?]; [|by left]. right. eauto.
  Qed.

  (** Where a new object goes. *)
  Lemma cu_insert_spec s lR lS lH t m lgl lgf r : cuok s lR lS lH t m lgl lgf ->
    r_id r ∉ ids (lR ++ lS) -> r_id r ∉ ids lgl -> r_id r ∉ ids lgf -> c_nreq (cu_c s) <> 0 ->
    req_ok 0 r -> 1 <= r_size r <= half -> bytes 0 (lR ++ lS) + r_size r <= cap ->
    exists s' lR' lS' lH' m', cu_insert s r = Ok s' /\ cuok s' lR' lS' lH' (t + 1) m' lgl lgf /\
      cu_c s' = cu_c s /\ cu_hit s' = cu_hit s /\ cu_w s' = cu_w s /\
      (let z := r_size r in
       let old := bool_decide (r_id r ∈ ids lH) in
       let S0 := if old then rest (half - z) (szs lR) ++ szs lS else (r_id r, z) :: szs lS in
       szs lR' = (if old then (r_id r, z) :: keep (half - z) (szs lR) else szs lR) /\
       szs lS' = keep half S0 /\ szs lH' = keep (cap - 1) (rest half S0 ++ szs (l_del (r_id r) lH)) /\
       forall id, m' !! id = if decide (id ∈ (rest half S0).*1) then None
                             else <[r_id r := reborn t r (memory (Some (sr_H (cu_sr s))) (r_id r))]> m !! id) /\
      r_id r ∈ ids (lR' ++ lS') /\
      (forall id o, (id, o) ∈ lH' -> (id, o) ∈ lH \/ exists e, m !! id = Some e /\ o_p1 o = e_cnt e).
  Proof using All.
    intros HK Hn Hgl Hgf Hreq Hr Hz Hfit. pose proof (half_pos cap Hcap) as Hh.
    pose proof Hn as Hn'. rewrite ids_app in Hn'. apply not_elem_of_app in Hn' as [HnR HnS].
    assert (Hmd : cu_srmd s = 0) by (unfold cu_srmd; by rewrite (k_md _ _ _ _ _ _ _ _ HK)).
    pose proof (k_R _ _ _ _ _ _ _ _ HK) as HR. pose proof (k_S _ _ _ _ _ _ _ _ HK) as HS. pose proof (k_H _ _ _ _ _ _ _ _ HK) as HH.
    pose proof (k_none _ _ _ _ _ _ _ _ _ HK Hn) as Hnm.
    assert (Hmem1 : 1 <= memory (Some (sr_H (cu_sr s))) (r_id r)).
    { unfold memory. destruct (c_tbl (q_c (sr_H (cu_sr s))) !! r_id r) as [o|] eqn:E; [|lia].
      apply (qok_lookup _ _ _ _ HH) in E. pose proof (k_mem _ _ _ _ _ _ _ _ HK) as HM. rewrite Forall_forall in HM.
      apply HM in E. cbn in E. lia. }
    destruct (cr_insert_spec cap 0 ltac:(lia) _ _ _ (Some (sr_H (cu_sr s))) r (k_C _ _ _ _ _ _ _ _ HK) Hnm Hr Hmem1)
      as (l1 & Hl1 & HC1 & _).
    { intros E. destruct (k_min _ _ _ _ _ _ _ _ HK E) as [?|EH]; [by right|left]. unfold memory.
      rewrite (proj2 (qok_lookup_None _ _ _ _ HH (r_id r))); [done|]. rewrite EH. apply not_elem_of_nil. }
    set (f := memory (Some (sr_H (cu_sr s))) (r_id r)) in *. set (m1 := <[r_id r := reborn t r f]> m) in *.
    pose proof (o_size_of_req r 0 Hr ltac:(lia)) as Hso.
    unfold cu_insert, sr_can_insert. rewrite Hmd.
    rewrite (qok_lru_false _ _ _ _ HH). cbn [rbind].
    assert ((if bool_decide (r_id r ∈ ids lH) then bool_decide (r_size r + 0 <= q_size (sr_R (cu_sr s)))
             else bool_decide (r_size r + 0 <= q_size (sr_S (cu_sr s)))) = true) as ->.
    { unfold q_size. rewrite (qok_size _ _ _ _ HR), (qok_size _ _ _ _ HS). rewrite (bool_decide_eq_true_2 (r_size r + 0 <= half)) by lia. by destruct (bool_decide _). }
    rewrite Hl1. cbn [rbind].
    (* the state before SR_list is cut back *)
    assert (HB : exists R Q H cd lR1 lS1 lH1,
      (if bool_decide (r_id r ∈ ids lH) then
        let! (H, _) := q_remove (sr_H (cu_sr s)) (r_id r) in
        let! (R, Q, cd) := sr_demote (length (q_q (sr_R (cu_sr s)))) (r_size r + 0) (sr_R (cu_sr s)) (sr_S (cu_sr s)) (sr_cd (cu_sr s)) in
        let! R := q_insert R r in
        match c_tbl (q_c R) !! r_id r with
        | None => Err NullDeref
        | Some o =>
          if decide (o_p2 o = 0) then Ok (R, Q, H, cd)
          else if decide (sr_cn (cu_sr s) = 0) then Err DivByZero
          else
            let d := sr_delta2 cd (sr_cn (cu_sr s)) in
            let occ := q_occ R + q_occ Q in
            let z := if decide (2 * q_size Q + d > 2 * (occ - 1)) then occ - 1 else Z.quot (2 * q_size Q + d) 2 in
            let Q := q_set_size Q z in
            let R := q_set_size R (q_size H - z) in
            Ok (q_upd R (r_id r) (fun o => o_set_p2 o 0), Q, H, cd)
        end
      else
        let! Q := q_insert (sr_S (cu_sr s)) r in
        Ok (sr_R (cu_sr s), q_upd Q (r_id r) (fun o => o_set_p2 o 1), sr_H (cu_sr s), sr_cd (cu_sr s))) = Ok (R, Q, H, cd) /\
      qok half 0 R lR1 /\ qok half 0 Q lS1 /\ qok cap 0 H lH1 /\ lH1 = l_del (r_id r) lH /\
      noflag lR1 /\ bytes 0 lR1 <= half /\
      szs (lR1 ++ lS1) ≡ₚ (r_id r, r_size r) :: szs (lR ++ lS) /\
      szs lR1 = (if bool_decide (r_id r ∈ ids lH) then (r_id r, r_size r) :: keep (half - r_size r) (szs lR) else szs lR) /\
      szs lS1 = (if bool_decide (r_id r ∈ ids lH) then rest (half - r_size r) (szs lR) ++ szs lS else (r_id r, r_size r) :: szs lS) /\
      (r_id r ∈ ids lR1 \/ exists o l', lS1 = (r_id r, o) :: l')).
    { destruct (decide (r_id r ∈ ids lH)) as [HinH|HninH].
      - rewrite bool_decide_eq_true_2 by done.
        destruct (qok_remove_hit _ _ _ _ HH (r_id r) (Z.le_refl 0) HinH) as (H1 & -> & HH1). cbn [rbind].
        edestruct (sr_demote_spec cap Hcap (r_size r + 0) ltac:(lia) _ _ _ _ (sr_cd (cu_sr s)) (length (q_q (sr_R (cu_sr s)))) HR HS)
          as (R2 & Q2 & cd & la & lb & lb' & -> & El & Hft & HR2 & HQ2 & Hsz).
        { by eapply k_d1. }
        { apply HK. }
        { rewrite (qok_q _ _ _ _ HR). unfold ids. by rewrite fmap_length. }
        cbn [rbind]. rewrite Z.add_0_r in Hft.
        destruct (fits_keep _ _ _ _ _ Hft El (qok_nonneg _ _ _ HR)) as [Hk1 Hk2].
        assert (Hna : r_id r ∉ ids la). { intros Hx. apply HnR. rewrite El, ids_app. apply elem_of_app. by left. }
        destruct (qok_insert _ _ _ _ HR2 r Hna Hr ltac:(lia)) as (R3 & -> & HR3). cbn [rbind].
        rewrite (proj2 (qok_lookup _ _ _ _ HR3 (r_id r) (obj_of_req r))) by left.
        rewrite decide_True by done.
        exists R3, Q2, H1, cd, ((r_id r, obj_of_req r) :: la), (lb' ++ lS), (l_del (r_id r) lH).
        split; [done|]. split; [exact HR3|]. split; [done|]. split; [done|]. split; [done|].
        split; [apply Forall_cons; split; [done|]; pose proof (k_flag _ _ _ _ _ _ _ _ HK) as HF; unfold noflag in HF; rewrite El in HF; by apply Forall_app in HF as [? _]|].
        split; [rewrite bytes_cons; destruct Hft as (? & _ & Hb & _); cbn [snd]; lia|].
        split; [|split; [|split]].
        + cbn [app]. rewrite szs_cons, Hso, !szs_app, Hsz, El, szs_app. by rewrite <- app_assoc.
        + by rewrite szs_cons, Hso, Hk1.
        + by rewrite szs_app, Hsz, Hk2.
        + left. by left.
      - rewrite bool_decide_eq_false_2 by done.
        destruct (qok_insert _ _ _ _ HS r HnS Hr ltac:(lia)) as (Q2 & -> & HQ2). cbn [rbind].
        pose proof (qok_q_upd _ _ _ _ (fun o => o_set_p2 o 1) (r_id r) HQ2 ltac:(done)) as HQ3. rewrite l_upd_head in HQ3 by done.
        eexists _, _, _, _, lR, ((r_id r, o_set_p2 (obj_of_req r) 1) :: lS), lH.
        split; [done|]. split; [exact HR|]. split; [exact HQ3|]. split; [exact HH|]. split; [by rewrite l_del_notin|].
        split; [apply HK|]. split; [apply HK|].
        assert (Hs2 : szs ((r_id r, o_set_p2 (obj_of_req r) 1) :: lS) = (r_id r, r_size r) :: szs lS).
        { rewrite szs_cons. do 2 f_equal. exact Hso. }
        split; [|split; [done|split]].
        + rewrite szs_app, Hs2, szs_app. by rewrite Permutation_middle.
        + done.
        + right. eauto. }
    destruct HB as (R & Q & H & cd & lR1 & lS1 & lH1 & EB & HR1 & HQ1 & HH1 & EH & Hfl & HbR & HP & EszR & EszS & Hk).
    assert (HPi : ids (lR1 ++ lS1) ≡ₚ r_id r :: ids (lR ++ lS)).
    { rewrite <- !szs_ids. rewrite HP. done. }
    assert (HN1 : NoDup (ids (lR1 ++ lS1))).
    { rewrite HPi. apply NoDup_cons. split; [done|]. apply HK. }
    assert (HD1 : disj (lR1 ++ lS1) lH1).
    { subst lH1. intros id H1 H2. apply elem_ids_del in H2 as [H2 Hne]. rewrite HPi in H1.
      apply elem_of_cons in H1 as [->|H1]; [done|]. by apply (k_dH _ _ _ _ _ _ _ _ HK id). }
    assert (HW1 : within half (lR1 ++ lS1)).
    { unfold within. rewrite Forall_forall. intros [id o] Ho. cbn.
      assert (Hx : (id, o_size o) ∈ szs (lR1 ++ lS1)) by (apply elem_szs; eauto). rewrite HP in Hx.
      apply elem_of_cons in Hx as [[= -> ->]|Hx]; [done|]. apply elem_szs in Hx as (o1 & Ho1 & <-).
      by eapply (within_elem _ _ _ _ (k_w _ _ _ _ _ _ _ _ HK)). }
    assert (HS1 : forall id z, (id, z) ∈ szs (lR1 ++ lS1) <-> exists e, m1 !! id = Some e /\ e_size e = z).
    { intros id z. rewrite HP, elem_of_cons, (k_same _ _ _ _ _ _ _ _ HK). unfold m1.
      destruct (decide (id = r_id r)) as [->|Hne].
      - rewrite lookup_insert. split.
        + intros [[= ->]|(e & He & _)]; [by eexists|congruence].
        + intros (e & [= <-] & <-). by left.
      - rewrite lookup_insert_ne by done. split; [|by right]. intros [[= -> ->]|?]; done. }
    assert (HM1 : Forall (fun x => 1 <= o_p1 x.2) lH1) by (subst lH1; apply Forall_del, HK).
    destruct (cu_insert_tail R Q H lR1 lS1 lH1 l1 (t + 1) m1 (r_id r) cd (sr_cn (cu_sr s)) HR1 HQ1 HH1 HN1 HD1 HW1 HC1 HS1 HM1 Hk)
      as (Q' & H2 & H' & l' & cd' & cn' & lS' & lH' & m' & T0 & T1 & T2 & T3 & T4 & T5 & T6 & T7 & T8 & T9 & T10 & T11 & T12 & T13 & T14 & T15 & T16).
    assert (Hsi : sr_insert 0 (cu_sr s) (Some l1) r = Ok (mkSR R Q' H' cd' cn', Some l')).
    { unfold sr_insert. rewrite (qok_lru_false _ _ _ _ HH). cbn [rbind].
      lazymatch goal with |- rbind ?b _ = _ => replace b with (Ok (R, Q, H, cd)) by (symmetry; exact EB) end.
      cbn [rbind]. rewrite T0. cbn [rbind]. by rewrite T1. }
    rewrite Hsi. cbn [rbind default from_option]. unfold id.
    assert (Hold : forall id o, (id, o) ∈ lH' -> (id, o) ∈ lH \/ exists e, m !! id = Some e /\ o_p1 o = e_cnt e).
    { intros id o Ho. destruct (T16 _ _ Ho) as [Ho1|(e & He & Hp)].
      - left. subst lH1. by apply elem_l_del in Ho1 as [? _].
      - right. unfold m1 in He. apply lookup_insert_Some in He as [[<- _]|[_ He]]; [|by exists e].
        exfalso. apply (T13 (r_id r)); [done|]. apply ids_elem. eauto. }
    assert (Hsub : forall id, id ∈ ids (lR1 ++ lS') -> id = r_id r \/ id ∈ ids (lR ++ lS)).
    { intros id Hid. apply elem_of_cons. rewrite <- HPi, <- szs_ids, szs_app, T9, app_assoc, <- szs_app, fmap_app, szs_ids.
      apply elem_of_app. by left. }
    exists (cu_upd s (mkSR R Q' H' cd' cn') l'), lR1, lS', lH', m'.
    split; [done|]. split; [|split; [done|split; [done|split; [done|split; [|split; [done|exact Hold]]]]]].
    - split; cbn [cu_upd cu_c cu_sr cu_lfu cu_gl cu_gf cu_gen sr_R sr_S sr_H]; try done; try apply HK.
      + pose proof (perm_bytes (lR1 ++ lS1) ((r_id r, obj_of_req r) :: lR ++ lS)) as Hb.
        rewrite szs_cons, Hso in Hb. specialize (Hb HP). rewrite bytes_cons in Hb. cbn [snd] in Hb.
        assert (bytes 0 (lR1 ++ lS') <= bytes 0 (lR1 ++ lS1)); [|lia].
        rewrite !bytes_app, !(szs_bytes 0).
        assert (0 <= total_bytes (rest half (szs lS1))) as Hnn.
        { unfold rest. pose proof (qok_nonneg _ _ _ HQ1) as HF. clear -HF.
          assert (HF' : Forall (fun x : Z * Z => 0 <= x.2) (drop (length (keep half (szs lS1))) (szs lS1))).
          { apply Forall_drop. unfold szs. by apply Forall_fmap. }
          induction HF' as [|x l H1 H2 IH]; [done|]. cbn. unfold total_bytes in IH. lia. }
        assert (Htb : forall a b, total_bytes (a ++ b) = total_bytes a + total_bytes b).
        { intros a b. unfold total_bytes. induction a as [|x a IH]; cbn; lia. }
        assert (total_bytes (szs lS1) = total_bytes (szs lS') + total_bytes (rest half (szs lS1))) by (rewrite <- Htb; by f_equal).
        lia.
      + rewrite Forall_forall. intros [id o] Ho. cbn. destruct (Hold _ _ Ho) as [Ho1|(e & He & ->)].
        * pose proof (k_mem _ _ _ _ _ _ _ _ HK) as HM. rewrite Forall_forall in HM. by apply HM in Ho1.
        * pose proof (crok_ent _ _ _ _ _ (k_C _ _ _ _ _ _ _ _ HK) _ _ He). lia.
      + intros E. exfalso. apply ids_elem in T11 as (o & Ho).
        destruct (proj1 (T15 (r_id r) (o_size o))) as (e & He & _); [apply elem_szs; eauto|]. rewrite E in He. by rewrite lookup_empty in He.
      + intros id H1 H3. apply Hsub in H3 as [->|H3]; [done|]. by apply (k_dgl _ _ _ _ _ _ _ _ HK id).
      + intros id H1 H3. apply Hsub in H3 as [->|H3]; [done|]. by apply (k_dgf _ _ _ _ _ _ _ _ HK id).
    - cbv zeta. split; [done|]. rewrite <- EszS. split; [done|]. split; [by rewrite T6, EH|]. exact T10.
  Qed.

  (** An object leaves both experts; the history remembers it and its frequency. *)
  Lemma cu_drop s lR lS lH t m lgl lgf v e x' l' gl' gf' lgl' lgf' w ca : cuok s lR lS lH t m lgl lgf ->
    m !! v = Some e -> taken cap (cu_sr s) lR lS lH v x' -> crok cap 0 l' t (delete v m) ->
    (delete v m = ∅ -> l_min l' = -1) ->
    qok half 0 gl' lgl' -> qok half 0 gf' lgf' ->
    (forall id, id ∈ ids lgl' -> id = v \/ id ∈ ids lgl) -> (forall id, id ∈ ids lgf' -> id = v \/ id ∈ ids lgf) ->
    disj lgl' lgf' -> c_nreq (cu_c s) <> 0 ->
    exists h o' lH1, cr_note (Some (sr_H x')) v (e_cnt e) = Ok (Some h) /\
      cuok (mkCU (cu_c s) (mkSR (sr_R x') (sr_S x') h (sr_cd x') (sr_cn x')) l' gl' gf' (cu_hit s) w ca (-1))
           (l_del v lR) (l_del v lS) ((v, o') :: lH1) t (delete v m) lgl' lgf' /\
      o_p1 o' = e_cnt e /\ o_size o' = e_size e /\ fits cap 0 (e_size e + 1) lH1 lH.
  Proof using.
    intros HK He (o & o1 & lH1 & Ho & HR' & HS' & HH' & Hs1 & Hfit) HC' Hmin Hgl Hgf Sgl Sgf Hdg Hreq.
    assert (Hoe : o_size o = e_size e).
    { destruct (proj1 (k_same _ _ _ _ _ _ _ _ HK v (o_size o))) as (e' & He' & <-); [apply elem_szs; eauto|]. congruence. }
    unfold cr_note. rewrite (proj2 (qok_lookup _ _ _ _ HH' v o1)) by left.
    pose proof (qok_q_upd _ _ _ _ (fun o => o_set_p1 o (e_cnt e)) v HH' ltac:(done)) as HH2. rewrite l_upd_head in HH2.
    2: { pose proof (qok_nd _ _ _ _ HH') as Hnd. cbn [ids fmap list_fmap fst] in Hnd. by apply NoDup_cons in Hnd as [? _]. }
    eexists _, (o_set_p1 o1 (e_cnt e)), lH1. split; [done|]. split; [|split; [done|split; [cbn; lia|by rewrite <- Hoe]]].
    pose proof (crok_ent _ _ _ _ _ (k_C _ _ _ _ _ _ _ _ HK) _ _ He) as (_ & _ & _ & Hcnt & _).
    assert (Hsub : forall id, id ∈ ids (l_del v lR ++ l_del v lS) <-> id ∈ ids (lR ++ lS) /\ id <> v).
    { intros id. rewrite <- l_del_app. apply elem_ids_del. }
    assert (Hb : bytes 0 (l_del v lR ++ l_del v lS) = bytes 0 (lR ++ lS) - o_size o).
    { rewrite <- l_del_app, (bytes_del 0 v o); [lia|apply HK|done]. }
    destruct (within_elem _ _ _ _ (k_w _ _ _ _ _ _ _ _ HK) Ho) as [Hz _].
    split; cbn [cu_c cu_sr cu_lfu cu_gl cu_gf cu_gen sr_R sr_S sr_H]; try done; try (by apply HK); try lia.
    - apply Forall_del, HK.
    - rewrite <- l_del_app, ids_del. apply NoDup_filter, HK.
    - intros id [H1 Hne]%Hsub H2. cbn [ids fmap list_fmap fst] in H2. apply elem_of_cons in H2 as [->|H2]; [done|].
      apply (k_dH _ _ _ _ _ _ _ _ HK id); [done|]. by eapply fits_ids.
    - pose proof (bytes_del_le 0 _ _ _ v ltac:(lia) (k_R _ _ _ _ _ _ _ _ HK)). pose proof (k_bR _ _ _ _ _ _ _ _ HK). lia.
    - pose proof (k_b _ _ _ _ _ _ _ _ HK). lia.
    - rewrite bytes_cons. destruct Hfit as (? & _ & Hb2 & _). cbn [snd]. cbn. lia.
    - rewrite <- l_del_app. apply Forall_del, HK.
    - intros id z. rewrite <- l_del_app, szs_del, elem_of_list_filter, (k_same _ _ _ _ _ _ _ _ HK). cbn [fst]. split.
      + intros [Hne (e' & He' & Hz')]. exists e'. by rewrite lookup_delete_ne.
      + intros (e' & [Hne He']%lookup_delete_Some & Hz'). split; [done|]. eauto.
    - apply Forall_cons. split; [cbn; lia|]. destruct Hfit as (l2 & E & _). pose proof (k_mem _ _ _ _ _ _ _ _ HK) as HM.
      rewrite E in HM. by apply Forall_app in HM as [? _].
    - intros E. left. by apply Hmin.
    - intros id H1 [H2 Hne]%Hsub. destruct (Sgl _ H1) as [->|H3]; [done|]. by apply (k_dgl _ _ _ _ _ _ _ _ HK id).
    - intros id H1 [H2 Hne]%Hsub. destruct (Sgf _ H1) as [->|H3]; [done|]. by apply (k_dgf _ _ _ _ _ _ _ _ HK id).
  Qed.

  (** An expert's list of its evictions. *)
  Lemma ghost_add g lg v o : qok half 0 g lg -> v ∉ ids lg -> 1 <= o_size o <= half -> o_size o < 2 ^ 32 ->
    exists g' o' l1, sub_get lru_ops g (req_of_obj v o) = Ok (g', false) /\ qok half 0 g' ((v, o') :: l1) /\
      o_size o' = o_size o /\ fits half 0 (o_size o) l1 lg.
  Proof using.
    intros HQ Hn Hz Hlt. unfold sub_get.
    assert (Hok : req_ok 0 (req_of_obj v o)) by (split; cbn; lia).
    destruct (lru_get_miss _ _ _ _ (req_of_obj v o) (Z.to_nat (op_nobj lru_ops g)) (Z.le_refl 0) HQ Hok Hn) as (g' & l' & -> & HQ' & HF).
    { apply (subget_fuel _ _ _ _ HQ). }
    cbn [req_of_obj r_size] in HF. rewrite Z.add_0_r, decide_True in HF by lia. destruct HF as (l1 & Hf & ->).
    exists g', (obj_of_req (req_of_obj v o)), l1. split; [done|]. split; [done|]. split; [|done].
    apply (o_size_of_req (req_of_obj v o) 0); [done|lia].
  Qed.

  Lemma sr_victim x lR lS lH : qok half 0 (sr_R x) lR -> qok half 0 (sr_S x) lS -> qok cap 0 (sr_H x) lH ->
    within half lR -> within half lS -> disj lR lS -> disj lR lH -> disj lS lH -> lR ++ lS <> [] -> exists v, sr_to_evict x = Some v /\ last (ids (lR ++ lS)) = Some v.
  Proof using All.
    intros HR HS HH WR WS D1 D2 D3 Hne. destruct (sr_to_evict_spec cap Hcap x lR lS lH HR HS HH WR WS D1 D2 D3 Hne) as [(l & v & o & E & Hv)|(E & l & v & o & E' & Hv)]; exists v.
    - split; [done|]. rewrite E, !ids_app, app_assoc. apply last_snoc.
    - split; [done|]. rewrite E, app_nil_r, E', ids_app. apply last_snoc.
  Qed.

  Lemma cu_evict_spec s lR lS lH t m lgl lgf r : cuok s lR lS lH t m lgl lgf -> lR ++ lS <> [] ->
    exists s' vl vf lgl' lgf' lH1 o' e, let b := fst (draw (cu_w s)) in let v := if b : bool then vl else vf in
      cu_evict draw s r = Ok s' /\ cr_to_evict (cu_lfu s) r = Ok (cu_lfu s, Some vf) /\ last (ids (lR ++ lS)) = Some vl /\ is_Some (m !! vf) /\ pol_cr m vf /\ m !! v = Some e /\
      cuok s' (l_del v lR) (l_del v lS) ((v, o') :: lH1) t (delete v m) lgl' lgf' /\
      cu_c s' = cu_c s /\ cu_hit s' = cu_hit s /\ cu_w s' = snd (draw (cu_w s)) /\
      o_p1 o' = e_cnt e /\ o_size o' = e_size e /\ fits cap 0 (e_size e + 1) lH1 lH /\
      szs lgl' = (if decide (vl = vf) then szs lgl else if b then (v, e_size e) :: keep (half - e_size e) (szs lgl) else szs lgl) /\
      szs lgf' = (if decide (vl = vf) then szs lgf else if b then szs lgf else (v, e_size e) :: keep (half - e_size e) (szs lgf)).
  Proof using All.
    intros HK Hne.
    assert (Hreq : c_nreq (cu_c s) <> 0) by (intros E; by apply Hne, (k_zero _ _ _ _ _ _ _ _ HK)).
    assert (Hm : m <> ∅).
    { intros ->. destruct (lR ++ lS) as [|[id o] l] eqn:E; [done|]. destruct (proj1 (k_in _ _ _ _ _ _ _ _ HK id)) as [e He].
      - rewrite E. by left.
      - by rewrite lookup_empty in He. }
    pose proof (k_R _ _ _ _ _ _ _ _ HK) as HR. pose proof (k_S _ _ _ _ _ _ _ _ HK) as HS. pose proof (k_H _ _ _ _ _ _ _ _ HK) as HH.
    pose proof (k_w _ _ _ _ _ _ _ _ HK) as HW. apply within_app in HW as [WR WS].
    pose proof (k_d1 _ _ _ _ _ _ _ _ HK) as D1. pose proof (k_d2 _ _ _ _ _ _ _ _ HK) as D2. pose proof (k_d3 _ _ _ _ _ _ _ _ HK) as D3.
    pose proof (k_gl _ _ _ _ _ _ _ _ HK) as HGl. pose proof (k_gf _ _ _ _ _ _ _ _ HK) as HGf.
    destruct (sr_victim (cu_sr s) lR lS lH HR HS HH WR WS D1 D2 D3 Hne) as (vl & Hvl & Hlast).
    destruct (cr_to_evict_spec cap 0 ltac:(lia) _ _ _ r (k_C _ _ _ _ _ _ _ _ HK) Hm) as (vf & ef & Hvf & Hef & Hpol).
    assert (Hvlin : vl ∈ ids (lR ++ lS)) by (by apply last_Some_elem_of).
    destruct (proj1 (k_in _ _ _ _ _ _ _ _ HK vl) Hvlin) as [el Hel].
    assert (Hvfin : vf ∈ ids (lR ++ lS)) by (apply (k_in _ _ _ _ _ _ _ _ HK); eauto).
    assert (Hsz : forall v e, m !! v = Some e -> exists o, (v, o) ∈ lR ++ lS /\ o_size o = e_size e /\ 1 <= e_size e <= half /\ e_size e < 2 ^ 32).
    { intros v e He. destruct (proj1 (elem_szs _ _ _) (proj2 (k_same _ _ _ _ _ _ _ _ HK v (e_size e)) ltac:(eauto))) as (o & Ho & Hoz).
      exists o. split; [done|]. split; [done|]. pose proof (within_elem _ _ _ _ (k_w _ _ _ _ _ _ _ _ HK) Ho).
      pose proof (crok_ent _ _ _ _ _ (k_C _ _ _ _ _ _ _ _ HK) _ _ He). lia. }
    assert (Hgen : cu_gen s <> c_nreq (cu_c s)).
    { pose proof (k_gen _ _ _ _ _ _ _ _ HK). pose proof (k_nreq _ _ _ _ _ _ _ _ HK). lia. }
    unfold cu_evict. rewrite Hvl, Hvf. cbn [rbind]. rewrite decide_False by done.
    unfold cu_to_evict. destruct (draw (cu_w s)) as [b w] eqn:Ed. cbn [fst snd].
    assert ((if b then Ok (sr_to_evict (cu_sr s)) else let! (_, v) := cr_to_evict (cu_lfu s) r in Ok v)
            = Ok (Some (if b then vl else vf))) as Hch.
    { destruct b; [by rewrite Hvl|]. by rewrite Hvf. }
    rewrite Hch. cbn [rbind cu_sr cu_lfu cu_cand cu_gl cu_gf cu_hit cu_w cu_c].
    destruct (decide (vl = vf)) as [<-|Hd].
    - (* the experts agree *)
      assert (el = ef) as -> by congruence.
      destruct (sr_evict_spec cap Hcap (cu_sr s) lR lS lH HR HS HH WR WS D1 D2 D3 vl r Hvl Hne) as (x' & -> & HT). cbn [rbind].
      assert (Hnote : exists h, cr_note (Some (sr_H x')) vl (e_cnt ef) = Ok (Some h)).
      { destruct HT as (? & o1 & ? & _ & _ & _ & HH' & _). unfold cr_note. rewrite (proj2 (qok_lookup _ _ _ _ HH' vl o1)) by left. eauto. }
      destruct Hnote as (h & Hnote).
      destruct (cr_evict_spec cap 0 ltac:(lia) _ _ _ _ _ vl ef r (k_C _ _ _ _ _ _ _ _ HK) Hvf Hef Hnote) as (l' & -> & HC' & Hmin & _).
      cbn [rbind default from_option]. unfold id.
      destruct (cu_drop s lR lS lH t m lgl lgf vl ef x' l' (cu_gl s) (cu_gf s) lgl lgf w (b, Some (if b then vl else vl)) HK Hef HT HC' Hmin HGl HGf)
        as (h2 & o' & lH1 & Hn2 & HK' & E1 & E2 & Hf); [tauto|tauto|apply HK|done|].
      assert (h2 = h) as -> by congruence.
      exists (mkCU (cu_c s) (mkSR (sr_R x') (sr_S x') h (sr_cd x') (sr_cn x')) l' (cu_gl s) (cu_gf s) (cu_hit s) w (b, Some (if b then vl else vl)) (-1)), vl, vl, lgl, lgf, lH1, o', ef.
      assert ((if b then vl else vl) = vl) as -> by (by destruct b).
      split; [done|]. split; [done|]. split; [done|]. split; [eauto|]. split; [done|]. split; [done|]. split; [by destruct b|].
      rewrite !decide_True by done. done.
    - destruct b.
      + (* SR_LRU's choice *)
        rewrite decide_True by done.
        destruct (Hsz _ _ Hel) as (o & Ho & Hoz & Hz & Hz2).
        assert (Hco : exists o', cu_obj (mkCU (cu_c s) (cu_sr s) (cu_lfu s) (cu_gl s) (cu_gf s) (cu_hit s) w (true, Some vl) (c_nreq (cu_c s))) true vl = Some o' /\ o_size o' = e_size el).
        { unfold cu_obj. cbn [cu_sr]. apply elem_of_app in Ho as [Ho|Ho].
          - rewrite (proj2 (qok_lookup_None _ _ _ _ HS vl)), (proj2 (qok_lookup _ _ _ _ HR vl o) Ho); [eauto|].
            intros ?. apply (D1 vl); [|done]. apply ids_elem. eauto.
          - rewrite (proj2 (qok_lookup _ _ _ _ HS vl o) Ho). eauto. }
        destruct Hco as (oc & -> & Hoc).
        destruct (sr_evict_spec cap Hcap (cu_sr s) lR lS lH HR HS HH WR WS D1 D2 D3 vl r Hvl Hne) as (x' & -> & HT). cbn [rbind].
        assert (Hnote : exists h, cr_note (Some (sr_H x')) vl (e_cnt el) = Ok (Some h)).
        { destruct HT as (? & o1 & ? & _ & _ & _ & HH' & _). unfold cr_note. rewrite (proj2 (qok_lookup _ _ _ _ HH' vl o1)) by left. eauto. }
        destruct Hnote as (h & Hnote).
        destruct (cr_remove_hit cap 0 ltac:(lia) _ _ _ _ _ vl el (k_C _ _ _ _ _ _ _ _ HK) Hel Hnote) as (l' & -> & HC' & _).
        cbn [rbind default from_option]. unfold id.
        destruct (ghost_add (cu_gl s) lgl vl oc HGl) as (gl' & og & lg1 & -> & HGl' & Hog & Hfg); [|lia|lia|].
        { intros ?. by apply (k_dgl _ _ _ _ _ _ _ _ HK vl). }
        cbn [rbind].
        destruct (cu_drop s lR lS lH t m lgl lgf vl el x' l' gl' (cu_gf s) ((vl, og) :: lg1) lgf w (true, Some vl) HK Hel HT HC')
          as (h2 & o' & lH1 & Hn2 & HK' & E1 & E2 & Hf); try done.
        { intros E. exfalso. assert (delete vl m !! vf = Some ef) as E3 by (by rewrite lookup_delete_ne). rewrite E in E3. by rewrite lookup_empty in E3. }
        { intros id. cbn [ids fmap list_fmap fst]. rewrite elem_of_cons. intros [->|Hi]; [by left|right]. by eapply fits_ids. }
        { tauto. }
        { intros id Hi. cbn [ids fmap list_fmap fst] in Hi. apply elem_of_cons in Hi as [->|Hi]; intros Hi2.
          - by apply (k_dgf _ _ _ _ _ _ _ _ HK vl).
          - apply (k_dg _ _ _ _ _ _ _ _ HK id); [|done]. by eapply fits_ids. }
        assert (h2 = h) as -> by congruence.
        exists (mkCU (cu_c s) (mkSR (sr_R x') (sr_S x') h (sr_cd x') (sr_cn x')) l' gl' (cu_gf s) (cu_hit s) w (true, Some vl) (-1)), vl, vf, ((vl, og) :: lg1), lgf, lH1, o', el.
        cbv zeta. rewrite !decide_False by done.
        do 13 (split; [first [done|by eauto]|]). split; [|done].
        rewrite szs_cons, Hog, Hoc. f_equal. destruct Hfg as (l2 & El2 & Hr).
        destruct (fits_keep half (o_size oc) lg1 l2 lgl) as [-> _]; [by exists l2|done|exact (qok_nonneg _ _ _ HGl)|]. by rewrite Hoc.
      + (* CR_LFU's choice *)
        rewrite decide_False by done. cbn [fst snd].
        destruct (Hsz _ _ Hef) as (o & Ho & Hoz & Hz & Hz2).
        destruct (crok_some cap 0 ltac:(lia) _ _ _ _ _ (k_C _ _ _ _ _ _ _ _ HK) Hef) as (oc & Hoc1 & Hoc & _).
        unfold cu_obj. cbn [cu_lfu]. rewrite Hoc1.
        destruct (sr_remove_spec cap Hcap (cu_sr s) lR lS lH HR HS HH WR WS D1 D2 D3 vf Hvfin) as (x' & -> & HT). cbn [rbind].
        assert (Hnote : exists h, cr_note (Some (sr_H x')) vf (e_cnt ef) = Ok (Some h)).
        { destruct HT as (? & o1 & ? & _ & _ & _ & HH' & _). unfold cr_note. rewrite (proj2 (qok_lookup _ _ _ _ HH' vf o1)) by left. eauto. }
        destruct Hnote as (h & Hnote).
        destruct (cr_evict_spec cap 0 ltac:(lia) _ _ _ _ _ vf ef r (k_C _ _ _ _ _ _ _ _ HK) Hvf Hef Hnote) as (l' & -> & HC' & Hmin & _).
        cbn [rbind default from_option]. unfold id.
        destruct (ghost_add (cu_gf s) lgf vf oc HGf) as (gf' & og & lg1 & -> & HGf' & Hog & Hfg); [|lia|lia|].
        { intros ?. by apply (k_dgf _ _ _ _ _ _ _ _ HK vf). }
        cbn [rbind].
        destruct (cu_drop s lR lS lH t m lgl lgf vf ef x' l' (cu_gl s) gf' lgl ((vf, og) :: lg1) w (false, Some vf) HK Hef HT HC')
          as (h2 & o' & lH1 & Hn2 & HK' & E1 & E2 & Hf); try done.
        { tauto. }
        { intros id. cbn [ids fmap list_fmap fst]. rewrite elem_of_cons. intros [->|Hi]; [by left|right]. by eapply fits_ids. }
        { intros id Hi2 Hi. cbn [ids fmap list_fmap fst] in Hi. apply elem_of_cons in Hi as [->|Hi].
          - by apply (k_dgl _ _ _ _ _ _ _ _ HK vf).
          - apply (k_dg _ _ _ _ _ _ _ _ HK id); [done|]. by eapply fits_ids. }
        assert (h2 = h) as -> by congruence.
        exists (mkCU (cu_c s) (mkSR (sr_R x') (sr_S x') h (sr_cd x') (sr_cn x')) l' (cu_gl s) gf' (cu_hit s) w (false, Some vf) (-1)), vl, vf, lgl, ((vf, og) :: lg1), lH1, o', ef.
        cbv zeta. rewrite !decide_False by done.
        do 14 (split; [first [done|by eauto]|]).
        rewrite szs_cons, Hog, Hoc. f_equal. destruct Hfg as (l2 & El2 & Hr).
        destruct (fits_keep half (o_size oc) lg1 l2 lgf) as [-> _]; [by exists l2|done|exact (qok_nonneg _ _ _ HGf)|]. by rewrite Hoc.
  Qed.

  (** * The specification *)
  Definition crel (s : cacheus W) (a : cst W) : Prop :=
    exists lR lS lH lgl lgf, cuok s lR lS lH (cs_t a) (cs_m a) lgl lgf /\
      szs lR = cs_R a /\ szs lS = cs_S a /\ szs lH = cs_H a /\ szs lgl = cs_gl a /\ szs lgf = cs_gf a /\
      Forall (fun x => o_p1 x.2 = cs_past a x.1) lH /\
      c_nreq (cu_c s) = cs_n a /\ cu_hit s = cs_hits a /\ cu_w s = cs_w a /\ c_adm (cu_c s) = cs_adm a.

  Lemma crel_init adm w : crel (cu_init false cap adm w) (cs_init adm w).
  Proof using All.
    pose proof (half_pos cap Hcap). exists [], [], [], [], []. split; [|done].
    split; cbn; try done; try lia; try apply qok_init; try (by constructor); try (intros ? ?%elem_of_nil; done).
    - apply (cr_init_ok cap 0 ltac:(lia) false AdmNone). done.
    - intros id z. split; [by intros ?%elem_of_nil|]. intros (e & He & _). by rewrite lookup_empty in He.
  Qed.

  Lemma crel_tick s a : crel s a -> crel (op_tick ops s) (cs_tick a).
  Proof using.
    intros (lR & lS & lH & lgl & lgf & HK & E). exists lR, lS, lH, lgl, lgf. split.
    - destruct HK. split; cbn; try done; [lia|]. intros ?. lia.
    - destruct E as (E1 & E2 & E3 & E4 & E5 & E6 & E7 & E8 & E9 & E10). cbn. split_and!; try done. by rewrite E7.
  Qed.

  Lemma crel_adm s a adm : crel s a ->
    crel (mkCU (c_set_adm (cu_c s) adm) (cu_sr s) (cu_lfu s) (cu_gl s) (cu_gf s) (cu_hit s) (cu_w s) (cu_cand s) (cu_gen s)) (cs_set_adm a adm).
  Proof using.
    intros (lR & lS & lH & lgl & lgf & HK & E). exists lR, lS, lH, lgl, lgf. split.
    - destruct HK. split; cbn; done.
    - destruct E as (E1 & E2 & E3 & E4 & E5 & E6 & E7 & E8 & E9 & _). cbn. split_and!; done.
  Qed.

  Lemma crel_look s a r : crel s a ->
    cu_find reweigh s r false = Ok (s, bool_decide (is_Some (cs_m a !! r_id r))).
  Proof using.
    intros (lR & lS & lH & lgl & lgf & HK & _). rewrite (cu_find_false _ _ _ _ _ _ _ _ _ HK). do 2 f_equal.
    apply bool_decide_ext. apply (k_in _ _ _ _ _ _ _ _ HK).
  Qed.

  Lemma crel_hit s a r e : crel s a -> cs_m a !! r_id r = Some e ->
    exists s', cu_find reweigh s r true = Ok (s', true) /\ crel s' (cs_hit cap a r e).
  Proof using All.
    intros (lR & lS & lH & lgl & lgf & HK & E1 & E2 & E3 & E4 & E5 & E6 & E7 & E8 & E9 & E10) He.
    destruct (cu_find_hit s lR lS lH _ _ lgl lgf r e HK He)
      as (s' & o' & lR1 & lR' & lS' & Hf & HK' & F1 & F2 & F3 & F4 & F5 & -> & Hfit & _ & l2 & El2 & F6).
    exists s'. split; [done|]. exists ((r_id r, o') :: lR1), lS', lH, lgl, lgf. split; [exact HK'|].
    destruct (fits_keep _ _ _ _ _ Hfit El2) as [K1 K2].
    { apply Forall_del. exact (qok_nonneg _ _ _ (k_R _ _ _ _ _ _ _ _ HK)). }
    rewrite szs_del, E1 in K1, K2.
    cbn [cs_hit cs_R cs_S cs_H cs_gl cs_gf cs_past cs_n cs_hits cs_w cs_adm].
    split; [by rewrite szs_cons, F5, K1|]. split; [by rewrite F6, K2, szs_del, E2|].
    split_and!; try done; try congruence.
  Qed.

  Lemma crel_miss s a r : crel s a -> cs_m a !! r_id r = None ->
    exists s', cu_find reweigh s r true = Ok (s', false) /\ crel s' (cs_miss reweigh a (r_id r)).
  Proof using.
    intros (lR & lS & lH & lgl & lgf & HK & E1 & E2 & E3 & E4 & E5 & E6 & E7 & E8 & E9 & E10) He.
    assert (Hn : r_id r ∉ ids (lR ++ lS)).
    { intros Hin. apply (k_in _ _ _ _ _ _ _ _ HK) in Hin as [e ?]. congruence. }
    destruct (cu_find_miss s lR lS lH _ _ lgl lgf r HK Hn) as (s' & Hf & HK' & F1 & F2 & F3 & F4 & F5).
    exists s'. split; [done|]. exists lR, lS, lH, (l_del (r_id r) lgl), (l_del (r_id r) lgf). split; [exact HK'|].
    cbn [cs_miss cs_R cs_S cs_H cs_gl cs_gf cs_past cs_n cs_hits cs_w cs_adm].
    split_and!; try done; try congruence.
    - by rewrite szs_del, E4.
    - by rewrite szs_del, E5.
    - by rewrite F5, E9, <- E4, <- E5, !szs_ids.
  Qed.

  Lemma keep_elem z l x : x ∈ keep z l -> x ∈ l.
  Proof using.
    revert z. induction l as [|y l IH]; intros z; [done|]. cbn. case_decide; [|by intros ?%elem_of_nil].
    rewrite !elem_of_cons. intros [->|Hx]; [by left|right]. eauto.
  Qed.
  Lemma rest_elem z l x : x ∈ rest z l -> x ∈ l.
  Proof using. unfold rest. intros Hx. rewrite <- (take_drop (length (keep z l)) l). apply elem_of_app. by right. Qed.

  Lemma crel_evict s a r : crel s a -> cs_m a <> ∅ ->
    exists s' b, cu_evict draw s r = Ok s' /\ crel s' b /\ cs_evict draw cap a b /\
      (size (cs_m b) < size (cs_m a))%nat.
  Proof using All.
    intros (lR & lS & lH & lgl & lgf & HK & E1 & E2 & E3 & E4 & E5 & E6 & E7 & E8 & E9 & E10) Hm.
    assert (Hne : lR ++ lS <> []).
    { intros E. apply Hm, map_empty. intros id. apply (k_none _ _ _ _ _ _ _ _ _ HK). rewrite E. apply not_elem_of_nil. }
    destruct (cu_evict_spec s lR lS lH _ _ lgl lgf r HK Hne) as (s' & vl & vf & lgl' & lgf' & lH1 & o' & e & HX). cbv zeta in HX.
    destruct HX as (Hev & _ & Hl & Hvf & Hpol & He & HK' & F1 & F2 & F3 & F4 & F5 & Hfit & F6 & F7).
    rewrite E9 in *. destruct (draw (cs_w a)) as [b w] eqn:Ed. cbn [fst snd] in *.
    set (v := if b then vl else vf) in *.
    eexists s', (mkCst (without v (cs_R a)) (without v (cs_S a)) ((v, e_size e) :: keep (cap - 1 - e_size e) (cs_H a))
            (delete v (cs_m a)) (fun id => if decide (id = v) then e_cnt e else cs_past a id)
            (if decide (vl <> vf /\ b = true) then (v, e_size e) :: keep (half - e_size e) (cs_gl a) else cs_gl a)
            (if decide (vl <> vf /\ b = false) then (v, e_size e) :: keep (half - e_size e) (cs_gf a) else cs_gf a)
            (cs_t a) (cs_n a) (cs_hits a) w (cs_adm a)).
    split; [done|]. split; [|split].
    - exists (l_del v lR), (l_del v lS), ((v, o') :: lH1), lgl', lgf'. split; [exact HK'|].
      cbn [cs_R cs_S cs_H cs_gl cs_gf cs_past cs_n cs_hits cs_w cs_adm].
      split; [by rewrite szs_del, E1|]. split; [by rewrite szs_del, E2|]. split; [|split; [|split; [|split]]].
      + rewrite szs_cons, F5. f_equal. destruct Hfit as (l2 & El2 & Hr).
        destruct (fits_keep cap (e_size e + 1) lH1 l2 lH) as [-> _]; [by exists l2|done|exact (qok_nonneg _ _ _ (k_H _ _ _ _ _ _ _ _ HK))|].
        rewrite E3. f_equal. lia.
      + rewrite F6, E4. destruct (decide (vl = vf)) as [Ev|Ev]; [by rewrite decide_False by tauto|].
        destruct b; [by rewrite decide_True|by rewrite decide_False by (by intros [_ ?])].
      + rewrite F7, E5. destruct (decide (vl = vf)) as [Ev|Ev]; [by rewrite decide_False by tauto|].
        destruct b; [by rewrite decide_False by (by intros [_ ?])|by rewrite decide_True].
      + apply Forall_cons. split; [cbn; by rewrite decide_True|]. rewrite Forall_forall. intros [id o] Ho. cbn.
        assert (id ∈ ids lH1) as Hid by (apply ids_elem; eauto). rewrite decide_False.
        * destruct Hfit as (l2 & -> & _). rewrite Forall_forall in E6. apply (E6 (id, o)). apply elem_of_app. by left.
        * intros ->. apply (k_dH _ _ _ _ _ _ _ _ HK v); [apply (k_in _ _ _ _ _ _ _ _ HK); eauto|]. by eapply fits_ids.
      + split_and!; congruence.
    - exists vl, vf, e. rewrite Ed. fold v. split; [|done]. by rewrite <- E1, <- E2, <- szs_app, szs_ids.
    - cbn. rewrite map_size_delete_Some by eauto. 
      assert (size (cs_m a) <> 0%nat) by (by rewrite map_size_non_empty_iff || (intros ?%map_size_empty_inv; done)). lia.
  Qed.

  Lemma crel_occ s a : crel s a -> sr_occ (cu_sr s) = total_bytes (cs_R a ++ cs_S a) /\ c_size (cu_c s) = cap /\ c_md (cu_c s) = 0.
  Proof using.
    intros (lR & lS & lH & lgl & lgf & HK & E1 & E2 & _). split; [|split; apply HK].
    unfold sr_occ, q_occ. rewrite (qok_occ _ _ _ _ (k_R _ _ _ _ _ _ _ _ HK)), (qok_occ _ _ _ _ (k_S _ _ _ _ _ _ _ _ HK)).
    rewrite <- E1, <- E2, <- szs_app, <- bytes_app, (szs_bytes 0). lia.
  Qed.

  Lemma crel_empty s a : crel s a -> cs_m a = ∅ -> cs_R a ++ cs_S a = [].
  Proof using.
    intros (lR & lS & lH & lgl & lgf & HK & E1 & E2 & _) E. rewrite <- E1, <- E2, <- szs_app.
    destruct (szs (lR ++ lS)) as [|[id z] l] eqn:El; [done|]. exfalso.
    destruct (proj1 (k_same _ _ _ _ _ _ _ _ HK id z)) as (e & He & _); [rewrite El; by left|]. rewrite E in He. by rewrite lookup_empty in He.
  Qed.

  Definition absent (id : Z) (a : cst W) : Prop := cs_m a !! id = None /\ id ∉ (cs_gl a).*1 /\ id ∉ (cs_gf a).*1.

  Lemma evict_absent a b id : cs_evict draw cap a b -> absent id a -> absent id b.
  Proof using.
    intros (vl & vf & e & HX) (A1 & A2 & A3). destruct (draw (cs_w a)) as [l w]. destruct HX as (_ & _ & _ & He & ->).
    set (v := if l then vl else vf) in *. assert (id <> v) by congruence. split; [|split]; cbn.
    - by apply lookup_delete_None; right.
    - case_decide; [|done]. cbn. rewrite elem_of_cons, elem_of_list_fmap. intros [?|(x & -> & Hx%keep_elem)]; [done|].
      apply A2, elem_of_list_fmap. eauto.
    - case_decide; [|done]. cbn. rewrite elem_of_cons, elem_of_list_fmap. intros [?|(x & -> & Hx%keep_elem)]; [done|].
      apply A3, elem_of_list_fmap. eauto.
  Qed.

  Lemma evict_n a b : cs_evict draw cap a b -> cs_n b = cs_n a /\ cs_hits b = cs_hits a.
  Proof using.
    intros (vl & vf & e & HX). destruct (draw (cs_w a)) as [l w]. by destruct HX as (_ & _ & _ & He & ->).
  Qed.

  Lemma crel_room r : 0 <= r_size r <= cap -> forall fuel s a, crel s a -> absent (r_id r) a -> (size (cs_m a) <= fuel)%nat ->
    exists s' b, evict_loop ops fuel s r = Ok s' /\ crel s' b /\ cs_room draw cap (r_size r) a b /\ absent (r_id r) b /\ cs_n b = cs_n a /\ cs_hits b = cs_hits a /\
      total_bytes (cs_R b ++ cs_S b) + r_size r <= cap.
  Proof using All.
    intros Hz. induction fuel as [|fuel IH]; intros s a HC HA Hf; cbn [evict_loop];
      cbn [op_occupied op_md op_size cu_ops]; destruct (crel_occ _ _ HC) as (-> & -> & ->).
    - assert (cs_m a = ∅) as E by (apply map_size_empty_inv; lia). rewrite (crel_empty _ _ HC E).
      change (total_bytes []) with 0. rewrite decide_False by lia. exists s, a. split; [done|]. split; [done|].
      rewrite (crel_empty _ _ HC E). change (total_bytes []) with 0.
      split; [|split; [done|split; [done|split; [done|lia]]]]. apply room_enough. rewrite (crel_empty _ _ HC E). change (total_bytes []) with 0. lia.
    - destruct (decide (total_bytes (cs_R a ++ cs_S a) + r_size r + 0 > cap)) as [Hgt|Hle].
      + assert (cs_m a <> ∅) as Hm. { intros E. rewrite (crel_empty _ _ HC E) in Hgt. change (total_bytes []) with 0 in Hgt. lia. }
        destruct (crel_evict s a r HC Hm) as (s1 & a1 & Hev & HC1 & Hs & Hlt). cbn [op_evict cu_ops]. rewrite Hev. cbn [rbind].
        destruct (IH s1 a1 HC1 (evict_absent _ _ _ Hs HA) ltac:(lia)) as (s' & b & -> & HC' & Hr & HA' & Hn & Hh & Hb).
        exists s', b. split; [done|]. split; [done|]. split; [|split; [done|split; [destruct (evict_n _ _ Hs) as [E1 E2]; by rewrite Hn, E1|split; [destruct (evict_n _ _ Hs) as [E1 E2]; by rewrite Hh, E2|done]]]].
        eapply room_more; [lia|done|done].
      + exists s, a. split; [done|]. split; [done|]. split; [apply room_enough; lia|]. split; [done|]. split; [done|]. split; [done|lia].
  Qed.

  Lemma crel_insert s a r : crel s a -> absent (r_id r) a -> cs_n a <> 0 -> 1 <= r_size r < 2 ^ 32 -> r_size r <= half ->
    total_bytes (cs_R a ++ cs_S a) + r_size r <= cap ->
    exists s', cu_insert s r = Ok s' /\ crel s' (cs_insert cap a r).
  Proof using All.
    intros (lR & lS & lH & lgl & lgf & HK & E1 & E2 & E3 & E4 & E5 & E6 & E7 & E8 & E9 & E10) (A1 & A2 & A3) Hn Hz Hh Hb.
    assert (Hni : r_id r ∉ ids (lR ++ lS)).
    { intros Hin. apply (k_in _ _ _ _ _ _ _ _ HK) in Hin as [e ?]. congruence. }
    rewrite <- E4, szs_ids in A2. rewrite <- E5, szs_ids in A3.
    destruct (cu_insert_spec s lR lS lH _ _ lgl lgf r HK Hni A2 A3) as (s' & lR' & lS' & lH' & m' & Hins & HK' & F1 & F2 & F3 & HX & Hin & Hold).
    { congruence. } { split; lia. } { lia. }
    { rewrite (szs_bytes 0), szs_app, E1, E2. lia. }
    cbv zeta in HX. rewrite E1, E2, szs_del, E3 in HX. fold (without (r_id r) (cs_H a)) in HX.
    assert (bool_decide (r_id r ∈ ids lH) = bool_decide (r_id r ∈ (cs_H a).*1)) as Eo by (by rewrite <- E3, szs_ids).
    rewrite Eo in HX. exists s'. split; [done|].
    assert (memory (Some (sr_H (cu_sr s))) (r_id r) = (if bool_decide (r_id r ∈ (cs_H a).*1) then cs_past a (r_id r) + 1 else 1)) as Em.
    { unfold memory. rewrite <- Eo. pose proof (k_H _ _ _ _ _ _ _ _ HK) as HH. destruct (decide (r_id r ∈ ids lH)) as [Hi|Hi].
      - rewrite bool_decide_eq_true_2 by done. apply ids_elem in Hi as (o & Ho). rewrite (proj2 (qok_lookup _ _ _ _ HH (r_id r) o) Ho).
        rewrite Forall_forall in E6. specialize (E6 _ Ho). cbn in E6. lia.
      - rewrite bool_decide_eq_false_2 by done. by rewrite (proj2 (qok_lookup_None _ _ _ _ HH (r_id r)) Hi). }
    rewrite Em in HX.
    unfold cs_insert. cbv zeta. set (old := bool_decide (r_id r ∈ (cs_H a).*1)) in *.
    set (S0 := if old then rest (half - r_size r) (cs_R a) ++ cs_S a else (r_id r, r_size r) :: cs_S a) in *.
    destruct HX as (G1 & G2 & G3 & G4).
    assert (HS0 : forall id, id ∈ (rest half S0).*1 -> id = r_id r \/ id ∈ ids (lR ++ lS)).
    { intros id (x & -> & Hx%rest_elem)%elem_of_list_fmap. rewrite <- szs_ids, szs_app, E1, E2, fmap_app, elem_of_app.
      unfold S0 in Hx. destruct old.
      - apply elem_of_app in Hx as [Hx%rest_elem|Hx]; right; [left|right]; apply elem_of_list_fmap; eauto.
      - apply elem_of_cons in Hx as [->|Hx]; [by left|]. right. right. apply elem_of_list_fmap; eauto. }
    exists lR', lS', lH', lgl, lgf. cbn [cs_R cs_S cs_H cs_m cs_t cs_gl cs_gf cs_past cs_n cs_hits cs_w cs_adm].
    assert (m' = filter (fun x => x.1 ∉ (rest half S0).*1)
      (<[r_id r := mkEntry (r_size r) (cs_t a) (cs_t a) (if old then cs_past a (r_id r) + 1 else 1) (r_next r) (r_size r)]> (cs_m a))) as <-.
    { apply map_eq. intros id. rewrite G4, map_filter_lookup. unfold reborn.
      destruct (<[r_id r := _]> (cs_m a) !! id) as [e|] eqn:El; cbn; [|by destruct (decide _)].
      destruct (decide (id ∈ (rest half S0).*1)) as [Hi|Hi].
      - rewrite option_guard_False by tauto. done.
      - by rewrite option_guard_True. }
    split; [exact HK'|]. split_and!; try done; try congruence.
    rewrite Forall_forall. intros [id o] Ho. cbn.
    assert (Hid : id ∈ ids lH') by (apply ids_elem; eauto).
    assert (Hne : id <> r_id r) by (intros ->; by apply (k_dH _ _ _ _ _ _ _ _ HK' (r_id r))).
    destruct (Hold _ _ Ho) as [Ho1|(e & He & Hp)].
    - rewrite decide_False; [rewrite Forall_forall in E6; by apply (E6 (id, o))|].
      intros [?|Hi]%HS0; [done|]. apply (k_dH _ _ _ _ _ _ _ _ HK id); [done|]. apply ids_elem. eauto.
    - rewrite decide_True, He; [done|]. rewrite <- szs_ids, G3 in Hid. apply elem_of_list_fmap in Hid as (x & Ex & Hx%keep_elem).
      apply elem_of_app in Hx as [Hx|Hx]; [apply elem_of_list_fmap; eauto|]. exfalso.
      unfold without in Hx. apply elem_of_list_filter in Hx as [_ Hx]. rewrite <- E3 in Hx.
      apply (k_dH _ _ _ _ _ _ _ _ HK id); [apply (k_in _ _ _ _ _ _ _ _ HK); eauto|]. rewrite <- szs_ids. apply elem_of_list_fmap. eauto.
  Qed.

  Lemma crel_count s a : crel s a ->
    q_nobj (sr_R (cu_sr s)) + q_nobj (sr_S (cu_sr s)) = Z.of_nat (size (cs_m a)) /\ Z.of_nat (size (cs_m a)) <= cap.
  Proof using.
    intros (lR & lS & lH & lgl & lgf & HK & _).
    assert (El : size (cs_m a) = length (lR ++ lS)).
    { rewrite <- size_dom. assert (dom (cs_m a) = (list_to_set (ids (lR ++ lS)) : gset Z)) as ->.
      { apply set_eq. intros id. rewrite elem_of_dom, elem_of_list_to_set. symmetry. apply (k_in _ _ _ _ _ _ _ _ HK). }
      rewrite size_list_to_set by apply HK. unfold ids. by rewrite fmap_length. }
    rewrite El. split.
    - unfold q_nobj. rewrite (qok_nobj _ _ _ _ (k_R _ _ _ _ _ _ _ _ HK)), (qok_nobj _ _ _ _ (k_S _ _ _ _ _ _ _ _ HK)), app_length. lia.
    - pose proof (k_b _ _ _ _ _ _ _ _ HK) as Hb. pose proof (k_w _ _ _ _ _ _ _ _ HK) as HW.
      assert (Z.of_nat (length (lR ++ lS)) <= bytes 0 (lR ++ lS)); [|lia]. clear -HW. unfold within in HW.
      induction HW as [|x l Hx HF IH]; [done|]. rewrite bytes_cons. cbn [length]. lia.
  Qed.

  Lemma crel_learn s a : crel s a ->
    crel (if decide (c_nreq (cu_c s) mod c_size (cu_c s) = 0) then
      mkCU (cu_c s) (cu_sr s) (cu_lfu s) (cu_gl s) (cu_gf s) 0
            (relearn (cu_hit s / c_size (cu_c s)) (cu_w s)) (cu_cand s) (cu_gen s) else s) (cs_learn relearn cap a).
  Proof using.
    intros HC. destruct (crel_occ _ _ HC) as (_ & -> & _). pose proof HC as (lR & lS & lH & lgl & lgf & HK & E1 & E2 & E3 & E4 & E5 & E6 & E7 & E8 & E9 & E10).
    unfold cs_learn. rewrite E7. case_decide; [|done]. exists lR, lS, lH, lgl, lgf. split.
    - destruct HK. by split.
    - cbn. split_and!; try done. by rewrite E8, E9.
  Qed.

  Lemma crel_get_base fuel s a r : crel s a -> 0 <= cs_n a -> 1 <= r_size r < 2 ^ 32 -> (Z.to_nat cap <= fuel)%nat ->
    exists s' b h, cache_get_base ops fuel s r = Ok (s', h) /\ crel s' b /\
      cs_get reweigh relearn draw cap a r (cs_learn relearn cap b) h /\
      cs_n b = cs_n a + 1 /\ cs_hits b = cs_hits a + (if h : bool then 1 else 0).
  Proof using All.
    intros HC Hn Hz Hfuel. pose proof (half_pos cap Hcap) as Hh. unfold cache_get_base.
    pose proof (crel_tick _ _ HC) as HT. cbn [op_find op_can_insert op_insert cu_ops].
    change (op_tick (mkOps _ _ _ _ _ _ _ _ _ _ _) s) with (op_tick ops s).
    destruct (cs_m a !! r_id r) as [e|] eqn:He.
    - destruct (crel_hit _ _ r e HT He) as (s1 & -> & HC1). cbn [rbind].
      eexists s1, _, true. split; [done|]. split; [exact HC1|]. split; [by apply get_hit|]. done.
    - destruct (crel_miss _ _ r HT He) as (s1 & -> & HC1). cbn [rbind].
      destruct (crel_occ _ _ HC1) as (_ & Hs1 & Hm1).
      assert (c_adm (cu_c s1) = cs_adm a) as Ha1 by (destruct HC1 as (? & ? & ? & ? & ? & _ & _ & _ & _ & _ & _ & _ & _ & _ & _ & ->); done).
      unfold cu_can_insert, cache_can_insert_default. rewrite Ha1, Hs1, Hm1. destruct (admit (cs_adm a) r) as [adm ok] eqn:Ead.
      pose proof (crel_adm _ _ adm HC1) as HC2.
      destruct ok; [|cbn [rbind]; eexists _, _, false; split; [done|]; split; [exact HC2|]; split; [by apply get_refused|cbn; lia]].
      rewrite Z.add_0_r. destruct (decide (r_size r > cap)) as [Hg|Hle].
      + cbn [rbind]. eexists _, _, false. split; [done|]. split; [exact HC2|]. split; [by apply get_large|cbn; lia].
      + cbn [rbind].
        assert (HA : absent (r_id r) (cs_set_adm (cs_miss reweigh (cs_tick a) (r_id r)) adm)).
        { split; [done|]. cbn. unfold without. split; intros (x & Hx & [Hx1 _]%elem_of_list_filter)%elem_of_list_fmap; by rewrite Hx in Hx1. }
        destruct (crel_room r ltac:(lia) fuel _ _ HC2 HA) as (s3 & b & -> & HC3 & Hroom & HAb & Hnb & Hhb & Hb).
        { destruct (crel_count _ _ HC2) as [_ ?]. lia. }
        cbn [rbind]. cbn in Hnb, Hhb. destruct (decide (r_size r <= half)) as [Hz2|Hz2].
        * destruct (crel_insert _ _ r HC3 HAb ltac:(lia) Hz Hz2 Hb) as (s4 & -> & HC4). cbn [rbind].
          eexists _, _, false. split; [done|]. split; [exact HC4|]. split; [by eapply get_insert|cbn; lia].
        * assert (cu_insert s3 r = Ok s3) as ->.
          { unfold cu_insert, sr_can_insert. destruct HC3 as (lR & lS & lH & lgl & lgf & HK & _).
            rewrite (qok_lru_false _ _ _ _ (k_H _ _ _ _ _ _ _ _ HK)). cbn [rbind].
            assert (cu_srmd s3 = 0) as -> by (unfold cu_srmd; by rewrite (k_md _ _ _ _ _ _ _ _ HK)).
            unfold q_size. rewrite (qok_size _ _ _ _ (k_R _ _ _ _ _ _ _ _ HK)), (qok_size _ _ _ _ (k_S _ _ _ _ _ _ _ _ HK)).
            rewrite (bool_decide_eq_false_2 (r_size r + 0 <= half)) by lia. by destruct (bool_decide _). }
          cbn [rbind]. eexists _, _, false. split; [done|]. split; [exact HC3|]. split; [|lia]. eapply get_bypass; [done|done|lia|done].
  Qed.

  Lemma learn_n a : cs_n (cs_learn relearn cap a) = cs_n a.
  Proof using. unfold cs_learn. by destruct (decide (cs_n a mod cap = 0)). Qed.

  Lemma crel_get fuel s a r : crel s a -> 0 <= cs_n a -> 1 <= r_size r < 2 ^ 32 -> (Z.to_nat cap <= fuel)%nat ->
    exists s' b h, cu_get reweigh relearn draw fuel s r = Ok (s', h) /\ crel s' b /\ cs_get reweigh relearn draw cap a r b h /\ 0 <= cs_n b.
  Proof using All.
    intros HC Hn Hz Hfuel. unfold cu_get.
    destruct (crel_get_base fuel s a r HC Hn Hz Hfuel) as (s1 & a1 & h & -> & HC1 & Hg & Hn1 & _). cbn [rbind].
    pose proof (crel_learn _ _ HC1) as HL.
    rewrite (decide_False (P := c_size (cu_c s1) = 0)) by (destruct (crel_occ _ _ HC1) as (_ & -> & _); lia).
    assert (0 <= cs_n (cs_learn relearn cap a1)) by (rewrite learn_n; lia).
    destruct (decide (c_nreq (cu_c s1) mod c_size (cu_c s1) = 0)); eexists _, (cs_learn relearn cap a1), h; eauto.
  Qed.

  Lemma crel_step fuel s a c : crel s a -> 0 <= cs_n a -> cs_call c -> (Z.to_nat cap <= fuel)%nat ->
    exists s' b o, cu_step reweigh relearn draw fuel s c = Ok (s', o) /\ crel s' b /\ cs_step reweigh relearn draw cap a c b o /\ 0 <= cs_n b.
  Proof using All.
    intros HC Hn Hok Hfuel. destruct c as [r|r u|r|id|r|r]; try done; cbn [cu_step step].
    - destruct (crel_get fuel s a r HC Hn Hok Hfuel) as (s' & b & h & -> & HC' & Hg & Hn'). cbn [rbind].
      exists s', b, (OBool h). split_and!; try done. by constructor.
    - cbn [op_find cu_ops]. destruct u.
      + destruct (cs_m a !! r_id r) as [e|] eqn:He.
        * destruct (crel_hit _ _ r e HC He) as (s1 & -> & HC1). eexists _, _, _. split; [done|]. split; [done|]. split; [by constructor|done].
        * destruct (crel_miss _ _ r HC He) as (s1 & -> & HC1). eexists _, _, _. split; [done|]. split; [done|]. split; [by constructor|done].
      + rewrite (crel_look _ _ r HC). eexists _, _, _. split; [done|]. split; [done|]. split; [by constructor|done].
    - cbn [op_nobj op_evict cu_ops]. destruct (crel_count _ _ HC) as [-> _].
      destruct (decide (cs_m a = ∅)) as [E|E].
      + rewrite E, map_size_empty. rewrite decide_True by lia. exists s, a, OUnit. split_and!; try done. by constructor.
      + rewrite decide_False by (intros ?; apply E, map_size_empty_inv; lia).
        destruct (crel_evict s a r HC E) as (s1 & a1 & -> & HC1 & Hs & _). cbn [rbind]. exists s1, a1, OUnit.
        split; [done|]. split; [done|]. split; [by constructor|]. destruct (evict_n _ _ Hs) as [E1 _]. by rewrite E1.
  Qed.

  Lemma crel_run fuel cs : (Z.to_nat cap <= fuel)%nat -> Forall cs_call cs -> forall s a, crel s a -> 0 <= cs_n a ->
    exists s' b os, cu_run reweigh relearn draw fuel s cs = Ok (s', os) /\ crel s' b /\ cs_run reweigh relearn draw cap a cs b os /\ 0 <= cs_n b.
  Proof using All.
    intros Hfuel HF. induction HF as [|c cs Hc HF IH]; intros s a HC Hn; cbn [cu_run].
    - exists s, a, []. split_and!; try done. constructor.
    - destruct (crel_step fuel s a c HC Hn Hc Hfuel) as (s1 & a1 & o & -> & HC1 & Hs & Hn1). cbn [rbind].
      destruct (IH s1 a1 HC1 Hn1) as (s' & b & os & -> & HC' & Hr & Hn'). cbn [rbind].
      exists s', b, (o :: os). split_and!; try done. by econstructor.
  Qed.

  (** What is so in all of them. *)
  Lemma crel_inv s a : crel s a ->
    NoDup (cs_R a ++ cs_S a ++ cs_H a).*1 /\
    (forall id z, (id, z) ∈ cs_R a ++ cs_S a <-> exists e, cs_m a !! id = Some e /\ e_size e = z) /\
    (forall id z, (id, z) ∈ cs_R a ++ cs_S a -> 1 <= z <= half) /\
    total_bytes (cs_R a) <= half /\ total_bytes (cs_R a ++ cs_S a) <= cap /\ total_bytes (cs_H a) < cap /\
    (forall id, id ∈ (cs_gl a ++ cs_gf a).*1 -> cs_m a !! id = None) /\
    (forall id, id ∈ (cs_gl a).*1 -> id ∉ (cs_gf a).*1).
  Proof using.
    intros (lR & lS & lH & lgl & lgf & HK & E1 & E2 & E3 & E4 & E5 & _). rewrite <- E1, <- E2, <- E3, <- E4, <- E5.
    rewrite app_assoc, <- !szs_app, !szs_ids.
    split; [|split; [|split; [|split; [|split; [|split; [|split]]]]]].
    - rewrite ids_app. apply NoDup_app. split; [apply HK|]. split; [|apply (qok_nd _ _ _ _ (k_H _ _ _ _ _ _ _ _ HK))].
      exact (k_dH _ _ _ _ _ _ _ _ HK).
    - apply HK.
    - intros id z (o & Ho & <-)%elem_szs. by eapply (within_elem _ _ _ _ (k_w _ _ _ _ _ _ _ _ HK)).
    - pose proof (k_bR _ _ _ _ _ _ _ _ HK) as Hb. rewrite (szs_bytes 0) in Hb. lia.
    - pose proof (k_b _ _ _ _ _ _ _ _ HK) as Hb. rewrite (szs_bytes 0) in Hb. lia.
    - pose proof (k_bH _ _ _ _ _ _ _ _ HK) as Hb. rewrite (szs_bytes 0) in Hb. lia.
    - intros id Hid. apply (k_none _ _ _ _ _ _ _ _ _ HK). intros Hin. rewrite ids_app in Hid. apply elem_of_app in Hid as [Hid|Hid].
      + by apply (k_dgl _ _ _ _ _ _ _ _ HK id).
      + by apply (k_dgf _ _ _ _ _ _ _ _ HK id).
    - intros id H1 H2. by apply (k_dg _ _ _ _ _ _ _ _ HK id).
  Qed.
End Cacheus.
