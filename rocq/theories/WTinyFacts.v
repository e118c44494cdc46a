(** What every operation of the W-TinyLFU model does to its window and to the
    main cache, and the invariant that all client programs preserve. *)
From stdpp Require Import gmap list numbers fin_maps.
From Verif Require Import Base Driver Abs AbsFacts Sim ModelQueue QueueFacts QList SpecApi SpecComp CompFacts ModelTwoQ S3Facts
  ModelFilter SpecWTiny ModelWTiny.
Open Scope Z_scope.

Lemma zsum_empty : zsum ∅ = 0.
Proof. apply map_fold_empty. Qed.
Lemma zsum_insert (L : gmap Z Z) id z : L !! id = None -> zsum (<[id := z]> L) = z + zsum L.
Proof. intros H. unfold zsum. rewrite map_fold_insert_L; [done| |done]. intros; lia. Qed.
Lemma zsum_delete (L : gmap Z Z) id z : L !! id = Some z -> zsum (delete id L) = zsum L - z.
Proof.
  intros H. pose proof (zsum_insert (delete id L) id z (lookup_delete _ _)) as H1.
  rewrite insert_delete in H1 by done. lia.
Qed.
Lemma zsum_nonneg (L : gmap Z Z) : (forall id z, L !! id = Some z -> 0 <= z) -> 0 <= zsum L.
Proof.
  induction L as [|id z L Hn IH] using map_ind; intros Hs; [by rewrite zsum_empty|].
  rewrite zsum_insert by done. assert (0 <= z) by (apply (Hs id), lookup_insert).
  assert (0 <= zsum L); [|lia]. apply IH. intros j y Hj. apply (Hs j).
  rewrite lookup_insert_ne; [done|congruence].
Qed.
Lemma zsum_sub (L1 L : gmap Z Z) : L1 ⊆ L -> (forall id z, L !! id = Some z -> 0 <= z) -> zsum L1 <= zsum L.
Proof.
  revert L1. induction L as [|id z L Hn IH] using map_ind; intros L1 Hss Hs.
  { assert (L1 = ∅) as -> by (by apply map_empty_subseteq || (apply map_eq; intros i; destruct (L1 !! i) eqn:E; [|by rewrite lookup_empty]; by pose proof (lookup_weaken _ _ _ _ E Hss))). done. }
  rewrite zsum_insert by done. assert (Hz : 0 <= z) by (apply (Hs id), lookup_insert).
  assert (Hs' : forall j y, L !! j = Some y -> 0 <= y).
  { intros j y Hj. apply (Hs j). rewrite lookup_insert_ne; [done|congruence]. }
  assert (Hd : delete id L1 ⊆ L).
  { apply map_subseteq_spec. intros j y. rewrite lookup_delete_Some. intros [Hne Hj].
    pose proof (lookup_weaken _ _ _ _ Hj Hss) as Hx. by rewrite lookup_insert_ne in Hx. }
  specialize (IH _ Hd Hs'). destruct (L1 !! id) as [y|] eqn:E.
  - pose proof (lookup_weaken _ _ _ _ E Hss) as Hx. rewrite lookup_insert in Hx. injection Hx as <-.
    rewrite (zsum_delete _ _ _ E) in IH. lia.
  - rewrite delete_notin in IH by done. lia.
Qed.
Lemma size_sub (L1 L : gmap Z Z) : L1 ⊆ L -> (size L1 <= size L)%nat.
Proof.
  revert L1. induction L as [|id z L Hn IH] using map_ind; intros L1 Hss.
  { assert (L1 = ∅) as ->; [|done]. apply map_eq. intros i. destruct (L1 !! i) eqn:E; [|by rewrite lookup_empty].
    by pose proof (lookup_weaken _ _ _ _ E Hss). }
  rewrite map_size_insert_None by done.
  assert (Hd : delete id L1 ⊆ L).
  { apply map_subseteq_spec. intros j y. rewrite lookup_delete_Some. intros [Hne Hj].
    pose proof (lookup_weaken _ _ _ _ Hj Hss) as Hx. by rewrite lookup_insert_ne in Hx. }
  specialize (IH _ Hd). destruct (L1 !! id) as [y|] eqn:E.
  - rewrite map_size_delete_Some in IH by eauto. lia.
  - rewrite delete_notin in IH by done. lia.
Qed.

(** A filter whose operations stay within its array. *)
Definition cbf_wf (k : cbf) : Prop := cb_ready k = true /\ 0 < cb_num k /\ length (cb_bf k) = Z.to_nat (cb_num k).

Section Cbf.
  Context (h1 h2 : Z -> Z).
  Lemma cbf_min_wf n : forall i num (bf : list Z) k mn, 0 < num -> length bf = Z.to_nat num ->
    exists m, cbf_min h1 h2 n i num bf k mn = Ok m.
  Proof.
    induction n as [|n IH]; intros i num bf k mn Hn Hl; cbn [cbf_min]; [eauto|].
    assert (0 <= pos h1 h2 num k i < num) by (apply Z.mod_pos_bound; lia).
    destruct (lookup_lt_is_Some_2 bf (Z.to_nat (pos h1 h2 num k i)) ltac:(lia)) as [v ->]. by apply IH.
  Qed.
  Lemma cbf_incr_wf n : forall i num (bf : list Z) k, 0 < num -> length bf = Z.to_nat num ->
    exists bf', cbf_incr h1 h2 n i num bf k = Ok bf' /\ length bf' = length bf.
  Proof.
    induction n as [|n IH]; intros i num bf k Hn Hl; cbn [cbf_incr]; [eauto|].
    assert (0 <= pos h1 h2 num k i < num) by (apply Z.mod_pos_bound; lia).
    destruct (lookup_lt_is_Some_2 bf (Z.to_nat (pos h1 h2 num k i)) ltac:(lia)) as [v ->].
    destruct (IH (i + 1) num (<[Z.to_nat (pos h1 h2 num k i) := u32 (v + 1)]> bf) k Hn) as (bf' & -> & Hl').
    { by rewrite insert_length. }
    exists bf'. split; [done|]. by rewrite Hl', insert_length.
  Qed.
  Lemma cbf_estimate_wf c k : cbf_wf c -> exists e, cbf_estimate h1 h2 c k = Ok (c, e).
  Proof.
    intros (Hr & Hn & Hl). unfold cbf_estimate, cbf_check_add. rewrite Hr, decide_False by lia.
    destruct (cbf_min_wf (Z.to_nat (cb_hashes c)) 0 (cb_num c) (cb_bf c) k uint_max Hn Hl) as (m & ->).
    cbn [rbind]. rewrite decide_False by (intros [? _]; done). eauto.
  Qed.
  Lemma cbf_add_wf c k : cbf_wf c -> exists c' e, cbf_add h1 h2 c k = Ok (c', e) /\ cbf_wf c'.
  Proof.
    intros (Hr & Hn & Hl). unfold cbf_add, cbf_check_add. rewrite Hr, decide_False by lia.
    destruct (cbf_min_wf (Z.to_nat (cb_hashes c)) 0 (cb_num c) (cb_bf c) k uint_max Hn Hl) as (m & ->).
    cbn [rbind]. destruct (decide _).
    - destruct (cbf_incr_wf (Z.to_nat (cb_hashes c)) 0 (cb_num c) (cb_bf c) k Hn Hl) as (bf & -> & Hb).
      cbn [rbind]. eexists _, _. split; [done|]. unfold cbf_wf. cbn. split_and!; congruence || lia.
    - eexists _, _. by split.
  Qed.
  Lemma cbf_decay_wf c : cbf_wf c -> cbf_wf (cbf_decay c).1.
  Proof.
    intros (Hr & Hn & Hl). unfold cbf_decay. rewrite Hr. unfold cbf_wf. cbn. by rewrite fmap_length.
  Qed.
  Lemma cbf_init_wf hashes num : 0 < hashes -> cbf_wf (cbf_init hashes num).
  Proof. intros. unfold cbf_init, cbf_wf. cbn. rewrite replicate_length. destruct (decide _); split_and!; done || lia. Qed.
End Cbf.

(** ids of a list and of a map are disjoint *)
Definition apartz (l : qlist) (L : gmap Z Z) : Prop := forall id, id ∈ ids l -> L !! id = None.

Section WT.
  Context {M : Type} (O : ops M) (h1 h2 : Z -> Z) (msz : Z) (good fitm : Z -> Prop) (over plain rem : bool)
          (MR : M -> gmap Z Z -> Prop).
  Context (G : Z -> Z -> Prop) (cap wsz : Z).
  Context (HM : main_ok O msz good fitm over plain rem MR).
  (** Either the main cache can be given more than it has room for, or all
      objects have the same size. *)
  Context (Hgood : forall id z, G id z -> good z).
  Context (Hover : over = true \/ forall i j y z, G i y -> G j z -> y = z).

  Record wok (s : wt M) (lw : qlist) (L : gmap Z Z) : Prop := mkWok {
    wok_w   : qok wsz 0 (w_lru s) lw;
    wok_m   : MR (w_main s) L;
    wok_k   : cbf_wf (w_cbf s);
    wok_sz  : w_size s = cap;
    wok_wm  : apartz lw L;
    wok_cap : bytes 0 lw + zsum L <= cap;
    wok_fit : Forall (fun x => fitm (o_size x.2)) lw;
    wok_Gw  : allG G lw;
    wok_Gm  : forall id z, L !! id = Some z -> G id z
  }.

  Lemma wok_nonneg s lw L : wok s lw L -> 0 <= bytes 0 lw /\ 0 <= zsum L.
  Proof.
    intros []. split; [apply bytes_nonneg; [lia|apply wok_w0]|]. apply zsum_nonneg. intros id z.
    by apply (mi_nonneg _ _ _ _ _ _ _ _ HM _ _ _ _ wok_m0).
  Qed.

  Lemma wok_find_false s lw L r : wok s lw L ->
    wt_find O h1 h2 s r false = Ok (s, bool_decide (r_id r ∈ ids lw \/ is_Some (L !! r_id r))).
  Proof.
    intros []. unfold wt_find. rewrite (qok_lru_false _ _ _ _ wok_w0). cbn [rbind wt_set_lru w_main].
    rewrite (mi_find_false _ _ _ _ _ _ _ _ HM _ _ r wok_m0). cbn [rbind andb]. destruct s. unfold wt_set_main. cbn.
    do 2 f_equal. rewrite bool_decide_or. done.
  Qed.

  Lemma wok_find_true s lw L r : wok s lw L ->
    exists s' lw' L', wt_find O h1 h2 s r true = Ok (s', bool_decide (r_id r ∈ ids lw \/ is_Some (L !! r_id r))) /\
      wok s' lw' L' /\ w_adm s' = w_adm s /\ (forall id, id ∈ ids lw' <-> id ∈ ids lw) /\ length lw' = length lw /\
      (r_id r ∉ ids lw -> lw' = lw) /\
      (r_id r ∈ ids lw -> exists o o', (r_id r, o) ∈ lw /\ o_size o' = o_size o /\ lw' = (r_id r, o') :: l_del (r_id r) lw) /\
      L' ⊆ L /\ (is_Some (L !! r_id r) -> is_Some (L' !! r_id r)) /\ (plain = true \/ L !! r_id r = None -> L' = L).
  Proof.
    intros HW. pose proof HW as []. unfold wt_find.
    assert (Hw : exists w' lw', lru_find (w_lru s) r true = Ok (w', bool_decide (r_id r ∈ ids lw)) /\ qok wsz 0 w' lw' /\
       (forall id, id ∈ ids lw' <-> id ∈ ids lw) /\ length lw' = length lw /\ (r_id r ∉ ids lw -> lw' = lw) /\
       (r_id r ∈ ids lw -> exists o o', (r_id r, o) ∈ lw /\ o_size o' = o_size o /\ lw' = (r_id r, o') :: l_del (r_id r) lw) /\
       bytes 0 lw' = bytes 0 lw /\ allG G lw' /\ Forall (fun x => fitm (o_size x.2)) lw').
    { destruct (decide (r_id r ∈ ids lw)) as [Hi|Hi].
      - destruct (qok_lru_hit _ _ _ _ r wok_w0 Hi) as (w' & o' & -> & (o & Ho & ->) & Hq).
        exists w', ((r_id r, o_hit r o) :: l_del (r_id r) lw). rewrite bool_decide_eq_true_2 by done.
        split_and!; try done.
        + intros id. cbn [ids fmap list_fmap fst]. fold (ids (l_del (r_id r) lw)). rewrite elem_of_cons, elem_ids_del.
          destruct (decide (id = r_id r)) as [->|?]; naive_solver.
        + cbn [length]. apply (length_del _ o); [apply wok_w0|done].
        + intros _. exists o, (o_hit r o). done.
        + rewrite bytes_cons, (bytes_del _ _ o); [|apply wok_w0|done]. cbn. lia.
        + apply allG_cons; [|by apply allG_del]. cbn. exact (allG_elem _ _ _ _ wok_Gw0 Ho).
        + apply Forall_cons. split; [|by apply Forall_del]. cbn. rewrite Forall_forall in wok_fit0. by apply (wok_fit0 _ Ho).
      - exists (w_lru s), lw. rewrite (qok_lru_miss _ _ _ _ wok_w0 r true Hi), bool_decide_eq_false_2 by done.
        split_and!; try done. }
    destruct Hw as (w' & lw' & -> & Hq & Hids & Hlen & Hnin & Hin & Hb & HG & Hfit). cbn [rbind wt_set_lru w_main].
    destruct (mi_find_true _ _ _ _ _ _ _ _ HM _ _ r wok_m0) as (m' & L' & -> & HM' & Hss & Hkeep & Hsame).
    cbn [rbind andb wt_set_main wt_set_lru w_cbf w_cnt w_max].
    assert (Hnn : zsum L' <= zsum L).
    { apply zsum_sub; [done|]. intros id z. by apply (mi_nonneg _ _ _ _ _ _ _ _ HM _ _ _ _ wok_m0). }
    assert (HC : forall s', w_lru s' = w' -> w_main s' = m' -> cbf_wf (w_cbf s') -> w_size s' = cap -> wok s' lw' L').
    { intros s' E1 E2 E3 E4. split; rewrite ?E1, ?E2; try done.
      - intros id Hid. apply Hids in Hid. destruct (L' !! id) eqn:E; [|done].
        pose proof (lookup_weaken _ _ _ _ E Hss) as Hx. by rewrite (wok_wm0 id Hid) in Hx.
      - lia.
      - intros id z Hz. apply wok_Gm0. by eapply lookup_weaken. }
    rewrite bool_decide_or.
    destruct (bool_decide (is_Some (L !! r_id r))) eqn:Eb.
    - destruct (cbf_add_wf h1 h2 (w_cbf s) (r_id r) wok_k0) as (k' & e & -> & Hk'). cbn [rbind wt_set_cbf w_cnt w_max].
      destruct (decide _); (eexists _, lw', L'; split; [done|]); (split; [apply HC; cbn; try done; by apply cbf_decay_wf|]); done.
    - eexists _, lw', L'. split; [done|]. split; [by apply HC|]. done.
  Qed.

  (** Taking the window's candidate out. *)
  Lemma wok_drop s lw v o L : wok s (lw ++ [(v, o)]) L ->
    0 <= o_size o < 2 ^ 32 /\ fitm (o_size o) /\ G v (o_size o) /\ L !! v = None /\ v ∉ ids lw /\
    l_del v (lw ++ [(v, o)]) = lw /\
    bytes 0 (lw ++ [(v, o)]) = bytes 0 lw + o_size o /\
    (forall id, id ∈ ids lw -> L !! id = None) /\
    Forall (fun x => fitm (o_size x.2)) lw /\ allG G lw /\
    q_to_evict_tail (w_lru s) (mkReq 0 0 0 0 0) = Ok (w_lru s, Some v) /\
    c_tbl (q_c (w_lru s)) !! v = Some o.
  Proof.
    intros []. assert (Hin : (v, o) ∈ lw ++ [(v, o)]) by (apply elem_of_app; right; left).
    destruct (NoDup_ids_mid lw v o [] (qok_nd _ _ _ _ wok_w0)) as (Hv & _).
    pose proof (osz_elem _ _ _ _ _ wok_w0 Hin). apply Forall_app in wok_fit0 as [F1 F2].
    apply Forall_cons in F2 as [F2 _]. pose proof (allG_elem G _ _ _ wok_Gw0 Hin) as HGv.
    apply allG_app in wok_Gw0 as [G1 _].
    split_and!; try done; try lia.
    - apply wok_wm0. apply ids_elem. eauto.
    - rewrite (l_del_mid lw v o []); [by rewrite app_nil_r|]. apply wok_w0.
    - rewrite bytes_app, bytes_cons. cbn. lia.
    - intros id Hid. apply wok_wm0. rewrite ids_app. apply elem_of_app. by left.
    - by apply (qok_to_evict _ _ _ _ _ o (mkReq 0 0 0 0 0) wok_w0).
    - by apply (qok_lookup _ _ _ _ wok_w0).
  Qed.

  Definition ev_post (r : req) (s : wt M) (lw : qlist) (L : gmap Z Z) (s' : wt M) (lw' : qlist) (L' : gmap Z Z) (gone : list Z) : Prop :=
    wok s' lw' L' /\
    (w_adm s' = w_adm s /\ w_cnt s' = w_cnt s /\ w_max s' = w_max s /\ w_nreq s' = w_nreq s) /\
    contest O h1 h2 r (szs lw) (w_main s) (w_cbf s) gone (szs lw') (w_main s') (w_cbf s') /\
    bytes 0 lw' + zsum L' <= bytes 0 lw + zsum L /\
    (length lw' + size L' < length lw + size L)%nat /\
    (exists d, lw = lw' ++ d) /\
    (forall id z, L' !! id = Some z -> L !! id = Some z \/ exists o, (id, o) ∈ lw /\ o_size o = z) /\
    Forall (fun v => v ∈ ids lw \/ is_Some (L !! v)) gone /\
    (forall v, v ∈ gone -> ~ (v ∈ ids lw' \/ is_Some (L' !! v))) /\
    (plain = true -> forall id, id ∈ ids lw \/ is_Some (L !! id) -> id ∈ gone \/ id ∈ ids lw' \/ is_Some (L' !! id)).

  Lemma szs_app l1 l2 : szs (l1 ++ l2) = szs l1 ++ szs l2.
  Proof. unfold szs. apply fmap_app. Qed.

  Lemma wok_main_evict r n lw s L : wok s lw L -> bytes 0 lw = 0 -> zsum L > 0 ->
    exists s' lw' L' gone, wt_loop O h1 h2 n s r = Ok s' /\ ev_post r s lw L s' lw' L' gone.
  Proof.
    intros HW Hz Hpos. pose proof HW as [].
    assert (Hocc : q_occ (w_lru s) = 0) by (rewrite <- Hz; apply wok_w0).
    assert (HE : wt_loop O h1 h2 n s r = let! m := op_evict O (w_main s) r in Ok (wt_set_main s m))
      by (destruct n; cbn [wt_loop]; by rewrite decide_False by lia).
    assert (L <> ∅) by (intros ->; rewrite zsum_empty in Hpos; lia).
    destruct (mi_evict _ _ _ _ _ _ _ _ HM _ _ r wok_m0 H) as (m1 & v & m2 & Hte & _ & [z Hv] & Hev & HM2 & _).
    rewrite HE, Hev. cbn [rbind]. pose proof (zsum_delete _ _ _ Hv) as Hd.
    pose proof (mi_nonneg _ _ _ _ _ _ _ _ HM _ _ _ _ wok_m0 Hv).
    exists (wt_set_main s m2), lw, (delete v L), [v]. split; [done|]. unfold ev_post. split_and!; try done.
    - split; cbn; try done.
      + intros id Hid. rewrite lookup_delete_None. right. by apply wok_wm0.
      + lia.
      + intros id y. rewrite lookup_delete_Some. intros [_ ?]. by apply wok_Gm0.
    - cbn. eapply contest_main; try done. rewrite (szs_bytes 0) in Hz. lia.
    - lia.
    - rewrite map_size_delete_Some by eauto.
      assert (size L <> 0%nat) by (by apply map_size_non_empty_iff). lia.
    - exists []. by rewrite app_nil_r.
    - intros id y. rewrite lookup_delete_Some. intros [_ ?]. by left.
    - constructor; [|done]. right. eauto.
    - intros j ->%elem_of_list_singleton. rewrite lookup_delete. intros [Hj|[? ?]]; [|done].
      by rewrite (wok_wm0 v Hj) in Hv.
    - intros _ id. rewrite lookup_delete_is_Some. destruct (decide (id = v)) as [->|Hne].
      + intros _. left. left.
      + naive_solver.
  Qed.

  (** One eviction. *)
  Lemma wok_loop r : forall lw s L n, wok s lw L -> bytes 0 lw + zsum L > 0 -> (length lw <= n)%nat ->
    exists s' lw' L' gone, wt_loop O h1 h2 n s r = Ok s' /\ ev_post r s lw L s' lw' L' gone.
  Proof.
    induction lw as [|[v o] lw IH] using rev_ind; intros s L n HW Hpos Hn.
    { apply wok_main_evict; try done. }
    pose proof (wok_nonneg _ _ _ HW) as [Hb1 Hb2].
    destruct (decide (bytes 0 (lw ++ [(v, o)]) = 0)) as [Hz|Hnz].
    { apply wok_main_evict; try done. lia. }
    pose proof HW as [].
    assert (Hocc : q_occ (w_lru s) = bytes 0 (lw ++ [(v, o)])) by apply wok_w0.
    destruct (wok_drop _ _ _ _ _ HW) as (Hosz & Hofit & HGv & HLv & Hvn & Hdel & Hbv & Hap & Hfit' & HG' & Hte & Htb).
    rewrite app_length in Hn. cbn [length] in Hn. destruct n as [|n]; [lia|]. cbn [wt_loop].
    rewrite decide_True by lia. unfold q_to_evict_tail in *. injection Hte as Hlast. rewrite Hlast. cbn [rbind].
    rewrite Htb. cbn [r_size req_of_obj].
    assert (Hin : (v, o) ∈ lw ++ [(v, o)]) by (apply elem_of_app; right; left).
    assert (Hvi : v ∈ ids (lw ++ [(v, o)])) by (apply ids_elem; eauto).
    pose proof (req_of_obj_ok _ _ _ _ _ wok_w0 Hin) as Hrq.
    assert (Hszs : szs (lw ++ [(v, o)]) = szs lw ++ [(v, o_size o)]) by (by rewrite szs_app).
    assert (Hts : total_bytes (szs lw ++ [(v, o_size o)]) > 0).
    { rewrite <- Hszs. pose proof (szs_bytes 0 (lw ++ [(v, o)])). lia. }
    assert (Hnn : forall id z, L !! id = Some z -> 0 <= z).
    { intros id z. by apply (mi_nonneg _ _ _ _ _ _ _ _ HM _ _ _ _ wok_m0). }
    rewrite (mi_occ _ _ _ _ _ _ _ _ HM _ _ wok_m0), (mi_size _ _ _ _ _ _ _ _ HM _ _ wok_m0).
    destruct (qok_remove_hit _ _ _ _ wok_w0 v (Z.le_refl 0) Hvi) as (w' & Hrm & Hw'). rewrite Hdel in Hw'.
    destruct (cbf_add_wf h1 h2 (w_cbf s) v wok_k0) as (k' & e & Hadd & Hk').
    (* what remains after the candidate moved to a main cache holding L1 before *)
    assert (HNEXT : forall m1 L1 g1, MR m1 (<[v := o_size o]> L1) -> L1 ⊆ L -> g1 = [] \/ (exists u zu, g1 = [u] /\ L !! u = Some zu /\ L1 !! u = None) ->
      (plain = true -> forall id, is_Some (L !! id) -> id ∈ g1 \/ is_Some (L1 !! id)) ->
      (forall gone lw' m' k'', contest O h1 h2 r (szs lw) m1 k' gone lw' m' k'' ->
         contest O h1 h2 r (szs lw ++ [(v, o_size o)]) (w_main s) (w_cbf s) (g1 ++ gone) lw' m' k'') ->
      bytes 0 lw + zsum (<[v := o_size o]> L1) <= bytes 0 (lw ++ [(v, o)]) + zsum L ->
      exists s' lw' L' gone, wt_loop O h1 h2 n (wt_set_cbf (wt_set_main (wt_set_lru s w') m1) k') r = Ok s' /\
        ev_post r s (lw ++ [(v, o)]) L s' lw' L' gone).
    { intros m1 L1 g1 HM1 Hss Hg1 Hpl Hcon Hle.
      assert (HLv1 : L1 !! v = None).
      { destruct (L1 !! v) eqn:E; [|done]. by rewrite (lookup_weaken _ _ _ _ E Hss) in HLv. }
      assert (Hsl : (size (<[v := o_size o]> L1) <= S (size L))%nat).
      { rewrite map_size_insert_None by done. pose proof (size_sub _ _ Hss). lia. }
      pose proof (zsum_insert L1 v (o_size o) HLv1) as Hzi.
      assert (HW1 : wok (wt_set_cbf (wt_set_main (wt_set_lru s w') m1) k') lw (<[v := o_size o]> L1)).
      { split; cbn; try done.
        - intros id Hid. rewrite lookup_insert_ne by (intros ->; done). destruct (L1 !! id) eqn:E; [|done].
          pose proof (lookup_weaken _ _ _ _ E Hss) as Hx. by rewrite (Hap id Hid) in Hx.
        - lia.
        - intros id z. rewrite lookup_insert_Some. intros [[<- <-]|[_ Hz]]; [done|].
          apply wok_Gm0. by eapply lookup_weaken. }
      assert (0 <= zsum L1).
      { apply zsum_nonneg. intros id z Hz. eapply Hnn, lookup_weaken; eauto. }
      assert (0 <= bytes 0 lw) by (apply bytes_nonneg; [lia|apply Hw']).
      destruct (IH _ _ n HW1 ltac:(lia) ltac:(lia)) as
        (s' & lw' & L' & gone & Hl & HW' & (E1 & E2 & E3 & E4) & Hcon' & Hb' & Hlen & (d & Hd) & HL' & Hgone & Hout & Hkeep).
      exists s', lw', L', (g1 ++ gone). split; [exact Hl|]. cbn in E1, E2, E3, E4, Hcon'.
      assert (Hfrom : forall id z, L' !! id = Some z -> L !! id = Some z \/ exists o', (id, o') ∈ lw ++ [(v, o)] /\ o_size o' = z).
      { intros id z Hz. apply HL' in Hz as [Hz|(o' & Ho' & <-)].
        - rewrite lookup_insert_Some in Hz. destruct Hz as [[<- <-]|[_ Hz]]; [right; eauto|]. left. by eapply lookup_weaken.
        - right. exists o'. split; [|done]. apply elem_of_app. by left. }
      unfold ev_post. split_and!; try done.
      - rewrite Hszs. by apply Hcon.
      - lia.
      - rewrite app_length. cbn [length]. lia.
      - exists (d ++ [(v, o)]). by rewrite app_assoc, <- Hd.
      - apply Forall_app. split.
        + destruct Hg1 as [->|(u & zu & -> & Hu & _)]; [done|]. constructor; [|done]. right. eauto.
        + apply (Forall_impl _ _ _ Hgone). intros x [Hx|[y Hx]].
          * left. rewrite ids_app. apply elem_of_app. by left.
          * rewrite lookup_insert_Some in Hx. destruct Hx as [[<- _]|[_ Hx]]; [by left|]. right. exists y. by eapply lookup_weaken.
      - intros x Hx%elem_of_app. destruct Hx as [Hx|Hx]; [|by apply Hout].
        destruct Hg1 as [->|(u & zu & -> & Hu & Hu1)]; [by apply elem_of_nil in Hx|].
        apply elem_of_list_singleton in Hx as ->.
        assert (Hulw : u ∉ ids lw) by (intros Hx; by rewrite (Hap _ Hx) in Hu).
        intros [Hx|[y Hx]].
        + apply Hulw. rewrite Hd, ids_app. apply elem_of_app. by left.
        + apply HL' in Hx as [Hx|(o' & Ho' & _)]; [|apply Hulw, ids_elem; eauto].
          rewrite lookup_insert_Some in Hx. destruct Hx as [[<- _]|[_ Hx]]; congruence.
      - intros Hp id Hid. rewrite elem_of_app.
        assert (Hc : id ∈ g1 \/ (id ∈ ids lw \/ is_Some (<[v:=o_size o]> L1 !! id))).
        { destruct Hid as [Hid|Hid].
          - right. rewrite ids_app in Hid. apply elem_of_app in Hid as [Hid|Hid]; [by left|].
            cbn in Hid. apply elem_of_list_singleton in Hid as ->. right. rewrite lookup_insert. eauto.
          - apply (Hpl Hp) in Hid as [?|?]; [by left|]. right. right. rewrite lookup_insert_is_Some'. by right. }
        destruct Hc as [Hc|Hc]; [left; by left|]. apply (Hkeep Hp) in Hc. tauto. }
    destruct (decide (zsum L + o_size o <= msz)) as [Hroom|Hno].
    - destruct (mi_insert _ _ _ _ _ _ _ _ HM _ _ (req_of_obj v o) wok_m0 HLv Hrq Hofit) as (m1 & L1 & Hins & HM1 & Hss & Hp1).
      { right. cbn. lia. }
      cbn [r_id r_size req_of_obj] in HM1.
      rewrite Hins. cbn [rbind]. rewrite Hrm. cbn [rbind]. rewrite Hadd. cbn [rbind].
      apply (HNEXT m1 L1 []); try done.
      + by left.
      + intros Hp id Hid. right. by rewrite (Hp1 Hp).
      + intros gone lw' m' k'' Hc. cbn [app]. eapply contest_room with (rq := req_of_obj v o); try done.
        rewrite (mi_occ _ _ _ _ _ _ _ _ HM _ _ wok_m0), (mi_size _ _ _ _ _ _ _ _ HM _ _ wok_m0). lia.
      + assert (HLv1 : L1 !! v = None).
        { destruct (L1 !! v) eqn:E; [|done]. by rewrite (lookup_weaken _ _ _ _ E Hss) in HLv. }
        rewrite (zsum_insert _ _ _ HLv1). pose proof (zsum_sub _ _ Hss Hnn). lia.
    - pose proof (mi_fit _ _ _ _ _ _ _ _ HM _ Hofit).
      assert (HLne : L <> ∅) by (intros ->; rewrite zsum_empty in Hno; lia).
      destruct (mi_evict _ _ _ _ _ _ _ _ HM _ _ r wok_m0 HLne) as (m1 & u & m2 & Hte & HM1 & [zu Hu] & _ & _ & m3 & Hev & HM3).
      rewrite Hte. cbn [rbind].
      destruct (cbf_estimate_wf h1 h2 (w_cbf s) v wok_k0) as (ev & Hest). rewrite Hest. cbn [rbind].
      destruct (cbf_estimate_wf h1 h2 (w_cbf s) u wok_k0) as (eu & Hestu). rewrite Hestu. cbn [rbind].
      assert (Hocm : op_occupied O (w_main s) + o_size o > op_size O (w_main s)).
      { rewrite (mi_occ _ _ _ _ _ _ _ _ HM _ _ wok_m0), (mi_size _ _ _ _ _ _ _ _ HM _ _ wok_m0). lia. }
      destruct (decide (ev > eu)) as [Hwin|Hlose].
      + rewrite Hev. cbn [rbind]. rewrite Hrm. cbn [rbind].
        pose proof (zsum_delete _ _ _ Hu) as Hdz.
        assert (HLv3 : delete u L !! v = None) by (rewrite lookup_delete_None; by right).
        destruct (mi_insert _ _ _ _ _ _ _ _ HM _ _ (req_of_obj v o) HM3 HLv3 Hrq Hofit) as (m4 & L1 & Hins & HM4 & Hss & Hp1).
        { destruct Hover as [?|Heq]; [by left|]. destruct over eqn:Eo; [by left|]. right. cbn [r_size req_of_obj].
          rewrite Hdz, (Heq v u (o_size o) zu HGv (wok_Gm0 _ _ Hu)). pose proof (mi_within _ _ _ _ _ _ _ _ HM _ _ wok_m0 eq_refl). lia. }
        cbn [r_id r_size req_of_obj] in HM4.
        rewrite Hins. cbn [rbind]. rewrite Hadd. cbn [rbind].
        assert (Hss' : L1 ⊆ L) by (etrans; [exact Hss|apply delete_subseteq]).
        assert (HLv1 : L1 !! v = None).
        { destruct (L1 !! v) eqn:E; [|done]. by rewrite (lookup_weaken _ _ _ _ E Hss') in HLv. }
        apply (HNEXT m4 L1 [u]); try done.
        * right. exists u, zu. split_and!; try done. destruct (L1 !! u) eqn:E; [|done].
          pose proof (lookup_weaken _ _ _ _ E Hss) as Hx. by rewrite lookup_delete in Hx.
        * intros Hp id Hid. rewrite (Hp1 Hp), lookup_delete_is_Some, elem_of_list_singleton.
          destruct (decide (id = u)); [by left|]. right. split; [congruence|done].
        * intros gone lw' m' k'' Hc. cbn [app]. eapply contest_win with (rq := req_of_obj v o); try done.
        * rewrite (zsum_insert _ _ _ HLv1). pose proof (zsum_sub _ _ Hss' Hnn). lia.
      + destruct (qok_evict _ _ _ _ _ _ r (Z.le_refl 0) wok_w0) as (w2 & -> & Hw2). cbn [rbind].
        rewrite Hadd. cbn [rbind].
        eexists _, lw, L, [v]. split; [done|]. unfold ev_post. split_and!; try done.
        * split; cbn; try done. lia.
        * rewrite Hszs. cbn [wt_set_cbf wt_set_main wt_set_lru w_main w_cbf]. eapply contest_lose; done || lia.
        * lia.
        * rewrite app_length. cbn [length]. lia.
        * by eexists.
        * intros id z Hz. by left.
        * constructor; [|done]. by left.
        * intros x ->%elem_of_list_singleton. rewrite HLv. intros [?|[? ?]]; done.
        * intros _ id. rewrite ids_app, elem_of_app. cbn [ids fmap list_fmap fst]. rewrite elem_of_list_singleton. tauto.
  Qed.

  Lemma wok_evict r s lw L : wok s lw L -> bytes 0 lw + zsum L > 0 ->
    exists s' lw' L' gone, wt_evict O h1 h2 s r = Ok s' /\ ev_post r s lw L s' lw' L' gone.
  Proof.
    intros HW Hpos. unfold wt_evict. apply wok_loop; try done.
    unfold q_nobj. rewrite (qok_nobj _ _ _ _ (wok_w _ _ _ HW)). lia.
  Qed.

  Lemma wok_occ s lw L : wok s lw L ->
    op_occupied (wt_ops O h1 h2) s = bytes 0 lw + zsum L /\ op_size (wt_ops O h1 h2) s = cap /\
    op_nobj (wt_ops O h1 h2) s = Z.of_nat (length lw + size L).
  Proof.
    intros []. cbn. unfold q_occ, q_nobj. rewrite (qok_occ _ _ _ _ wok_w0), (qok_nobj _ _ _ _ wok_w0).
    rewrite (mi_occ _ _ _ _ _ _ _ _ HM _ _ wok_m0), (mi_nobj _ _ _ _ _ _ _ _ HM _ _ wok_m0). split_and!; try done; lia.
  Qed.

  (** The evictions of a get. *)
  Lemma wok_evict_loop r : 0 <= r_size r <= cap -> forall n s lw L fuel, wok s lw L ->
    (length lw + size L <= n)%nat -> (n <= fuel)%nat ->
    exists s' lw' L', evict_loop (wt_ops O h1 h2) fuel s r = Ok s' /\ wok s' lw' L' /\ w_adm s' = w_adm s /\
      bytes 0 lw' + zsum L' + r_size r <= cap /\
      (length lw' + size L' <= length lw + size L)%nat /\
      (exists d, lw = lw' ++ d) /\
      (forall id z, L' !! id = Some z -> L !! id = Some z \/ exists o, (id, o) ∈ lw /\ o_size o = z) /\
      (bytes 0 lw + zsum L + r_size r <= cap -> s' = s /\ lw' = lw /\ L' = L).
  Proof.
    intros Hr n. induction n as [|n IH]; intros s lw L fuel HW Hn Hf.
    all: destruct (wok_occ _ _ _ HW) as (Ho & Hs & _); pose proof (wok_nonneg _ _ _ HW) as [Hb1 Hb2].
    - assert (lw = [] /\ L = ∅) as [-> ->].
      { split; [destruct lw; [done|cbn in Hn; lia]|apply map_size_empty_inv; lia]. }
      change (bytes 0 []) with 0 in *. rewrite zsum_empty in *.
      exists s, [], ∅. assert (evict_loop (wt_ops O h1 h2) fuel s r = Ok s) as ->.
      { destruct fuel; cbn [evict_loop]; rewrite Ho, Hs; cbn [op_md wt_ops]; by rewrite decide_False by lia. }
      change (bytes 0 []) with 0. rewrite zsum_empty. split_and!; try done; try lia. by exists [].
    - destruct fuel as [|fuel]; [lia|]. cbn [evict_loop]. rewrite Ho, Hs. cbn [op_md wt_ops].
      destruct (decide _) as [Hgt|Hle].
      + cbn [op_evict wt_ops].
        destruct (wok_evict r s lw L HW ltac:(lia)) as (s1 & lw1 & L1 & gone & -> & HP). cbn [rbind].
        destruct HP as (HW1 & (E1 & _) & _ & Hb & Hl & (d & Hd) & HL & _).
        destruct (IH s1 lw1 L1 fuel HW1 ltac:(lia) ltac:(lia)) as (s' & lw' & L' & -> & HW' & E' & Hc & Hl' & (d' & Hd') & HL' & _).
        exists s', lw', L'. split_and!; try done; try lia; try congruence.
        * exists (d' ++ d). by rewrite app_assoc, <- Hd'.
        * intros id z Hz. apply HL' in Hz as [Hz|(o & Ho' & Hz)]; [by apply HL|]. right. exists o. split; [|done].
          rewrite Hd. apply elem_of_app. by left.
      + exists s, lw, L. split_and!; try done; try lia. exists []. by rewrite app_nil_r. by left.
  Qed.

  Lemma wok_can s lw L r : wok s lw L -> good (r_size r) ->
    exists s' b, wt_can_insert O s r = Ok (s', b) /\ wok s' lw L /\
      (b = true <-> (admit (w_adm s) r).2 = true /\ r_size r <= cap /\ r_size r <= wsz /\ fitm (r_size r)).
  Proof.
    intros [] Hg. unfold wt_can_insert. destruct (admit (w_adm s) r) as [a ok]. cbn [wt_set_adm w_size w_lru w_main snd].
    unfold q_size. rewrite (qok_size _ _ _ _ wok_w0), wok_sz0.
    destruct (mi_can _ _ _ _ _ _ _ _ HM _ _ r wok_m0 Hg) as (m' & b & -> & Hb & HM').
    destruct ok; cbn [andb].
    - destruct (bool_decide (r_size r <= cap)) eqn:E1; cbn [andb].
      + apply bool_decide_eq_true in E1. destruct (bool_decide (r_size r <= wsz)) eqn:E2.
        * apply bool_decide_eq_true in E2. cbn [rbind]. eexists _, b. split; [done|]. split; [by split|]. rewrite Hb. tauto.
        * apply bool_decide_eq_false in E2. eexists _, false. split; [done|]. split; [by split|]. split; [done|]. lia.
      + apply bool_decide_eq_false in E1. eexists _, false. split; [done|]. split; [by split|]. split; [done|]. lia.
    - eexists _, false. split; [done|]. split; [by split|]. split; [done|]. by intros [? _].
  Qed.

  Lemma wok_insert s lw L r : wok s lw L -> req_ok 0 r -> G (r_id r) (r_size r) -> fitm (r_size r) ->
    r_id r ∉ ids lw -> L !! r_id r = None -> bytes 0 lw + zsum L + r_size r <= cap ->
    exists s' o, wt_insert h1 h2 s r = Ok s' /\ o_size o = r_size r /\ wok s' ((r_id r, o) :: lw) L.
  Proof.
    intros [] Hr HGr Hf Hi HL Hc. unfold wt_insert.
    pose proof (o_size_of_req _ _ Hr (Z.le_refl 0)) as Hos.
    destruct (qok_insert _ _ _ _ wok_w0 r Hi Hr (Z.le_refl 0)) as (w' & -> & Hw'). cbn [rbind].
    destruct (cbf_add_wf h1 h2 (w_cbf s) (r_id r) wok_k0) as (k' & e & -> & Hk'). cbn [rbind].
    exists (wt_set_cbf (wt_set_lru s w') k'), (obj_of_req r). split; [done|]. split; [done|].
    set (o := obj_of_req r) in *. clearbody o.
    split; cbn [wt_set_cbf wt_set_lru w_lru w_main w_cbf w_size]; try done.
    - intros id [->|Hid]%elem_of_cons; [done|]. by apply wok_wm0.
    - rewrite bytes_cons. cbn [snd]. lia.
    - apply Forall_cons. split; [|done]. cbn [snd]. by rewrite Hos.
    - apply allG_cons; [|done]. cbn [fst snd]. by rewrite Hos.
  Qed.

  Lemma wok_remove s lw L id : rem = true -> wok s lw L ->
    exists s', wt_remove O s id = Ok (s', bool_decide (id ∈ ids lw \/ is_Some (L !! id))) /\
      wok s' (l_del id lw) (delete id L).
  Proof.
    intros Hrem HW. pose proof HW as []. unfold wt_remove.
    assert (Hzd : zsum (delete id L) <= zsum L).
    { apply zsum_sub; [apply delete_subseteq|]. intros j z. by apply (mi_nonneg _ _ _ _ _ _ _ _ HM _ _ _ _ wok_m0). }
    pose proof (bytes_del_le _ _ _ _ id (Z.le_refl 0) wok_w0) as Hbd.
    assert (HC : forall s', qok wsz 0 (w_lru s') (l_del id lw) -> MR (w_main s') (delete id L) -> w_cbf s' = w_cbf s ->
       w_size s' = cap -> wok s' (l_del id lw) (delete id L)).
    { intros s' E1 E2 E3 E4. split; rewrite ?E3; try done; try lia; try (by apply allG_del); try (by apply Forall_del).
      - intros j [Hj _]%elem_ids_del. rewrite lookup_delete_None. right. by apply wok_wm0.
      - intros j z. rewrite lookup_delete_Some. intros [_ ?]. by apply wok_Gm0. }
    destruct (decide (id ∈ ids lw)) as [Hi|Hi].
    - destruct (qok_remove_hit _ _ _ _ wok_w0 id (Z.le_refl 0) Hi) as (w' & -> & Hw'). cbn [rbind].
      rewrite bool_decide_eq_true_2 by (by left). eexists. split; [done|]. apply HC; cbn; try done.
      rewrite delete_notin; [done|]. by apply wok_wm0.
    - rewrite (qok_remove_miss _ _ _ _ wok_w0 id Hi). cbn [rbind wt_set_lru w_main].
      destruct (mi_remove _ _ _ _ _ _ _ _ HM _ _ id Hrem wok_m0) as (m' & -> & HM'). cbn [rbind].
      eexists. split; [do 2 f_equal; apply bool_decide_ext; tauto|]. apply HC; cbn; try done.
      by rewrite l_del_notin.
  Qed.

  Lemma wok_get s lw L r fuel : wok s lw L -> req_ok 0 r -> G (r_id r) (r_size r) ->
    (length lw + size L <= fuel)%nat ->
    exists s' lw' L', cache_get_base (wt_ops O h1 h2) fuel s r =
        Ok (s', bool_decide (r_id r ∈ ids lw \/ is_Some (L !! r_id r))) /\ wok s' lw' L' /\
      (length lw' + size L' <= length lw + size L + 1)%nat /\
      ((r_id r ∈ ids lw \/ is_Some (L !! r_id r)) ->
         (forall id, id ∈ ids lw' <-> id ∈ ids lw) /\ L' ⊆ L /\ (is_Some (L !! r_id r) -> is_Some (L' !! r_id r)) /\
         (plain = true \/ L !! r_id r = None -> L' = L) /\
         (r_id r ∈ ids lw -> exists l0, ids lw' = r_id r :: l0)) /\
      (~ (r_id r ∈ ids lw \/ is_Some (L !! r_id r)) ->
         ((admit (w_adm s) r).2 = true /\ r_size r <= cap /\ r_size r <= wsz /\ fitm (r_size r) ->
           (exists l0 d o, lw' = (r_id r, o) :: l0 /\ lw = l0 ++ d /\ o_size o = r_size r) /\
           (forall id z, L' !! id = Some z -> L !! id = Some z \/ exists o, (id, o) ∈ lw /\ o_size o = z) /\
           (bytes 0 lw + zsum L + r_size r <= cap -> L' = L /\ ids lw' = r_id r :: ids lw)) /\
         (~ ((admit (w_adm s) r).2 = true /\ r_size r <= cap /\ r_size r <= wsz /\ fitm (r_size r)) ->
           lw' = lw /\ L' = L)).
  Proof.
    intros HW Hr HGr Hf. unfold cache_get_base.
    set (s0 := op_tick (wt_ops O h1 h2) s). assert (HW0 : wok s0 lw L) by (destruct HW; by split).
    assert (Ea0 : w_adm s0 = w_adm s) by done. clearbody s0.
    change (op_find (wt_ops O h1 h2)) with (wt_find O h1 h2).
    change (op_can_insert (wt_ops O h1 h2)) with (wt_can_insert O).
    change (op_insert (wt_ops O h1 h2)) with (@wt_insert M h1 h2).
    destruct (wok_find_true s0 lw L r HW0) as (s1 & lw1 & L1 & -> & HW1 & Ea1 & Hids & Hlen & Hnin & Hhead & Hss & Hkeep & Hsame).
    cbn [rbind]. pose proof (size_sub _ _ Hss) as Hsz.
    destruct (decide (r_id r ∈ ids lw \/ is_Some (L !! r_id r))) as [Hres|Hnres].
    { rewrite bool_decide_eq_true_2 by done. exists s1, lw1, L1. split; [done|]. split; [done|]. split; [lia|].
      split; [|done]. intros _. split_and!; try done. intros Hi. destruct (Hhead Hi) as (o & o' & _ & _ & ->).
      eexists. cbn. reflexivity. }
    rewrite bool_decide_eq_false_2 by done.
    assert (Hi : r_id r ∉ ids lw) by tauto. assert (HLn : L !! r_id r = None).
    { destruct (L !! r_id r) eqn:E; [|done]. exfalso. apply Hnres. right. eauto. }
    specialize (Hnin Hi). subst lw1. specialize (Hsame (or_intror HLn)). subst L1.
    destruct (wok_can s1 lw L r HW1 (Hgood _ _ HGr)) as (s2 & b & -> & HW2 & Hb). cbn [rbind]. rewrite Ea1, Ea0 in Hb.
    destruct b.
    - pose proof (proj1 Hb eq_refl) as Hok. destruct Hr as [Hr1 Hr2].
      destruct (wok_evict_loop r ltac:(lia) (length lw + size L) s2 lw L fuel HW2 ltac:(lia) Hf)
        as (s3 & lw3 & L3 & -> & HW3 & _ & Hc & Hl3 & (d & Hd) & HL3 & Hsame). cbn [rbind].
      assert (Hi3 : r_id r ∉ ids lw3). { intros Hx. apply Hi. rewrite Hd, ids_app. apply elem_of_app. by left. }
      assert (HL3n : L3 !! r_id r = None).
      { destruct (L3 !! r_id r) eqn:E; [|done]. apply HL3 in E as [E|(o & Ho & _)]; [congruence|].
        exfalso. apply Hi, ids_elem. eauto. }
      destruct (wok_insert s3 lw3 L3 r HW3 (conj Hr1 Hr2) HGr ltac:(tauto) Hi3 HL3n Hc) as (s4 & o & -> & Hos & HW4).
      cbn [rbind]. exists s4, ((r_id r, o) :: lw3), L3. split; [done|]. split; [done|]. cbn [length]. split; [lia|].
      split; [done|]. intros _. split; [|done]. intros _. split_and!; try done.
      + exists lw3, d, o. done.
      + intros Hfit. destruct (Hsame Hfit) as (_ & -> & ->). done.
    - exists s2, lw, L. split; [done|]. split; [done|]. split; [lia|]. split; [done|]. intros _. split; [|done].
      intros Hx. by apply Hb in Hx.
  Qed.

  Lemma wok_init main0 k0 adm : 0 <= cap -> MR main0 ∅ -> cbf_wf k0 -> wok (wt_init O cap wsz main0 k0 adm) [] ∅.
  Proof.
    intros Hc HM0 Hk. split; cbn; try done.
    - apply qok_init.
    - constructor.
  Qed.
End WT.
