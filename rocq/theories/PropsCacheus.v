(** C71: Cacheus (cache/eviction/Cacheus.c with its experts SR_LRU.c and
    CR_LFU.c).  The weights, the learning rate and the random draw are arbitrary
    functions [reweigh], [relearn], [draw] on an arbitrary state.  SpecCacheus.v
    has the specification. *)
From stdpp Require Import gmap list numbers fin_maps sorting.
From Verif Require Import Base Driver Abs AbsFacts ModelQueue ModelLFU ModelTwoQ ModelS3FIFO QList SpecComp CompFacts S3Facts
  ModelCacheus SpecCacheus CRFacts CacheusFacts.
Open Scope Z_scope.

(** The queue's order and its table are the list [l] of (id, size). *)
Definition holds (q : qstate) (l : list (Z * Z)) : Prop :=
  q_q q = l.*1 /\ forall id z, (id, z) ∈ l <-> exists o, c_tbl (q_c q) !! id = Some o /\ o_size o = z.

(** The C structures hold exactly what the specification's state says. *)
Record shows {W} (cap : Z) (s : cacheus W) (a : cst W) : Prop := mkShows {
  sh_R    : holds (sr_R (cu_sr s)) (cs_R a);
  sh_S    : holds (sr_S (cu_sr s)) (cs_S a);
  sh_H    : holds (sr_H (cu_sr s)) (cs_H a);
  sh_past : forall id o, c_tbl (q_c (sr_H (cu_sr s))) !! id = Some o -> o_p1 o = cs_past a id;
  sh_lfu  : forall id, (fun o => (o_size o, o_p1 o)) <$> c_tbl (l_c (cu_lfu s)) !! id = (fun e => (e_size e, e_cnt e)) <$> cs_m a !! id;
  sh_gl   : holds (cu_gl s) (cs_gl a);
  sh_gf   : holds (cu_gf s) (cs_gf a);
  sh_occ  : sr_occ (cu_sr s) = total_bytes (cs_R a ++ cs_S a);
  sh_w    : cu_w s = cs_w a;
  sh_hit  : cu_hit s = cs_hits a;
  sh_nreq : c_nreq (cu_c s) = cs_n a;
  sh_size : q_size (sr_R (cu_sr s)) = cap / 2 /\ q_size (sr_S (cu_sr s)) = cap / 2 /\ q_size (sr_H (cu_sr s)) = cap
}.

Lemma holds_qok sz q l : qok sz 0 q l -> holds q (szs l).
Proof.
  intros HQ. split; [by rewrite (qok_q _ _ _ _ HQ), szs_ids|]. intros id z. rewrite elem_szs. split.
  - intros (o & Ho & Hz). exists o. by rewrite (proj2 (qok_lookup _ _ _ _ HQ id o) Ho).
  - intros (o & Ho & Hz). exists o. by apply (qok_lookup _ _ _ _ HQ) in Ho.
Qed.

Lemma msum_of_szs (L : qlist) m : NoDup (ids L) ->
  (forall id z, (id, z) ∈ szs L <-> exists e, m !! id = Some e /\ e_size e = z) -> total_bytes (szs L) = msum 0 m.
Proof.
  intros Hnd Hs. set (l := prod_map id e_size <$> map_to_list m).
  assert (HP : szs L ≡ₚ l).
  { apply NoDup_Permutation.
    - apply (NoDup_fmap_1 fst). by rewrite szs_ids.
    - apply (NoDup_fmap_1 fst). unfold l. rewrite <- list_fmap_compose.
      assert ((fst ∘ prod_map id e_size) <$> map_to_list m = (map_to_list m).*1) as -> by done. apply NoDup_fst_map_to_list.
    - intros [j z]. rewrite Hs. unfold l. rewrite elem_of_list_fmap. split.
      + intros (e & He & <-). exists (j, e). split; [done|]. by apply elem_of_map_to_list.
      + intros ([j' e] & [= -> ->] & He%elem_of_map_to_list). eauto. }
  assert (Hp : forall a b : list (Z * Z), a ≡ₚ b -> total_bytes a = total_bytes b).
  { intros a b HP2. unfold total_bytes. induction HP2; cbn; lia. }
  rewrite (Hp _ _ HP).
  unfold l, msum, map_fold, total_bytes. unfold compose. clear. induction (map_to_list m) as [|[j e] l' IH]; [done|].
  rewrite fmap_cons. cbn [foldr]. rewrite IH. cbn. lia.
Qed.

Section Props.
  Context {W : Type} (reweigh : bool -> bool -> W -> W) (relearn : Z -> W -> W) (draw : W -> bool * W).
  Context (cap : Z) (Hcap : 0 < cap) (fuel : nat) (Hfuel : (Z.to_nat cap <= fuel)%nat).

  Lemma crel_shows (s : cacheus W) (a : cst W) : crel cap s a -> shows cap s a.
  Proof using.
    intros HC. destruct (crel_occ _ _ _ HC) as (Ho & _). destruct HC as (lR & lS & lH & lgl & lgf & HK & E1 & E2 & E3 & E4 & E5 & E6 & E7 & E8 & E9 & E10).
    split; try done.
    - rewrite <- E1. apply (holds_qok _ _ _ (k_R _ _ _ _ _ _ _ _ _ HK)).
    - rewrite <- E2. apply (holds_qok _ _ _ (k_S _ _ _ _ _ _ _ _ _ HK)).
    - rewrite <- E3. apply (holds_qok _ _ _ (k_H _ _ _ _ _ _ _ _ _ HK)).
    - intros id o Hl%(qok_lookup _ _ _ _ (k_H _ _ _ _ _ _ _ _ _ HK)). rewrite Forall_forall in E6. by apply (E6 (id, o)).
    - intros id. pose proof (crok_tbl _ _ _ _ _ (k_C _ _ _ _ _ _ _ _ _ HK) id) as HF. inversion HF as [o e [H1 H2]|]; cbn; [by rewrite H1, H2|done].
    - rewrite <- E4. apply (holds_qok _ _ _ (k_gl _ _ _ _ _ _ _ _ _ HK)).
    - rewrite <- E5. apply (holds_qok _ _ _ (k_gf _ _ _ _ _ _ _ _ _ HK)).
    - unfold q_size. by rewrite (qok_size _ _ _ _ (k_R _ _ _ _ _ _ _ _ _ HK)), (qok_size _ _ _ _ (k_S _ _ _ _ _ _ _ _ _ HK)), (qok_size _ _ _ _ (k_H _ _ _ _ _ _ _ _ _ HK)).
  Qed.

  Lemma from_init adm w cs : Forall cs_call cs -> exists s a os,
    cu_run reweigh relearn draw fuel (cu_init false cap adm w) cs = Ok (s, os) /\ crel cap s a /\
    cs_run reweigh relearn draw cap (cs_init adm w) cs a os /\ 0 <= cs_n a.
  Proof using All. intros HF. by apply (crel_run reweigh relearn draw cap Hcap fuel cs Hfuel HF _ _ (crel_init reweigh relearn draw cap Hcap adm w)). Qed.

  (** Whatever the calls, Cacheus completes them, answers as the specification
      and holds what the specification says. *)
  Theorem cacheus_refines adm w cs : Forall cs_call cs -> exists s a os,
    cu_run reweigh relearn draw fuel (cu_init false cap adm w) cs = Ok (s, os) /\
    cs_run reweigh relearn draw cap (cs_init adm w) cs a os /\ shows cap s a.
  Proof using All.
    intros HF. destruct (from_init adm w cs HF) as (s & a & os & Hr & HC & Hs & _). exists s, a, os. split; [done|]. split; [done|]. by apply crel_shows.
  Qed.

  (** The experts always have the same objects, with the same sizes; no object is
      in two of R_list, SR_list and the history; the byte limits hold; an object
      in an expert's list of evictions is not cached and not in the other's. *)
  Theorem cacheus_invariant adm w cs s os : Forall cs_call cs ->
    cu_run reweigh relearn draw fuel (cu_init false cap adm w) cs = Ok (s, os) ->
    let R := c_tbl (q_c (sr_R (cu_sr s))) in let S := c_tbl (q_c (sr_S (cu_sr s))) in let H := c_tbl (q_c (sr_H (cu_sr s))) in
    let F := c_tbl (l_c (cu_lfu s)) in let gl := c_tbl (q_c (cu_gl s)) in let gf := c_tbl (q_c (cu_gf s)) in
    (forall id z, (exists o, F !! id = Some o /\ o_size o = z) <->
                  (exists o, R !! id = Some o /\ o_size o = z) \/ (exists o, S !! id = Some o /\ o_size o = z)) /\
    (forall id, R !! id = None \/ S !! id = None) /\ (forall id, F !! id = None \/ H !! id = None) /\
    (forall id, F !! id = None \/ gl !! id = None) /\ (forall id, F !! id = None \/ gf !! id = None) /\
    (forall id, gl !! id = None \/ gf !! id = None) /\
    (forall id o, F !! id = Some o -> 1 <= o_size o <= cap / 2 /\ 1 <= o_p1 o) /\
    q_occ (sr_R (cu_sr s)) <= cap / 2 /\ sr_occ (cu_sr s) <= cap /\ q_occ (sr_H (cu_sr s)) < cap /\
    sr_occ (cu_sr s) = c_occ (l_c (cu_lfu s)) /\
    q_size (sr_R (cu_sr s)) = cap / 2 /\ q_size (sr_S (cu_sr s)) = cap / 2.
  Proof using All.
    intros HF Hr. destruct (from_init adm w cs HF) as (s1 & a & os1 & Hr1 & HC & _). rewrite Hr in Hr1. injection Hr1 as <- <-.
    cbv zeta. pose proof HC as (lR & lS & lH & lgl & lgf & HK & E1 & E2 & E3 & E4 & E5 & _).
    pose proof (k_R _ _ _ _ _ _ _ _ _ HK) as HR. pose proof (k_S _ _ _ _ _ _ _ _ _ HK) as HS. pose proof (k_H _ _ _ _ _ _ _ _ _ HK) as HH.
    pose proof (k_gl _ _ _ _ _ _ _ _ _ HK) as HGl. pose proof (k_gf _ _ _ _ _ _ _ _ _ HK) as HGf.
    pose proof (k_C _ _ _ _ _ _ _ _ _ HK) as HCr.
    assert (HF0 : forall id, c_tbl (l_c (cu_lfu s)) !! id = None <-> id ∉ ids (lR ++ lS)).
    { intros id. rewrite (k_in _ _ _ _ _ _ _ _ _ HK). pose proof (crok_tbl _ _ _ _ _ HCr id) as HT.
      inversion HT as [o e He|]; split; try done.
      intros Hn. exfalso. apply Hn. eauto. }
    assert (Hor : forall q1 q2 l1 l2 z1 z2, qok z1 0 q1 l1 -> qok z2 0 q2 l2 -> disj l1 l2 -> forall id, c_tbl (q_c q1) !! id = None \/ c_tbl (q_c q2) !! id = None).
    { intros q1 q2 l1 l2 z1 z2 H1 H2 Hd id. destruct (decide (id ∈ ids l1)) as [Hi|Hi].
      - right. apply (qok_lookup_None _ _ _ _ H2). exact (Hd id Hi).
      - left. by apply (qok_lookup_None _ _ _ _ H1). }
    assert (HorF : forall q l z, qok z 0 q l -> disj (lR ++ lS) l -> forall id, c_tbl (l_c (cu_lfu s)) !! id = None \/ c_tbl (q_c q) !! id = None).
    { intros q l z Hq Hd id. destruct (decide (id ∈ ids (lR ++ lS))) as [Hi|Hi].
      - right. apply (qok_lookup_None _ _ _ _ Hq). exact (Hd id Hi).
      - left. by apply HF0. }
    split; [|split; [|split; [|split; [|split; [|split; [|split]]]]]].
    - intros id z. transitivity ((id, z) ∈ szs (lR ++ lS)).
      + rewrite (k_same _ _ _ _ _ _ _ _ _ HK). pose proof (crok_tbl _ _ _ _ _ HCr id) as HT. inversion HT as [o e [H1 H2] Eo Ee|Eo Ee]; split.
        * intros (o' & [= <-] & <-). eauto.
        * intros (e' & [= <-] & <-). eauto.
        * by intros (? & ? & _).
        * by intros (? & ? & _).
      + rewrite szs_app, elem_of_app. pose proof (proj2 (holds_qok _ _ _ HR) id z). pose proof (proj2 (holds_qok _ _ _ HS) id z). tauto.
    - apply (Hor _ _ _ _ _ _ HR HS). by eapply k_d1.
    - apply (HorF _ _ _ HH). apply HK.
    - apply (HorF _ _ _ HGl). apply disj_comm, HK.
    - apply (HorF _ _ _ HGf). apply disj_comm, HK.
    - apply (Hor _ _ _ _ _ _ HGl HGf), HK.
    - intros id o Ho. pose proof (crok_tbl _ _ _ _ _ HCr id) as HT. rewrite Ho in HT. inversion HT as [o' e [H1 H2] Eo Ee|]; subst o'.
      destruct (proj1 (elem_szs _ _ _) (proj2 (k_same _ _ _ _ _ _ _ _ _ HK id (e_size e)) ltac:(eauto))) as (o' & Ho' & Hz).
      pose proof (within_elem _ _ _ _ (k_w _ _ _ _ _ _ _ _ _ HK) Ho').
      pose proof (crok_ent _ _ _ _ _ HCr id e ltac:(done)) as (_ & _ & _ & ? & _). lia.
    - destruct (crel_inv _ _ _ HC) as (_ & Hsame & _ & Hb1 & Hb2 & Hb3 & _). destruct (crel_occ _ _ _ HC) as (Hocc & _).
      unfold q_occ, q_size. rewrite (qok_occ _ _ _ _ HR), (qok_occ _ _ _ _ HH), (qok_size _ _ _ _ HR), (qok_size _ _ _ _ HS), Hocc.
      rewrite !(szs_bytes 0), E1, E3. split; [lia|]. split; [lia|]. split; [lia|]. split; [|done].
      rewrite (crok_occ _ _ _ _ _ HCr). rewrite <- E1, <- E2, <- szs_app.
      apply msum_of_szs; apply HK.
  Qed.

  (** A request that is admitted and is at most half of the cache is cached when
      the get returns, and the only other effect on what is cached is that
      objects leave. *)
  Theorem cacheus_get_caches adm w cs r s os s' h : Forall cs_call cs -> 1 <= r_size r < 2 ^ 32 -> r_size r <= cap / 2 ->
    cu_run reweigh relearn draw fuel (cu_init false cap adm w) cs = Ok (s, os) ->
    snd (admit (c_adm (cu_c s)) r) = true ->
    cu_get reweigh relearn draw fuel s r = Ok (s', h) ->
    h = bool_decide (is_Some (c_tbl (l_c (cu_lfu s)) !! r_id r)) /\
    is_Some (c_tbl (l_c (cu_lfu s')) !! r_id r) /\
    forall id, id <> r_id r -> is_Some (c_tbl (l_c (cu_lfu s')) !! id) -> is_Some (c_tbl (l_c (cu_lfu s)) !! id).
  Proof using All.
    intros HF Hz Hh Hr Hadm Hg. destruct (from_init adm w cs HF) as (s1 & a & os1 & Hr1 & HC & _ & Hn). rewrite Hr in Hr1. injection Hr1 as <- <-.
    destruct (crel_get reweigh relearn draw cap Hcap fuel s a r HC Hn Hz Hfuel) as (s2 & b & h2 & Hg2 & HC2 & Hs & _).
    rewrite Hg in Hg2. injection Hg2 as <- <-.
    assert (Hres : forall (s : cacheus W) a, crel cap s a -> forall id, is_Some (c_tbl (l_c (cu_lfu s)) !! id) <-> is_Some (cs_m a !! id)).
    { intros s0 a0 H0 id. pose proof (sh_lfu _ _ _ (crel_shows _ _ H0) id) as E.
      rewrite <- (fmap_is_Some (fun o => (o_size o, o_p1 o))), E, fmap_is_Some. done. }
    assert (Hl : forall x, cs_m (cs_learn relearn cap x) = cs_m x) by (intros x; unfold cs_learn; by case_decide).
    assert (Hroom : forall x y, cs_room draw cap (r_size r) x y -> forall id, is_Some (cs_m y !! id) -> is_Some (cs_m x !! id)).
    { intros x y Hxy. induction Hxy as [x Hx|x y z Hx Hev Hyz IH]; intros id Hid; [done|]. specialize (IH _ Hid).
      destruct Hev as (vl & vf & e & HX). destruct (draw (cs_w x)) as [lru w']. destruct HX as (_ & _ & _ & _ & ->). cbn in IH.
      apply lookup_delete_is_Some in IH. apply IH. }
    rewrite (bool_decide_ext _ _ (Hres _ _ HC (r_id r))).
    inversion Hs as [e He Eb Eh|ad He Had Eb Eh|ad He Had Hgt Eb Eh|ad y He Had Hgt Hro Eb Eh|ad y He Had Hle Hro Eb Eh]; subst b h.
    - rewrite bool_decide_eq_true_2 by (rewrite He; eauto). split; [done|]. split.
      + rewrite (Hres _ _ HC2), Hl. cbn. rewrite lookup_insert. eauto.
      + intros id Hne. rewrite (Hres _ _ HC2), (Hres _ _ HC), Hl. cbn. by rewrite lookup_insert_ne.
    - assert (Ha : c_adm (cu_c s) = cs_adm a) by (destruct HC as (? & ? & ? & ? & ? & _ & _ & _ & _ & _ & _ & _ & _ & _ & _ & E); exact E).
      rewrite Ha, Had in Hadm. done.
    - pose proof (half_pos cap Hcap). lia.
    - lia.
    - rewrite bool_decide_eq_false_2 by (rewrite He; by intros [? ?]). split; [done|].
      assert (Hry : cs_m y !! r_id r = None).
      { destruct (cs_m y !! r_id r) eqn:Ey; [|done]. destruct (Hroom _ _ Hro (r_id r)) as [e0 He0]; [by rewrite Ey|]. cbn in He0. congruence. }
      split.
      + pose proof HC2 as HCi. destruct (crel_inv _ _ _ HCi) as (_ & Hsame & _).
        rewrite (Hres _ _ HC2).
        assert (Hin : (r_id r, r_size r) ∈ cs_R (cs_insert cap y r) ++ cs_S (cs_insert cap y r)).
        { unfold cs_insert. cbv zeta. cbn [cs_R cs_S]. apply elem_of_app. destruct (bool_decide _); [left; left|right].
          cbn [keep snd]. rewrite decide_True by (cbn; lia). left. }
        assert (E1 : forall x, cs_R (cs_learn relearn cap x) = cs_R x) by (intros x; unfold cs_learn; by case_decide).
        assert (E2 : forall x, cs_S (cs_learn relearn cap x) = cs_S x) by (intros x; unfold cs_learn; by case_decide).
        rewrite <- E1, <- E2 in Hin. apply Hsame in Hin as (e & He' & _). eauto.
      + intros id Hne. rewrite (Hres _ _ HC2), (Hres _ _ HC), Hl. unfold cs_insert. cbv zeta. cbn [cs_m].
        intros [e He']. apply map_filter_lookup_Some in He' as [He' _]. rewrite lookup_insert_ne in He' by done.
        apply (Hroom _ _ Hro id). eauto.
  Qed.

  (** What to_evict announces is what the next evict evicts; it evicts nothing
      else, and the history then has the object with its frequency. *)
  Theorem cacheus_evicts_announced adm w cs r r' s os : Forall cs_call cs ->
    cu_run reweigh relearn draw fuel (cu_init false cap adm w) cs = Ok (s, os) ->
    sr_occ (cu_sr s) > 0 ->
    exists s1 v s2 o oh, cu_to_evict draw s r = Ok (s1, Some v) /\ cu_evict draw s1 r' = Ok s2 /\
      c_tbl (l_c (cu_lfu s)) !! v = Some o /\
      (forall id, (fun o => (o_size o, o_p1 o)) <$> c_tbl (l_c (cu_lfu s2)) !! id =
                  if decide (id = v) then None else (fun o => (o_size o, o_p1 o)) <$> c_tbl (l_c (cu_lfu s)) !! id) /\
      c_tbl (q_c (sr_R (cu_sr s2))) !! v = None /\ c_tbl (q_c (sr_S (cu_sr s2))) !! v = None /\
      c_tbl (q_c (sr_H (cu_sr s2))) !! v = Some oh /\ o_p1 oh = o_p1 o /\ o_size oh = o_size o.
  Proof using All.
    intros HF Hr Hocc. destruct (from_init adm w cs HF) as (s1 & a & os1 & Hr1 & HC & _ & Hn). rewrite Hr in Hr1. injection Hr1 as <- <-.
    destruct (crel_occ _ _ _ HC) as (Ho & _).
    assert (Hm : cs_m a <> ∅). { intros E. rewrite Ho, (crel_empty _ _ _ HC E) in Hocc. cbn in Hocc. lia. }
    pose proof HC as (lR & lS & lH & lgl & lgf & HK & E1 & E2 & E3 & E4 & E5 & E6 & E7 & E8 & E9 & E10).
    assert (Hne : lR ++ lS <> []).
    { intros E. apply Hm, map_empty. intros id. apply (k_none _ _ _ _ _ _ _ _ _ _ HK). rewrite E. apply not_elem_of_nil. }
    assert (Hgen : cu_gen s <> c_nreq (cu_c s)).
    { assert (c_nreq (cu_c s) <> 0) by (intros E; by apply Hne, (k_zero _ _ _ _ _ _ _ _ _ HK)).
      pose proof (k_gen _ _ _ _ _ _ _ _ _ HK). pose proof (k_nreq _ _ _ _ _ _ _ _ _ HK). lia. }
    destruct (cu_evict_spec reweigh relearn draw cap Hcap s lR lS lH _ _ lgl lgf r' HK Hne) as (s' & vl & vf & lgl' & lgf' & lH1 & o' & e & HX). cbv zeta in HX.
    destruct HX as (Hev & Hc1 & Hl & Hvf & Hpol & He & HK' & F1 & F2 & F3 & F4 & F5 & _).
    pose proof (k_w _ _ _ _ _ _ _ _ _ HK) as HW. apply within_app in HW as [WR WS].
    destruct (sr_victim reweigh relearn draw cap Hcap (cu_sr s) lR lS lH (k_R _ _ _ _ _ _ _ _ _ HK) (k_S _ _ _ _ _ _ _ _ _ HK) (k_H _ _ _ _ _ _ _ _ _ HK) WR WS
      (k_d1 _ _ _ _ _ _ _ _ _ HK) (k_d2 _ _ _ _ _ _ _ _ _ HK) (k_d3 _ _ _ _ _ _ _ _ _ HK) Hne) as (vl' & Hvl & Hl').
    assert (vl' = vl) as -> by congruence.
    set (b := fst (draw (cu_w s))) in *. set (v := if b then vl else vf) in *.
    set (s1 := mkCU (cu_c s) (cu_sr s) (cu_lfu s) (cu_gl s) (cu_gf s) (cu_hit s) (snd (draw (cu_w s))) (b, Some v) (c_nreq (cu_c s))).
    assert (Hte : forall q, cu_to_evict draw s q = Ok (s1, Some v)).
    { intros q. unfold cu_to_evict, s1, v, b. destruct (draw (cu_w s)) as [b0 w0]. cbn [fst snd]. destruct b0.
      - by rewrite Hvl.
      - change (cr_to_evict (cu_lfu s) q) with (cr_to_evict (cu_lfu s) r'). by rewrite Hc1. }
    assert (Hev1 : cu_evict draw s1 r' = Ok s').
    { rewrite <- Hev. unfold cu_evict. rewrite (decide_False (P := cu_gen s = _)) by done. rewrite Hte. cbn [rbind].
      rewrite (decide_True (P := cu_gen s1 = _)) by done. done. }
    destruct (crok_some cap 0 ltac:(lia) _ _ _ _ _ (k_C _ _ _ _ _ _ _ _ _ HK) He) as (o & Hot & Hos & Hop).
    exists s1, v, s', o, o'. split; [apply Hte|]. split; [done|]. split; [done|]. split; [|split; [|split; [|split; [|lia]]]].
    - intros id. pose proof (crok_tbl _ _ _ _ _ (k_C _ _ _ _ _ _ _ _ _ HK) id) as T1. pose proof (crok_tbl _ _ _ _ _ (k_C _ _ _ _ _ _ _ _ _ HK') id) as T2.
      destruct (decide (id = v)) as [->|Hd].
      + rewrite lookup_delete in T2. by inversion T2.
      + rewrite lookup_delete_ne in T2 by done. destruct (cs_m a !! id) as [e1|].
        * inversion T1 as [x1 ? [A1 A2]|]; inversion T2 as [x2 ? [B1 B2]|]; subst. cbn. congruence.
        * inversion T1; by inversion T2.
    - apply (qok_lookup_None _ _ _ _ (k_R _ _ _ _ _ _ _ _ _ HK')). rewrite elem_ids_del. tauto.
    - apply (qok_lookup_None _ _ _ _ (k_S _ _ _ _ _ _ _ _ _ HK')). rewrite elem_ids_del. tauto.
    - apply (qok_lookup _ _ _ _ (k_H _ _ _ _ _ _ _ _ _ HK')). left.
  Qed.
End Props.

(** With get as the only call the learning rate is only ever updated with a hit
    rate of 0 or 1 (the division of Cacheus.c:368 is of integers): what
    update_lr does with another hit rate does not matter. *)
Theorem cacheus_hit_rate_0_or_1 {W} (reweigh : bool -> bool -> W -> W) (learn1 learn2 : Z -> W -> W) (draw : W -> bool * W)
    cap fuel adm w rs :
  0 < cap -> (Z.to_nat cap <= fuel)%nat -> Forall (fun r => 1 <= r_size r < 2 ^ 32) rs ->
  (forall w, learn1 0 w = learn2 0 w) -> (forall w, learn1 1 w = learn2 1 w) ->
  cu_run reweigh learn1 draw fuel (cu_init false cap adm w) (CGet <$> rs) =
  cu_run reweigh learn2 draw fuel (cu_init false cap adm w) (CGet <$> rs).
Proof.
  intros Hcap Hfuel HF L0 L1.
  assert (Hgen : forall s a, crel cap s a -> 0 <= cs_n a -> 0 <= cs_hits a <= cs_n a mod cap ->
    cu_run reweigh learn1 draw fuel s (CGet <$> rs) = cu_run reweigh learn2 draw fuel s (CGet <$> rs)).
  { induction HF as [|r rs Hr HF IH]; intros s a HC Hn Hh; [done|]. rewrite fmap_cons. cbn [cu_run cu_step].
    unfold cu_get.
    destruct (crel_get_base reweigh learn1 draw cap Hcap fuel s a r HC Hn Hr Hfuel) as (s1 & a1 & h & -> & HC1 & _ & Hn1 & Hh1).
    cbn [rbind]. destruct (crel_occ _ _ _ HC1) as (_ & Hsz & _). rewrite Hsz.
    assert (c_nreq (cu_c s1) = cs_n a1 /\ cu_hit s1 = cs_hits a1) as [En Eh].
    { destruct HC1 as (? & ? & ? & ? & ? & _ & _ & _ & _ & _ & _ & _ & E1 & E2 & _). done. }
    rewrite En, Eh, !(decide_False (P := cap = 0)) by lia.
    pose proof (Z.mod_pos_bound (cs_n a) cap Hcap) as Hb.
    assert (Hle : 0 <= cs_hits a1 <= cs_n a mod cap + 1) by (destruct h; lia).
    destruct (decide (cs_n a1 mod cap = 0)) as [E0|E0].
    - assert (E : cs_hits a1 / cap = 0 \/ cs_hits a1 / cap = 1).
      { assert (cs_hits a1 <= cap) by lia. destruct (decide (cs_hits a1 = cap)) as [->|]; [right; apply Z.div_same; lia|left; apply Z.div_small; lia]. }
      assert (learn1 (cs_hits a1 / cap) (cu_w s1) = learn2 (cs_hits a1 / cap) (cu_w s1)) as -> by (destruct E as [->| ->]; auto).
      cbn [rbind].
      pose proof (crel_learn learn2 cap s1 a1 HC1) as HL. rewrite Hsz, En, Eh, decide_True in HL by done.
      erewrite (IH _ _ HL); [done| |]; unfold cs_learn; rewrite decide_True by done; cbn; [lia|]. rewrite E0. lia.
    - cbn [rbind]. erewrite (IH s1 a1 HC1); [done|lia|]. split; [lia|].
      assert (cs_n a1 mod cap = cs_n a mod cap + 1); [|lia].
      rewrite Hn1 in E0 |- *. rewrite (Z.add_mod (cs_n a) 1 cap) in E0 |- * by lia.
      destruct (decide (cap = 1)) as [->|]; [by rewrite Z.mod_1_r in E0|].
      rewrite (Z.mod_small 1 cap) in E0 |- * by lia.
      destruct (decide (cs_n a mod cap + 1 = cap)) as [Ec|]; [rewrite Ec, Z.mod_same in E0 by lia; done|].
      apply Z.mod_small. lia. }
  apply (Hgen _ _ (crel_init reweigh learn1 draw cap Hcap adm w)); cbn; [done|]. rewrite Z.mod_0_l by lia. done.
Qed.

(** * Cases *)
Definition xrw (a b : bool) (w : list bool) : list bool := w.
Definition xrl (z : Z) (w : list bool) : list bool := w.
Definition xdr (w : list bool) : bool * list bool := match w with [] => (true, []) | b :: w => (b, w) end.
Definition xr (id z : Z) : req := mkReq id z 0 0 0.
Definition xg (id : Z) : call := CGet (xr id 1).
Definition xrun (w : list bool) (cap : Z) (cs : list call) := cu_run xrw xrl xdr 16 (cu_init false cap AdmNone w) cs.
(** R_list, SR_list, history, the experts' lists, the frequencies, the answers *)
Definition xview (x : res (cacheus (list bool) * list obs)) :=
  match x with
  | Ok (s, os) => Some (q_q (sr_R (cu_sr s)), q_q (sr_S (cu_sr s)), q_q (sr_H (cu_sr s)), q_q (cu_gl s), q_q (cu_gf s),
                        (fun x => (x.1, o_p1 x.2)) <$> map_to_list (c_tbl (l_c (cu_lfu s))), os)
  | Err _ => None
  end.

(** The hypotheses of the theorems hold of these calls; the run shows objects
    that come back from the history into R_list with their old frequency. *)
Example cacheus_calls_ex : Forall cs_call [xg 1; CGet (xr 2 3); CFind (xr 1 1) true; CEvict (xr 0 0)].
Proof. repeat constructor; cbn; lia. Qed.
Example cacheus_run_ex :
  xview (xrun [false] 4 [xg 1; xg 2; xg 3; xg 1; xg 1; xg 4; CEvict (xr 0 0)]) =
  Some ([1], [3], [4; 2], [], [4], [(1, 3); (3, 1)],
        [OBool false; OBool false; OBool false; OBool false; OBool true; OBool false; OUnit]).
Proof. vm_compute. reflexivity. Qed.

(** * Where it fails *)

(** The object that SR_list has no room for leaves the cache although the cache has
    room: three objects of one byte in a cache of four bytes. *)
Theorem cacheus_keeps_while_room_refuted : exists cs s os, Forall cs_call cs /\
  xrun [] 4 cs = Ok (s, os) /\ cs = [xg 1; xg 2; xg 3] /\ sr_occ (cu_sr s) = 2 /\
  c_tbl (l_c (cu_lfu s)) !! 1 = None /\ c_tbl (q_c (sr_R (cu_sr s))) !! 1 = None /\ c_tbl (q_c (sr_S (cu_sr s))) !! 1 = None.
Proof.
  exists [xg 1; xg 2; xg 3].
  destruct (xrun [] 4 [xg 1; xg 2; xg 3]) as [[s os]|] eqn:E; [|vm_compute in E; discriminate].
  exists s, os. vm_compute in E. injection E as <- <-. split; [repeat constructor; cbn; lia|]. repeat split; by vm_compute.
Qed.

(** A request that fits the cache but not half of it evicts objects and is not
    cached. *)
Theorem cacheus_large_request_refuted : exists s os s',
  xrun [] 8 [xg 1; xg 2; xg 3] = Ok (s, os) /\ cu_get xrw xrl xdr 16 s (xr 9 6) = Ok (s', false) /\
  c_tbl (l_c (cu_lfu s)) !! 1 <> None /\ c_tbl (l_c (cu_lfu s')) !! 1 = None /\ c_tbl (l_c (cu_lfu s')) !! 9 = None.
Proof.
  destruct (xrun [] 8 [xg 1; xg 2; xg 3]) as [[s os]|] eqn:E; [|vm_compute in E; discriminate]. vm_compute in E. injection E as <- <-.
  eexists _, _, _. split; [reflexivity|]. split; [vm_compute; reflexivity|]. split; [by vm_compute|]. split; by vm_compute.
Qed.

(** A removed object goes to the history; when it comes back, CR_LFU's lowest
    frequency is wrong and the eviction dereferences a null pointer. *)
Theorem cacheus_remove_crash_refuted :
  xrun [] 8 [xg 1; CRemove 1; xg 1; CEvict (xr 0 0)] = Err NullDeref /\
  exists s os, xrun [] 8 [xg 1; CRemove 1; xg 1] = Ok (s, os).
Proof. split; [vm_compute; reflexivity|]. eexists _, _. vm_compute. reflexivity. Qed.

(** A find (with update) between to_evict and evict makes the experts disagree
    about what is cached: the eviction dereferences a null pointer. *)
Theorem cacheus_stale_candidate_refuted :
  xrun [true] 8 [xg 1; xg 2; xg 3; CToEvict (xr 0 0); CFind (xr 1 1) true; CEvict (xr 0 0)] = Err NullDeref /\
  exists s os, xrun [true] 8 [xg 1; xg 2; xg 3; CToEvict (xr 0 0); CFind (xr 1 1) true] = Ok (s, os).
Proof. split; [vm_compute; reflexivity|]. eexists _, _. vm_compute. reflexivity. Qed.

(** A cached object of no bytes cannot be evicted: SR_LRU takes its list for
    empty. *)
Theorem cacheus_empty_object_refuted :
  xrun [] 8 [CGet (xr 1 0); CEvict (xr 0 0)] = Err NullDeref.
Proof. vm_compute. reflexivity. Qed.
