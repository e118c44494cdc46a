(** The state of LeCaR and the lists of SpecLeCaR.v: the relation, and every
    call preserves it. *)
From stdpp Require Import gmap list numbers fin_maps sorting.
From Verif Require Import Base Driver ModelQueue ModelLFU SimLFU ModelLeCaR SpecLeCaR LeCaRFacts.
Open Scope Z_scope.

#[local] Arguments g_bytes : simpl never.
#[local] Arguments l_bytes : simpl never.
#[local] Arguments l_drop : simpl never.
#[local] Arguments g_drop : simpl never.

(** What an entry of the hash table stands for. *)
Inductive ent := ECached (w n : Z) | EL (w t : Z) | EF (w t : Z) | EBoth | EBad.

Definition den (md : Z) (o : cobj) : ent :=
  if lc_ghost o then
    if decide (o_p2 o = 1) then EL (o_size o + md) (o_p3 o)
    else if decide (o_p2 o = 2) then EF (o_size o + md) (o_p3 o)
    else if decide (o_p2 o = -1) then EBoth else EBad
  else ECached (o_size o + md) (o_p1 o).

Definition mem (l : list lobj) (gl gf : list lghost) (both : list Z) (id : Z) (e : ent) : Prop :=
  match e with
  | ECached w n => mkLO id w n ∈ l
  | EL w t => mkLG id w t ∈ gl
  | EF w t => mkLG id w t ∈ gf
  | EBoth => id ∈ both
  | EBad => False
  end.

Definition tbl_ok (md : Z) (t : gmap Z cobj) (l : list lobj) (gl gf : list lghost) (both : list Z) : Prop :=
  (forall id e, den md <$> t !! id = Some e <-> mem l gl gf both id e) /\
  (forall id o, t !! id = Some o -> 0 <= o_size o /\ o_size o + md < 2 ^ 32).

Record lrel {W} (cap md : Z) (s : lecar W) (a : lspec W) : Prop := {
  lr_size : c_size (lc_c s) = cap;
  lr_md : c_md (lc_c s) = md;
  lr_now : c_nreq (lc_c s) = ls_now a /\ 0 <= ls_now a < 2 ^ 39;
  lr_adm : c_adm (lc_c s) = ls_adm a;
  lr_tbl : tbl_ok md (c_tbl (lc_c s)) (ls_l a) (ls_gl a) (ls_gf a) (ls_both a);
  lr_q : lc_q s = lo_id <$> ls_l a;
  lr_nd : NoDup (lo_id <$> ls_l a) /\ NoDup (lg_id <$> ls_gl a) /\ NoDup (lg_id <$> ls_gf a) /\ NoDup (ls_both a);
  lr_occ : c_occ (lc_c s) = l_bytes (ls_l a) /\ c_nobj (lc_c s) = Z.of_nat (length (ls_l a));
  lr_cap : l_bytes (ls_l a) <= cap;
  lr_buck : buck (ls_l a) (lc_fm s);
  lr_min : mins (ls_l a) (lc_min s) (lc_max s);
  lr_gl : lc_gl s = lg_id <$> ls_gl a /\ lc_gbl s = g_bytes (ls_gl a) /\ g_bytes (ls_gl a) <= cap / 2;
  lr_gf : lc_gf s = lg_id <$> ls_gf a /\ lc_gbf s = g_bytes (ls_gf a) /\ g_bytes (ls_gf a) <= cap / 2;
  lr_w : lc_w s = ls_w a /\ lc_draws s = ls_draws a /\ lc_gen s = -1 }.

Section Sim.
  Context {W : Type} (upd : bool -> Z -> W -> W) (pick : W -> nat -> bool) (cap md : Z).
  Context (Hcap : 0 <= cap) (Hmd : 0 <= md).
  Notation lrel := (lrel (W := W) cap md).

  Lemma tbl_unique t l gl gf both id e e' : tbl_ok md t l gl gf both ->
    mem l gl gf both id e -> mem l gl gf both id e' -> e = e'.
  Proof. intros [H _] H1 H2. apply H in H1, H2. congruence. Qed.

  (** A change of the object that its meaning does not see. *)
  Lemma tbl_alter t l gl gf both id f : (forall o, den md (f o) = den md o /\ o_size (f o) = o_size o) ->
    tbl_ok md t l gl gf both -> tbl_ok md (alter f id t) l gl gf both.
  Proof.
    intros Hf [H1 H2]. split.
    - intros j e. rewrite <- H1. destruct (decide (j = id)) as [->|Hne].
      + rewrite lookup_alter. destruct (t !! id) as [o|]; [|done]. cbn. by rewrite (proj1 (Hf o)).
      + by rewrite lookup_alter_ne.
    - intros j o. destruct (decide (j = id)) as [->|Hne].
      + rewrite lookup_alter. destruct (t !! id) as [o'|] eqn:E; cbn; [|done]. intros [= <-].
        rewrite (proj2 (Hf o')). by apply (H2 id).
      + rewrite lookup_alter_ne by done. apply H2.
  Qed.

  (** Dropping an entry. *)
  Lemma tbl_delete t l gl gf both id :
    tbl_ok md t l gl gf both ->
    tbl_ok md (delete id t) (l_drop id l) (g_drop id gl) (g_drop id gf) (filter (fun y => y <> id) both).
  Proof.
    intros [H1 H2]. split.
    - intros j e. destruct (decide (j = id)) as [->|Hne].
      + rewrite lookup_delete. cbn. split; [done|]. destruct e; cbn; try done.
        * intros H. by apply elem_l_drop in H as [? _].
        * intros H. by apply elem_g_drop in H as [? _].
        * intros H. by apply elem_g_drop in H as [? _].
        * intros H. by apply elem_of_list_filter in H as [? _].
      + rewrite lookup_delete_ne by done. rewrite H1. destruct e; cbn; try done.
        * rewrite elem_l_drop. cbn. tauto.
        * rewrite elem_g_drop. cbn. tauto.
        * rewrite elem_g_drop. cbn. tauto.
        * rewrite elem_of_list_filter. tauto.
    - intros j o Hj. apply lookup_delete_Some in Hj as [_ Hj]. by apply (H2 j).
  Qed.

  Lemma drop_other t l gl gf both id e : tbl_ok md t l gl gf both -> mem l gl gf both id e ->
    match e with ECached _ _ => True | _ => l_drop id l = l end /\
    match e with EL _ _ => True | _ => g_drop id gl = gl end /\
    match e with EF _ _ => True | _ => g_drop id gf = gf end /\
    match e with EBoth => True | _ => filter (fun y => y <> id) both = both end.
  Proof.
    intros Ht Hm.
    assert (HL : match e with ECached _ _ => True | _ => id ∉ lo_id <$> l end).
    { destruct e; try done; intros H; apply elem_of_list_fmap in H as ([j w0 n] & -> & Hx);
        (assert (Q := tbl_unique _ _ _ _ _ _ _ (ECached w0 n) Ht Hm Hx); done). }
    assert (HGL : match e with EL _ _ => True | _ => id ∉ lg_id <$> gl end).
    { destruct e; try done; intros H; apply elem_of_list_fmap in H as ([j w0 n0] & -> & Hx);
        (assert (Q := tbl_unique _ _ _ _ _ _ _ (EL w0 n0) Ht Hm Hx); done). }
    assert (HGF : match e with EF _ _ => True | _ => id ∉ lg_id <$> gf end).
    { destruct e; try done; intros H; apply elem_of_list_fmap in H as ([j w0 n0] & -> & Hx);
        (assert (Q := tbl_unique _ _ _ _ _ _ _ (EF w0 n0) Ht Hm Hx); done). }
    assert (HB : match e with EBoth => True | _ => id ∉ both end).
    { destruct e; try done; intros Hx; (assert (Q := tbl_unique _ _ _ _ _ _ _ EBoth Ht Hm Hx); done). }
    assert (GD : forall g, id ∉ lg_id <$> g -> g_drop id g = g).
    { clear. intros g H. unfold g_drop. induction g as [|x g IH]; [done|]. rewrite fmap_cons in H.
      apply not_elem_of_cons in H as [H1 H2]. rewrite filter_cons_True by done. by rewrite IH. }
    assert (BD : id ∉ both -> filter (fun y => y <> id) both = both) by apply q_del_absent.
    split_and!; destruct e; try done; try (by apply GD); try (by apply BD); by apply l_drop_absent.
  Qed.

  (** Adding an entry to a table that does not have it. *)
  Lemma tbl_insert t l gl gf both id o : tbl_ok md t l gl gf both -> t !! id = None ->
    0 <= o_size o /\ o_size o + md < 2 ^ 32 ->
    tbl_ok md (<[id := o]> t)
      (match den md o with ECached w n => mkLO id w n :: l | _ => l end)
      (match den md o with EL w n => mkLG id w n :: gl | _ => gl end)
      (match den md o with EF w n => mkLG id w n :: gf | _ => gf end)
      (match den md o with EBoth => id :: both | _ => both end) \/ den md o = EBad.
  Proof.
    intros [H1 H2] Hn Ho. destruct (den md o) eqn:Ed; [left..|by right]; (split; [|
      intros j o' Hj; apply lookup_insert_Some in Hj as [[<- <-]|[_ Hj]]; [done|by apply (H2 j)] ]).
    all: intros j e; destruct (decide (j = id)) as [->|Hne];
      [rewrite lookup_insert; cbn; rewrite Ed | rewrite lookup_insert_ne by done; rewrite H1].
    all: assert (N : forall e', ~ mem l gl gf both id e') by
      (intros e' He'; apply H1 in He'; by rewrite Hn in He').
    all: destruct e; cbn; rewrite ?elem_of_cons; split; intros G.
    all: try (by right). all: try done. all: try (by left; congruence).
    all: try (destruct G as [G|G]; [inversion G; subst; done|]).
    all: try done.
    all: try (exfalso; first [by apply (N (ECached w0 n0))|by apply (N (EL w0 t0))|by apply (N (EL w0 t1))|by apply (N (EF w0 t0))|by apply (N (EF w0 t1))|by apply (N (ECached w0 n))|by apply (N (ECached w n))|by apply (N (EL w t0))|by apply (N (EF w t0))|by apply (N EBoth)]).
    all: try (left; inversion G; by subst).
  Qed.

  (** A cached object changes its meaning. *)
  Lemma tbl_replace t l gl gf both id o f w n : tbl_ok md t l gl gf both ->
    t !! id = Some o -> den md o = ECached w n -> o_size (f o) = o_size o -> den md (f o) <> EBad ->
    tbl_ok md (alter f id t)
      (match den md (f o) with ECached w n => mkLO id w n :: l_drop id l | _ => l_drop id l end)
      (match den md (f o) with EL w n => mkLG id w n :: gl | _ => gl end)
      (match den md (f o) with EF w n => mkLG id w n :: gf | _ => gf end)
      (match den md (f o) with EBoth => id :: both | _ => both end).
  Proof.
    intros Ht Eo Ed Es Hb.
    assert (E : alter f id t = <[id := f o]> (delete id t)).
    { apply map_eq. intros j. destruct (decide (j = id)) as [->|Hne].
      - rewrite lookup_alter, lookup_insert, Eo. done.
      - rewrite lookup_alter_ne, lookup_insert_ne, lookup_delete_ne by done. done. }
    assert (Hm : mem l gl gf both id (ECached w n)) by (apply (proj1 Ht); rewrite Eo; cbn; by rewrite Ed).
    assert (H1 := tbl_delete _ _ _ _ _ id Ht).
    destruct (drop_other _ _ _ _ _ _ _ Ht Hm) as (_ & E2 & E3 & E4). rewrite E2, E3, E4 in H1.
    rewrite E. destruct (tbl_insert _ _ _ _ _ id (f o) H1) as [H|H]; [apply lookup_delete| |exact H|done].
    rewrite Es. by apply (proj2 Ht id).
  Qed.

  Lemma tbl_trim_l t t' l G gf both m : tbl_ok md t l G gf both -> NoDup (lg_id <$> G) ->
    (forall id, t' !! id = if decide (id ∈ lg_id <$> G /\ id ∉ lg_id <$> keep m G) then None else t !! id) ->
    tbl_ok md t' l (keep m G) gf both.
  Proof.
    intros Ht Hnd E. split.
    - intros id e. rewrite E. destruct (decide _) as [[H1 H2]|H].
      + cbn. split; [done|]. intros Hm. apply elem_of_list_fmap in H1 as ([j w t0] & -> & Hg).
        assert (Hm' : mem l G gf both j e) by (destruct e; try done; cbn in *; by apply (keep_elem m)).
        assert (Q := tbl_unique _ _ _ _ _ _ _ (EL w t0) Ht Hm' Hg). subst e.
        exfalso. apply H2. exact (elem_of_list_fmap_1 lg_id _ _ Hm).
      + rewrite (proj1 Ht). destruct e; cbn; try done. split; [|by apply keep_elem].
        intros Hg. destruct (decide (id ∈ lg_id <$> keep m G)) as [Hk|Hk].
        2:{ exfalso. apply H. split; [|done]. by apply (elem_of_list_fmap_1 lg_id _ _ Hg). }
        apply elem_of_list_fmap in Hk as ([j w' t''] & Ej & Hk). cbn in Ej. subst j.
        assert (Hg' := keep_elem _ _ _ Hk).
        assert (Q := tbl_unique _ _ _ _ _ _ (EL w t0) (EL w' t'') Ht Hg Hg'). by injection Q as -> ->.
    - intros id o Ho. rewrite E in Ho. destruct (decide _); [done|]. by apply (proj2 Ht id).
  Qed.
  Lemma tbl_trim_f t t' l gl G both m : tbl_ok md t l gl G both -> NoDup (lg_id <$> G) ->
    (forall id, t' !! id = if decide (id ∈ lg_id <$> G /\ id ∉ lg_id <$> keep m G) then None else t !! id) ->
    tbl_ok md t' l gl (keep m G) both.
  Proof.
    intros Ht Hnd E. split.
    - intros id e. rewrite E. destruct (decide _) as [[H1 H2]|H].
      + cbn. split; [done|]. intros Hm. apply elem_of_list_fmap in H1 as ([j w t0] & -> & Hg).
        assert (Hm' : mem l gl G both j e) by (destruct e; try done; cbn in *; by apply (keep_elem m)).
        assert (Q := tbl_unique _ _ _ _ _ _ _ (EF w t0) Ht Hm' Hg). subst e.
        exfalso. apply H2. exact (elem_of_list_fmap_1 lg_id _ _ Hm).
      + rewrite (proj1 Ht). destruct e; cbn; try done. split; [|by apply keep_elem].
        intros Hg. destruct (decide (id ∈ lg_id <$> keep m G)) as [Hk|Hk].
        2:{ exfalso. apply H. split; [|done]. by apply (elem_of_list_fmap_1 lg_id _ _ Hg). }
        apply elem_of_list_fmap in Hk as ([j w' t''] & Ej & Hk). cbn in Ej. subst j.
        assert (Hg' := keep_elem _ _ _ Hk).
        assert (Q := tbl_unique _ _ _ _ _ _ (EF w t0) (EF w' t'') Ht Hg Hg'). by injection Q as -> ->.
    - intros id o Ho. rewrite E in Ho. destruct (decide _); [done|]. by apply (proj2 Ht id).
  Qed.

  (** ** Lookups *)

  Lemma rel_look s a id e : lrel s a ->
    (exists o, c_tbl (lc_c s) !! id = Some o /\ den md o = e) <-> mem (ls_l a) (ls_gl a) (ls_gf a) (ls_both a) id e.
  Proof.
    intros H. rewrite <- (proj1 (lr_tbl _ _ _ _ H)). split.
    - intros (o & -> & <-). done.
    - intros E. apply fmap_Some in E as (o & -> & ->). eauto.
  Qed.

  Lemma rel_cached s a id x : lrel s a -> l_find id (ls_l a) = Some x ->
    x ∈ ls_l a /\ lo_id x = id /\ exists o, c_tbl (lc_c s) !! id = Some o /\ lc_ghost o = false /\
      o_size o + md = lo_w x /\ o_p1 o = lo_n x /\ 0 <= o_size o /\ lo_w x < 2 ^ 32.
  Proof.
    intros H E. apply l_find_elem in E as [Hx <-]; [|apply (lr_nd _ _ _ _ H)]. split; [done|]. split; [done|].
    destruct (proj2 (rel_look s a (lo_id x) (ECached (lo_w x) (lo_n x)) H)) as (o & Eo & Ed).
    { cbn. by destruct x. }
    exists o. split; [done|]. unfold den in Ed. destruct (lc_ghost o).
    { repeat destruct (decide _) in Ed; done. }
    injection Ed as E1 E2. destruct (proj2 (lr_tbl _ _ _ _ H) _ _ Eo). split_and!; try done; lia.
  Qed.

  Lemma lc_key_small o n : o_p1 o = n -> 1 <= n < 2 ^ 22 -> lc_key o = n.
  Proof. intros E Hn. unfold lc_key, u64. rewrite E. apply Z.mod_small. lia. Qed.

  (** ** find *)

  Lemma find_peek s a r : lrel s a ->
    lc_find upd s r false = Ok (s, cached a (r_id r)).
  Proof.
    intros H. unfold lc_find, cache_find_base, cached.
    destruct (c_tbl (lc_c s) !! r_id r) as [o|] eqn:Eo.
    - rewrite Eo. cbn [negb]. f_equal. f_equal; [by destruct s|].
      destruct (l_find (r_id r) (ls_l a)) as [x|] eqn:E.
      + destruct (rel_cached _ _ _ _ H E) as (_ & _ & o' & Eo' & Hg & _). assert (o' = o) as -> by congruence.
        rewrite Hg. by rewrite bool_decide_true by (by eexists).
      + rewrite bool_decide_false by (intros [? ?]; done). destruct (lc_ghost o) eqn:Hg; [done|].
        exfalso. apply l_find_none in E. apply E.
        assert (Hm : mem (ls_l a) (ls_gl a) (ls_gf a) (ls_both a) (r_id r) (ECached (o_size o + md) (o_p1 o))).
        { apply (rel_look s a _ _ H). exists o. split; [done|]. unfold den. by rewrite Hg. }
        by apply (elem_of_list_fmap_1 lo_id _ _ Hm).
    - f_equal. f_equal; [by destruct s|]. destruct (l_find (r_id r) (ls_l a)) as [x|] eqn:E.
      + destruct (rel_cached _ _ _ _ H E) as (_ & _ & o' & Eo' & _). congruence.
      + by rewrite bool_decide_false by (intros [? ?]; done).
  Qed.

  Definition touched (r : req) (o : cobj) : cobj := o_set_freq (o_set_next o (r_next r)) (o_freq o + 1).

  Lemma rel_touch s a r : lrel s a -> lrel (lc_set_c s (c_upd (lc_c s) (r_id r) (touched r))) a.
  Proof.
    intros H. destruct H. split; cbn; try done. by apply tbl_alter.
  Qed.

  Lemma q_del_ids id l : q_del id (lo_id <$> l) = lo_id <$> l_drop id l.
  Proof. by rewrite map_l_drop. Qed.

  Lemma find_access s a r : lrel s a ->
    (forall x, l_find (r_id r) (ls_l a) = Some x -> lo_n x < 2 ^ 22 - 1) ->
    exists s', lc_find upd s r true = Ok (s', (l_access upd a (r_id r)).2) /\ lrel s' (l_access upd a (r_id r)).1.
  Proof.
    intros H Hn. unfold lc_find, cache_find_base. fold (touched r).
    destruct (c_tbl (lc_c s) !! r_id r) as [o0|] eqn:Eo0.
    - set (c := c_upd (lc_c s) (r_id r) (touched r)).
      assert (H' : lrel (lc_set_c s c) a) by (by apply rel_touch).
      assert (Eo : c_tbl c !! r_id r = Some (touched r o0)).
      { unfold c, c_upd. cbn. by rewrite lookup_alter, Eo0. }
      set (o := touched r o0) in *. rewrite Eo. cbn [negb]. clearbody o. clear o0 Eo0 H.
      destruct (proj2 (lr_tbl _ _ _ _ H') _ _ Eo) as [Hsz Hsz2].
      assert (Hmd' : c_md c = md) by apply (lr_md _ _ _ _ H').
      assert (Hm : mem (ls_l a) (ls_gl a) (ls_gf a) (ls_both a) (r_id r) (den md o)).
      { apply (rel_look _ a _ _ H'). by exists o. }
      assert (Hu : u32 (o_size o + c_md c) = o_size o + md).
      { unfold u32. rewrite Hmd'. apply Z.mod_small. lia. }
      destruct (lr_nd _ _ _ _ H') as (N1 & N2 & N3 & N4).
      destruct (drop_other _ _ _ _ _ _ _ (lr_tbl _ _ _ _ H') Hm) as (D1 & D2 & D3 & D4).
      assert (Hdel := tbl_delete _ _ _ _ _ (r_id r) (lr_tbl _ _ _ _ H')).
      assert (NL : match den md o with ECached _ _ => True | _ => l_find (r_id r) (ls_l a) = None end).
      { destruct (l_find (r_id r) (ls_l a)) as [x|] eqn:E; [|by destruct (den md o)].
        apply l_find_elem in E as [Hx Hid]; [|done].
        assert (Q := tbl_unique _ _ _ _ _ _ _ (ECached (lo_w x) (lo_n x)) (lr_tbl _ _ _ _ H') Hm).
        rewrite Q; [done|]. cbn. rewrite <- Hid. by destruct x. }
      assert (NG : match den md o with EL _ _ => True | _ => g_find (r_id r) (ls_gl a) = None end).
      { destruct (g_find (r_id r) (ls_gl a)) as [x|] eqn:E; [|by destruct (den md o)].
        apply g_find_elem in E as [Hx Hid]; [|done].
        assert (Q := tbl_unique _ _ _ _ _ _ _ (EL (lg_w x) (lg_t x)) (lr_tbl _ _ _ _ H') Hm).
        rewrite Q; [done|]. cbn. rewrite <- Hid. by destruct x. }
      assert (NF : match den md o with EF _ _ => True | _ => g_find (r_id r) (ls_gf a) = None end).
      { destruct (g_find (r_id r) (ls_gf a)) as [x|] eqn:E; [|by destruct (den md o)].
        apply g_find_elem in E as [Hx Hid]; [|done].
        assert (Q := tbl_unique _ _ _ _ _ _ _ (EF (lg_w x) (lg_t x)) (lr_tbl _ _ _ _ H') Hm).
        rewrite Q; [done|]. cbn. rewrite <- Hid. by destruct x. }
      unfold l_access. assert (Ed : exists e, e = den md o) by eauto. destruct Ed as [e Ed]. rewrite <- Ed in *.
      unfold den in Ed. destruct (lc_ghost o) eqn:Hg.
      + (* a ghost *)
        cbn [lc_set_c lc_c] in *.
        destruct (decide (o_p2 o = 1)) as [P1|P1]; [|destruct (decide (o_p2 o = 2)) as [P2|P2]; [|destruct (decide (o_p2 o = -1)) as [P3|P3]]].
        * rewrite Ed in *. cbn in Hm. rewrite D1, D3, D4 in Hdel.
          assert (Ef : g_find (r_id r) (ls_gl a) = Some (mkLG (r_id r) (o_size o + md) (o_p3 o))) by (by apply g_find_elem).
          rewrite NL, Ef. cbn [fst snd lg_t]. eexists. split.
          { rewrite (proj1 (lr_now _ _ _ _ H') : c_nreq c = _). rewrite (proj1 (lr_w _ _ _ _ H') : lc_w s = _). reflexivity. }
          destruct H'. split; cbn in *; try done.
          -- split_and!; try done. rewrite map_g_drop. by apply NoDup_q_del.
          -- destruct lr_gl0 as (E1 & E2 & E3). rewrite E1, E2, map_g_drop.
             assert (EB := g_bytes_drop _ _ N2 Hm). cbn in EB. rewrite EB, Hu. split_and!; [done|lia|lia].
          -- by destruct lr_w0 as (_ & ? & ?).
        * rewrite Ed in *. cbn in Hm. rewrite D1, D2, D4 in Hdel.
          assert (Ef : g_find (r_id r) (ls_gf a) = Some (mkLG (r_id r) (o_size o + md) (o_p3 o))) by (by apply g_find_elem).
          rewrite NL, NG, Ef. cbn [fst snd lg_t]. eexists. split.
          { rewrite (proj1 (lr_now _ _ _ _ H') : c_nreq c = _). rewrite (proj1 (lr_w _ _ _ _ H') : lc_w s = _). reflexivity. }
          destruct H'. split; cbn in *; try done.
          -- split_and!; try done. rewrite map_g_drop. by apply NoDup_q_del.
          -- destruct lr_gf0 as (E1 & E2 & E3). rewrite E1, E2, map_g_drop.
             assert (EB := g_bytes_drop _ _ N3 Hm). cbn in EB. rewrite EB, Hu. split_and!; [done|lia|lia].
          -- by destruct lr_w0 as (_ & ? & ?).
        * rewrite Ed in *. rewrite D1, D2, D3 in Hdel. rewrite NL, NG, NF. cbn [fst snd]. eexists. split; [reflexivity|].
          destruct H'. split; cbn in *; try done. split_and!; try done. by apply NoDup_filter.
        * by rewrite Ed in Hm.
      + (* a hit *)
        rewrite Ed in *. cbn in Hm. set (x := mkLO (r_id r) (o_size o + md) (o_p1 o)) in *.
        assert (Ef : l_find (r_id r) (ls_l a) = Some x) by (by apply l_find_elem).
        rewrite Ef. cbn [fst snd]. specialize (Hn x Ef). cbn [x lo_n] in Hn.
        assert (Hx1 := mi_all _ _ _ (lr_min _ _ _ _ H') x Hm). cbn [x lo_n lc_set_c lc_min lc_max] in Hx1.
        rewrite (lc_key_small o (o_p1 o)) by (done || lia).
        destruct (unbucket_ok _ _ _ _ x (lr_buck _ _ _ _ H') (lr_min _ _ _ _ H') N1 Hm) as (fm & mn & EU & B & M & Z0).
        cbn [x lo_id lo_n lc_set_c lc_fm lc_min lc_max] in EU. rewrite EU. cbn [rbind].
        assert (Esx : sx23 (o_p1 o + 1) = o_p1 o + 1).
        { unfold sx23. rewrite Z.mod_small by lia. lia. }
        assert (Eu : u64 (o_p1 o + 1) = o_p1 o + 1) by (unfold u64; apply Z.mod_small; lia).
        rewrite Esx, Eu. set (k := o_p1 o + 1) in *.
        set (mx := if decide (lc_max s < k) then k else lc_max s).
        set (x' := mkLO (r_id r) (o_size o + md) k).
        cbn [x lo_id] in *.
        assert (B' : buck (x' :: l_drop (r_id r) (ls_l a)) (lc_bucket fm (r_id r) k)) by (by apply bucket_ok).
        assert (Hmx : lc_max s <= mx /\ k <= mx < 2 ^ 22 /\ 1 <= mx).
        { assert (Q := mi_bnd _ _ _ (lr_min _ _ _ _ H')). cbn in Q. unfold mx. destruct (decide _); lia. }
        clearbody mx.
        assert (exists mn', (let! mn := if decide (c_nobj (c_upd c (r_id r) (fun o => o_set_p1 o k)) = 1)
                               then lc_update_min (lc_bucket fm (r_id r) k) mn mx else Ok mn in
                             Ok (if decide (k < mn) then k else mn)) = Ok mn' /\
                  mins (x' :: l_drop (r_id r) (ls_l a)) mn' mx) as (mn' & Emn & M').
        { assert (Hk1 : 1 <= k) by lia.
          assert (EN : c_nobj (c_upd c (r_id r) (fun o => o_set_p1 o k)) = Z.of_nat (length (ls_l a))) by apply (lr_occ _ _ _ _ H').
          rewrite EN. destruct (decide _) as [E1|E1].
          - assert (EL0 : l_drop (r_id r) (ls_l a) = []).
            { assert (Q := l_length_drop x _ N1 Hm). cbn [x lo_id] in Q. destruct (l_drop _ _); [done|]. cbn [length] in Q. lia. }
            rewrite EL0 in *. specialize (Z0 eq_refl). cbn in Z0.
            assert (Emn : mn = o_p1 o).
            { destruct (mi_min _ _ _ (lr_min _ _ _ _ H')) as (y & Hy & Ey); [intros E; rewrite E in Hm; by apply elem_of_nil in Hm|].
              cbn in Ey. destruct (ls_l a) as [|y1 [|y2 l']]; try (cbn in E1; lia).
              apply elem_of_list_singleton in Hm, Hy. subst y. rewrite <- Hm in Ey. cbn in Ey. lia. }
            destruct (update_min_ok [x'] (lc_bucket fm (r_id r) k) mn mx B') as (mn' & -> & M' & _).
            + intros y Hy. apply elem_of_list_singleton in Hy as ->. cbn. lia.
            + lia.
            + cbn [rbind]. exists mn'. rewrite decide_False; [done|].
              assert (Q := mi_all _ _ _ M' x' ltac:(by left)). cbn in Q. lia.
          - cbn [rbind]. eexists. split; [reflexivity|].
            assert (Q := mi_bnd _ _ _ M). split.
            + intros y Hy. apply elem_of_cons in Hy as [->|Hy]; [cbn [x' lo_n]; destruct (decide _); lia|].
              destruct (mi_all _ _ _ M y Hy) as [? ?]. cbn in *. destruct (decide _); lia.
            + intros _. destruct (decide _) as [E|E]; [exists x'; split; [by left|done]|].
              destruct (l_drop (r_id r) (ls_l a)) as [|y0 l0] eqn:EL0.
              * exfalso. assert (Q' := l_length_drop x _ N1 Hm). cbn [x lo_id] in Q'. rewrite EL0 in Q'. cbn in Q'. lia.
              * destruct (mi_min _ _ _ M) as (y & Hy & Ey); [done|]. exists y. split; [by right|done].
            + destruct (decide _); lia. }
        destruct (if decide (c_nobj (c_upd c (r_id r) (fun o => o_set_p1 o k)) = 1)
                           then lc_update_min (lc_bucket fm (r_id r) k) mn mx else Ok mn) as [mn1|] eqn:E1; [|done].
        cbn [rbind] in Emn |- *. injection Emn as Emn. eexists. split; [reflexivity|]. rewrite Emn.
        assert (Hrep := tbl_replace _ _ _ _ _ (r_id r) o (fun o => o_set_p1 o k) (o_size o + md) (o_p1 o)
                         (lr_tbl _ _ _ _ H') Eo).
        assert (Ed1 : den md o = ECached (o_size o + md) (o_p1 o)) by (unfold den; by rewrite Hg).
        assert (Ed2 : den md (o_set_p1 o k) = ECached (o_size o + md) k).
        { unfold den. change (lc_ghost (o_set_p1 o k)) with (lc_ghost o). by rewrite Hg. }
        cbv beta in Hrep. specialize (Hrep Ed1 eq_refl ltac:(by rewrite Ed2)). rewrite Ed2 in Hrep.
        assert (LB := l_bytes_drop x _ N1 Hm). assert (LL := l_length_drop x _ N1 Hm). cbn [x lo_id lo_w] in LB, LL.
        assert (Ew : lo_w x = o_size o + md) by done. rewrite Ew.
        destruct H'. split; cbn [lc_set_c set_l lc_c lc_q lc_fm lc_min lc_max lc_gl lc_gbl lc_gf lc_gbf lc_w lc_draws lc_gen
          ls_l ls_gl ls_gf ls_both ls_w ls_draws ls_now ls_adm] in *; try done.
        * rewrite lr_q0. cbn. by rewrite map_l_drop.
        * split_and!; try done. rewrite fmap_cons, map_l_drop. constructor; [|by apply NoDup_q_del].
          cbn. intros Q. by apply elem_q_del in Q as [? _].
        * rewrite l_bytes_cons. cbn [lo_w length]. cbn [c_upd c_set_tbl c_occ c_nobj]. destruct lr_occ0 as [O1 O2].
          rewrite O1, O2, LB. split; lia.
        * rewrite l_bytes_cons. cbn [lo_w]. lia.
    - (* not there *)
      assert (N : forall e, ~ mem (ls_l a) (ls_gl a) (ls_gf a) (ls_both a) (r_id r) e).
      { intros e He. apply (rel_look _ _ _ _ H) in He as (o & Eo & _). congruence. }
      assert (Es : lc_set_c s (lc_c s) = s) by (by destruct s). rewrite Es. exists s. unfold l_access.
      destruct (lr_nd _ _ _ _ H) as (N1 & N2 & N3 & N4).
      destruct (l_find _ _) as [x|] eqn:E1.
      { exfalso. apply l_find_elem in E1 as [Hx Hi]; [|done]. apply (N (ECached (lo_w x) (lo_n x))). cbn. rewrite <- Hi. by destruct x. }
      destruct (g_find _ (ls_gl a)) as [x|] eqn:E2.
      { exfalso. apply g_find_elem in E2 as [Hx Hi]; [|done]. apply (N (EL (lg_w x) (lg_t x))). cbn. rewrite <- Hi. by destruct x. }
      destruct (g_find _ (ls_gf a)) as [x|] eqn:E3.
      { exfalso. apply g_find_elem in E3 as [Hx Hi]; [|done]. apply (N (EF (lg_w x) (lg_t x))). cbn. rewrite <- Hi. by destruct x. }
      cbn [fst snd]. split; [done|].
      assert (Ef : filter (fun y => y <> r_id r) (ls_both a) = ls_both a) by (apply q_del_absent; exact (N EBoth)).
      rewrite Ef. by destruct a.
  Qed.

  (** ** evict *)

  Lemma rel_weight s a x : lrel s a -> x ∈ ls_l a ->
    exists o, c_tbl (lc_c s) !! lo_id x = Some o /\ lc_ghost o = false /\
      o_size o + md = lo_w x /\ o_p1 o = lo_n x /\ 0 <= o_size o /\ lo_w x < 2 ^ 32.
  Proof.
    intros H Hx. assert (E : l_find (lo_id x) (ls_l a) = Some x) by (apply l_find_elem; [apply (lr_nd _ _ _ _ H)|done]).
    by destruct (rel_cached _ _ _ _ H E) as (_ & _ & ?).
  Qed.

  Lemma lfu_choice_some l mn mx : mins l mn mx -> l <> [] -> exists y, lfu_choice l = Some y /\ y ∈ l.
  Proof.
    intros H Hne. rewrite (lfu_choice_ok _ _ _ H). destruct (mi_min _ _ _ H Hne) as (x & Hx & Ex).
    assert (Hf : x ∈ filter (fun x => lo_n x = mn) l) by (by apply elem_of_list_filter).
    destruct (last (filter (fun x => lo_n x = mn) l)) as [y|] eqn:E.
    - exists y. split; [done|]. apply last_Some_elem_of in E. by apply elem_of_list_filter in E as [_ E].
    - apply last_None in E. rewrite E in Hf. by apply elem_of_nil in Hf.
  Qed.

  Lemma rel_lfu s a : lrel s a -> ls_l a <> [] -> lc_lfu s = Ok (lo_id <$> lfu_choice (ls_l a)).
  Proof.
    intros H Hne. unfold lc_lfu. rewrite (lfu_choice_ok _ _ _ (lr_min _ _ _ _ H)).
    destruct (mi_min _ _ _ (lr_min _ _ _ _ H) Hne) as (x & Hx & Ex).
    destruct (bk_some _ _ (lr_buck _ _ _ _ H) x Hx) as [nd End]. rewrite Ex in End. rewrite End.
    destruct (bk_node _ _ (lr_buck _ _ _ _ H) _ _ End) as [-> _]. f_equal.
    unfold of_freq. rewrite <- fmap_reverse.
    destruct (filter (fun x => lo_n x = lc_min s) (ls_l a)) as [|y l _] using rev_ind; [done|].
    rewrite reverse_app, last_snoc. done.
  Qed.



  (** The part of the eviction that does not depend on who chose. *)
  Lemma evict_common s a x e : lrel s a -> x ∈ ls_l a -> e = 1 \/ e = 2 \/ e = -1 ->
    exists o fm mn, c_tbl (lc_c s) !! lo_id x = Some o /\
      u32 (o_size o + c_md (lc_c s)) = lo_w x /\ 0 <= lo_w x < 2 ^ 32 /\
      lc_unbucket (lc_fm s) (lc_min s) (lc_max s) (lo_id x) (lc_key o) = Ok (fm, mn) /\
      buck (l_drop (lo_id x) (ls_l a)) fm /\ mins (l_drop (lo_id x) (ls_l a)) mn (lc_max s) /\
      tbl_ok md (alter (fun o => o_set_exp (o_set_p3 (o_set_p2 o e) (sx40 (c_nreq (lc_c s)))) 1) (lo_id x) (c_tbl (lc_c s)))
        (l_drop (lo_id x) (ls_l a))
        (if decide (e = 1) then mkLG (lo_id x) (lo_w x) (ls_now a) :: ls_gl a else ls_gl a)
        (if decide (e = 2) then mkLG (lo_id x) (lo_w x) (ls_now a) :: ls_gf a else ls_gf a)
        (if decide (e = -1) then lo_id x :: ls_both a else ls_both a).
  Proof.
    intros H Hx He. destruct (rel_weight s a x H Hx) as (o & Eo & Hg & Ew & En & Hsz & Hw).
    destruct (lr_nd _ _ _ _ H) as (N1 & N2 & N3 & N4).
    destruct (unbucket_ok _ _ _ _ x (lr_buck _ _ _ _ H) (lr_min _ _ _ _ H) N1 Hx) as (fm & mn & EU & B & M & _).
    assert (Hx1 := mi_all _ _ _ (lr_min _ _ _ _ H) x Hx). assert (Hx2 := mi_bnd _ _ _ (lr_min _ _ _ _ H)).
    assert (Emd := lr_md _ _ _ _ H). destruct (lr_now _ _ _ _ H) as [Enow Hnow].
    exists o, fm, mn. split; [done|]. split; [unfold u32; rewrite Emd, Z.mod_small; lia|]. split; [lia|].
    split. { rewrite (lc_key_small o (lo_n x)) by (done || lia). done. }
    split; [done|]. split; [done|].
    assert (Hrep := tbl_replace _ _ _ _ _ (lo_id x) o
      (fun o => o_set_exp (o_set_p3 (o_set_p2 o e) (sx40 (c_nreq (lc_c s)))) 1) (o_size o + md) (o_p1 o) (lr_tbl _ _ _ _ H) Eo).
    cbv beta in Hrep.
    assert (E40 : sx40 (c_nreq (lc_c s)) = ls_now a).
    { rewrite Enow. unfold sx40. rewrite Z.mod_small by lia. lia. }
    assert (Ed : den md (o_set_exp (o_set_p3 (o_set_p2 o e) (sx40 (c_nreq (lc_c s)))) 1) =
      if decide (e = 1) then EL (lo_w x) (ls_now a) else if decide (e = 2) then EF (lo_w x) (ls_now a) else EBoth).
    { unfold den. cbn. rewrite E40, Ew. destruct (decide (e = 1)); [done|]. destruct (decide (e = 2)); [done|].
      rewrite decide_True by lia. done. }
    specialize (Hrep ltac:(unfold den; by rewrite Hg) eq_refl).
    rewrite Ed in Hrep.
    assert (Q : (if decide (e = 1) then EL (lo_w x) (ls_now a) else if decide (e = 2) then EF (lo_w x) (ls_now a) else EBoth) <> EBad)
      by (repeat destruct (decide _); done).
    specialize (Hrep Q). destruct He as [-> | [-> | ->]]; exact Hrep.
  Qed.

  Lemma prepend_ok c id G : (forall x, x ∈ G -> is_Some (c_tbl c !! lg_id x)) ->
    lc_prepend c id (lg_id <$> G) = Ok (id :: (lg_id <$> G)).
  Proof.
    intros H. destruct G as [|x G]; [done|]. cbn. destruct (H x ltac:(by left)) as [o ->]. done.
  Qed.

  Lemma evict_ok s a r : lrel s a -> ls_l a <> [] ->
    exists s', lc_evict pick s r = Ok s' /\ lrel s' (l_evict pick cap a) /\
      (length (ls_l (l_evict pick cap a)) < length (ls_l a))%nat.
  Proof using Hcap Hmd.
    intros H Hne. unfold lc_evict. rewrite (rel_lfu s a H Hne). cbn [rbind].
    destruct (lfu_choice_some _ _ _ (lr_min _ _ _ _ H) Hne) as (y & Ey & Hy).
    assert (exists x, lru_choice (ls_l a) = Some x /\ x ∈ ls_l a) as (x & Ex & Hx).
    { unfold lru_choice. destruct (last (ls_l a)) as [x|] eqn:E; [|by apply last_None in E].
      exists x. split; [done|]. by apply last_Some_elem_of. }
    assert (Eq : last (lc_q s) = Some (lo_id x)).
    { rewrite (lr_q _ _ _ _ H), fmap_last. unfold lru_choice in Ex. by rewrite Ex. }
    rewrite Eq, Ey. cbn [fmap option_fmap option_map]. unfold l_evict. rewrite Ex, Ey.
    unfold lc_choose. destruct (lr_w _ _ _ _ H) as (Ew & Ed & Eg). destruct (lr_now _ _ _ _ H) as [Enow Hnow].
    rewrite (decide_False (P := lc_gen s = c_nreq (lc_c s))) by lia.
    destruct (lr_nd _ _ _ _ H) as (N1 & N2 & N3 & N4).
    assert (Hh : 0 <= cap / 2) by (apply Z.div_pos; lia).
    destruct (decide (Some (lo_id y) = Some (lo_id x))) as [Exy|Exy].
    - rewrite (decide_True (P := lo_id x = lo_id y)) by congruence. cbn [rbind].
      destruct (evict_common s a x (-1) H Hx ltac:(lia)) as (o & fm & mn & Eo & Eu & Hw & EU & B & M & T).
      rewrite Eo, EU. cbn [rbind]. rewrite !decide_False in T by done. rewrite !decide_False by done. rewrite decide_True in T by done.
      eexists. split; [reflexivity|].
      assert (LB := l_bytes_drop x _ N1 Hx). assert (LL := l_length_drop x _ N1 Hx).
      split; [|cbn [ls_l]; lia]. cbn [c_upd c_set_tbl c_md c_size]. rewrite Eu.
      destruct H. split; cbn [lc_c lc_q lc_fm lc_min lc_max lc_gl lc_gbl lc_gf lc_gbf lc_w lc_draws lc_gen
          ls_l ls_gl ls_gf ls_both ls_w ls_draws ls_now ls_adm c_upd c_set_tbl c_md c_size c_occ c_nobj c_nreq c_adm c_tbl] in *; try done.
      + by rewrite lr_q0, map_l_drop.
      + split_and!; try done; [rewrite map_l_drop; by apply NoDup_q_del|]. constructor; [|done].
        intros Hb. assert (Hm := tbl_unique _ _ _ _ _ (lo_id x) (ECached (lo_w x) (lo_n x)) EBoth lr_tbl0).
        discriminate Hm; [cbn; by destruct x|exact Hb].
      + lia.
      + lia.
    - rewrite (decide_False (P := lo_id x = lo_id y)) by congruence. rewrite Ew, Ed.
      destruct (pick (ls_w a) (ls_draws a)) eqn:Ep; cbn [rbind].
      + destruct (evict_common s a x 1 H Hx ltac:(lia)) as (o & fm & mn & Eo & Eu & Hw & EU & B & M & T).
        rewrite Eo, EU. cbn [rbind]. rewrite !(decide_False (P := 1 = 2)), !(decide_False (P := 1 = -1)), !decide_True in T by done.
        rewrite (decide_True (P := 1 = 1)) by done.
        set (G := mkLG (lo_id x) (lo_w x) (ls_now a) :: ls_gl a) in *.
        destruct (lr_gl _ _ _ _ H) as (EG & EB & HB). cbn [c_upd c_set_tbl c_md c_size c_occ c_nobj c_nreq c_adm c_tbl]. rewrite Eu, EG, EB.
        assert (HG : forall z, z ∈ G -> exists o', alter (fun o => o_set_exp (o_set_p3 (o_set_p2 o 1) (sx40 (c_nreq (lc_c s)))) 1)
                   (lo_id x) (c_tbl (lc_c s)) !! lg_id z = Some o' /\ o_size o' + md = lg_w z /\ 0 <= lg_w z < 2 ^ 32).
        { intros z Hz. assert (Hm : mem (l_drop (lo_id x) (ls_l a)) G (ls_gf a) (ls_both a) (lg_id z) (EL (lg_w z) (lg_t z))) by (cbn; by destruct z).
          apply (proj1 T) in Hm. apply fmap_Some in Hm as (o' & Eo' & Ed'). exists o'. split; [done|].
          destruct (proj2 T _ _ Eo') as [S1 S2].
          unfold den in Ed'. repeat (destruct (decide _) in Ed'); destruct (lc_ghost o'); try done.
          injection Ed' as E1 E2. split; [done|]. lia. }
        assert (NG : NoDup (lg_id <$> G)).
        { cbn. constructor; [|done]. intros Hb. apply elem_of_list_fmap in Hb as (z & Ez & Hz).
          assert (Hm := tbl_unique _ _ _ _ _ (lo_id x) (ECached (lo_w x) (lo_n x)) (EL (lg_w z) (lg_t z)) (lr_tbl _ _ _ _ H)).
          discriminate Hm; [cbn; by destruct x|cbn; rewrite Ez; by destruct z]. }
        rewrite prepend_ok.
        2:{ intros z Hz. destruct (HG z ltac:(by right)) as (o' & E' & _). by eexists. }
        cbn [rbind]. rewrite (lr_size _ _ _ _ H).
        set (c1 := mkCache cap (c_md (lc_c s)) _ _ _ _ _).
        destruct (trim_ok (cap / 2) md (S (length (lg_id <$> ls_gl a))) Hh G c1 (g_bytes (ls_gl a) + lo_w x)) as (t & Et & Ht).
        { cbn [G length]. rewrite fmap_length. done. }
        { done. } { apply (lr_md _ _ _ _ H). } { unfold G. rewrite g_bytes_cons. cbn [lg_w]. lia. } { exact HG. }
        cbn [G fmap list_fmap lg_id] in Et. cbn [fmap list_fmap lg_id]. rewrite Et. cbn [rbind].
        eexists. split; [reflexivity|].
        assert (LB := l_bytes_drop x _ N1 Hx). assert (LL := l_length_drop x _ N1 Hx).
        split; [|cbn [ls_l]; lia]. assert (T' := tbl_trim_l _ _ _ _ _ _ _ T NG Ht).
        destruct H. unfold c1 in *. clear Et. split; cbn [lc_c lc_q lc_fm lc_min lc_max lc_gl lc_gbl lc_gf lc_gbf lc_w lc_draws lc_gen
          ls_l ls_gl ls_gf ls_both ls_w ls_draws ls_now ls_adm c_upd c_set_tbl c_md c_size c_occ c_nobj c_nreq c_adm c_tbl] in *; try done.
        * by rewrite lr_q0, map_l_drop.
        * split_and!; try done; [rewrite map_l_drop; by apply NoDup_q_del|]. by apply keep_nodup.
        * lia.
        * lia.
        * split_and!; try done. by apply keep_bytes.
      + destruct (evict_common s a y 2 H Hy ltac:(lia)) as (o & fm & mn & Eo & Eu & Hw & EU & B & M & T).
        rewrite Eo, EU. cbn [rbind]. rewrite !(decide_False (P := 2 = 1)), !(decide_False (P := 2 = -1)), !decide_True in T by done.
        rewrite (decide_False (P := 2 = 1)) by done. rewrite (decide_True (P := 2 = 2)) by done.
        set (G := mkLG (lo_id y) (lo_w y) (ls_now a) :: ls_gf a) in *.
        destruct (lr_gf _ _ _ _ H) as (EG & EB & HB). cbn [c_upd c_set_tbl c_md c_size c_occ c_nobj c_nreq c_adm c_tbl]. rewrite Eu, EG, EB.
        assert (HG : forall z, z ∈ G -> exists o', alter (fun o => o_set_exp (o_set_p3 (o_set_p2 o 2) (sx40 (c_nreq (lc_c s)))) 1)
                   (lo_id y) (c_tbl (lc_c s)) !! lg_id z = Some o' /\ o_size o' + md = lg_w z /\ 0 <= lg_w z < 2 ^ 32).
        { intros z Hz. assert (Hm : mem (l_drop (lo_id y) (ls_l a)) (ls_gl a) G (ls_both a) (lg_id z) (EF (lg_w z) (lg_t z))) by (cbn; by destruct z).
          apply (proj1 T) in Hm. apply fmap_Some in Hm as (o' & Eo' & Ed'). exists o'. split; [done|].
          destruct (proj2 T _ _ Eo') as [S1 S2].
          unfold den in Ed'. repeat (destruct (decide _) in Ed'); destruct (lc_ghost o'); try done.
          injection Ed' as E1 E2. split; [done|]. lia. }
        assert (NG : NoDup (lg_id <$> G)).
        { cbn. constructor; [|done]. intros Hb. apply elem_of_list_fmap in Hb as (z & Ez & Hz).
          assert (Hm := tbl_unique _ _ _ _ _ (lo_id y) (ECached (lo_w y) (lo_n y)) (EF (lg_w z) (lg_t z)) (lr_tbl _ _ _ _ H)).
          discriminate Hm; [cbn; by destruct y|cbn; rewrite Ez; by destruct z]. }
        rewrite prepend_ok.
        2:{ intros z Hz. destruct (HG z ltac:(by right)) as (o' & E' & _). by eexists. }
        cbn [rbind]. rewrite (lr_size _ _ _ _ H).
        set (c1 := mkCache cap (c_md (lc_c s)) _ _ _ _ _).
        destruct (trim_ok (cap / 2) md (S (length (lg_id <$> ls_gf a))) Hh G c1 (g_bytes (ls_gf a) + lo_w y)) as (t & Et & Ht).
        { cbn [G length]. rewrite fmap_length. done. }
        { done. } { apply (lr_md _ _ _ _ H). } { unfold G. rewrite g_bytes_cons. cbn [lg_w]. lia. } { exact HG. }
        cbn [G fmap list_fmap lg_id] in Et. cbn [fmap list_fmap lg_id]. rewrite Et. cbn [rbind].
        eexists. split; [reflexivity|].
        assert (LB := l_bytes_drop y _ N1 Hy). assert (LL := l_length_drop y _ N1 Hy).
        split; [|cbn [ls_l]; lia]. assert (T' := tbl_trim_f _ _ _ _ _ _ _ T NG Ht).
        destruct H. unfold c1 in *. clear Et. split; cbn [lc_c lc_q lc_fm lc_min lc_max lc_gl lc_gbl lc_gf lc_gbf lc_w lc_draws lc_gen
          ls_l ls_gl ls_gf ls_both ls_w ls_draws ls_now ls_adm c_upd c_set_tbl c_md c_size c_occ c_nobj c_nreq c_adm c_tbl] in *; try done.
        * by rewrite lr_q0, map_l_drop.
        * split_and!; try done; [rewrite map_l_drop; by apply NoDup_q_del|]. by apply keep_nodup.
        * lia.
        * lia.
        * split_and!; try done. by apply keep_bytes.
  Qed.

  (** ** insert and remove *)

  Lemma rel_none s a id : lrel s a ->
    c_tbl (lc_c s) !! id = None <-> l_find id (ls_l a) = None /\ id ∉ ghosts a.
  Proof.
    intros H. destruct (lr_nd _ _ _ _ H) as (N1 & N2 & N3 & N4). unfold ghosts. rewrite !not_elem_of_app, l_find_none. split.
    - intros E. assert (N : forall e, ~ mem (ls_l a) (ls_gl a) (ls_gf a) (ls_both a) id e).
      { intros e He. apply (rel_look _ _ _ _ H) in He as (o & Eo & _). congruence. }
      split_and!; [..|exact (N EBoth)]; intros Hi; apply elem_of_list_fmap in Hi as ([i w t] & -> & Hx);
        [apply (N (ECached w t))|apply (N (EL w t))|apply (N (EF w t))]; exact Hx.
    - intros (E1 & E2 & E3 & E4). destruct (c_tbl (lc_c s) !! id) as [o|] eqn:Eo; [|done]. exfalso.
      assert (Hm : mem (ls_l a) (ls_gl a) (ls_gf a) (ls_both a) id (den md o)) by (apply (rel_look _ _ _ _ H); eauto).
      destruct (den md o); cbn in Hm; try done.
      + by apply E1, (elem_of_list_fmap_1 lo_id _ _ Hm).
      + by apply E2, (elem_of_list_fmap_1 lg_id _ _ Hm).
      + by apply E3, (elem_of_list_fmap_1 lg_id _ _ Hm).
  Qed.

  Lemma insert_ok s a r : lrel s a -> req_ok md r -> l_find (r_id r) (ls_l a) = None -> r_id r ∉ ghosts a ->
    l_bytes (ls_l a) + (r_size r + md) <= cap ->
    exists s', lc_insert s r = Ok s' /\ lrel s' (l_insert md a r).
  Proof using Hmd.
    intros H Hr Hl Hg Hc. assert (En : c_tbl (lc_c s) !! r_id r = None) by (by apply (rel_none _ _ _ H)).
    unfold lc_insert, cache_insert_base. rewrite En. cbn [rbind]. eexists. split; [reflexivity|].
    destruct Hr as [Hr1 Hr2].
    assert (Esz : o_size (obj_of_req r) = r_size r) by (cbn; unfold u32; apply Z.mod_small; lia).
    set (o := o_set_p3 (o_set_p2 (o_set_exp (o_set_p1 (obj_of_req r) 1) 0) 0) 0).
    assert (Et : alter (fun o => o_set_p3 (o_set_p2 (o_set_exp (o_set_p1 o 1) 0) 0) 0) (r_id r)
                   (<[r_id r := obj_of_req r]> (c_tbl (lc_c s))) = <[r_id r := o]> (c_tbl (lc_c s))).
    { apply map_eq. intros j. destruct (decide (j = r_id r)) as [->|Hne].
      - by rewrite lookup_alter, !lookup_insert.
      - by rewrite lookup_alter_ne, !lookup_insert_ne by done. }
    assert (Ed : den md o = ECached (r_size r + md) 1).
    { unfold den, o. cbn. cbn in Esz. by rewrite Esz. }
    assert (T := tbl_insert _ _ _ _ _ (r_id r) o (lr_tbl _ _ _ _ H) En). rewrite Ed in T.
    destruct T as [T|T]; [|  |done]. { unfold o. cbn. cbn in Esz. rewrite Esz. lia. }
    assert (B := bucket_ok _ _ (r_id r) (r_size r + md) 1 (lr_buck _ _ _ _ H)).
    assert (Hmx := mi_bnd _ _ _ (lr_min _ _ _ _ H)).
    assert (M : mins (mkLO (r_id r) (r_size r + md) 1 :: ls_l a) 1 (lc_max s)).
    { split.
      - intros x Hx. apply elem_of_cons in Hx as [->|Hx]; [cbn; lia|].
        assert (Q := mi_all _ _ _ (lr_min _ _ _ _ H) x Hx). lia.
      - intros _. eexists. split; [by left|done].
      - lia. }
    destruct (lr_nd _ _ _ _ H) as (N1 & N2 & N3 & N4). destruct (lr_occ _ _ _ _ H) as [O1 O2].
    assert (Em := lr_md _ _ _ _ H).
    unfold l_insert, set_l. split; cbn [lc_c lc_q lc_fm lc_min lc_max lc_gl lc_gbl lc_gf lc_gbf lc_w lc_draws lc_gen
          ls_l ls_gl ls_gf ls_both ls_w ls_draws ls_now ls_adm c_upd c_set_tbl c_md c_size c_occ c_nobj c_nreq c_adm c_tbl] in *.
    - apply (lr_size _ _ _ _ H).
    - done.
    - apply (lr_now _ _ _ _ H).
    - apply (lr_adm _ _ _ _ H).
    - rewrite Et. exact T.
    - rewrite (lr_q _ _ _ _ H). done.
    - split_and!; try done. cbn. constructor; [|done]. by apply l_find_none.
    - rewrite l_bytes_cons. cbn [lo_w length]. rewrite O1, O2, Esz, Em. split; lia.
    - rewrite l_bytes_cons. cbn [lo_w]. lia.
    - exact B.
    - exact M.
    - apply (lr_gl _ _ _ _ H).
    - apply (lr_gf _ _ _ _ H).
    - apply (lr_w _ _ _ _ H).
  Qed.

  Lemma unlink_absent id G : id ∉ G -> unlink_inner id G = G.
  Proof. intros H. unfold unlink_inner. destruct (decide _); [done|]. by apply q_del_absent. Qed.

  Lemma remove_ok s a id : lrel s a -> id ∉ ghosts a ->
    exists s', lc_remove s id = Ok (s', cached a id) /\ lrel s' (set_l a (l_drop id (ls_l a))).
  Proof using Hmd.
    intros H Hg. unfold lc_remove, cached. destruct (l_find id (ls_l a)) as [x|] eqn:E.
    - rewrite bool_decide_true by (by eexists). destruct (rel_cached _ _ _ _ H E) as (Hx & Hi & _). subst id.
      destruct (evict_common s a x 1 H Hx ltac:(lia)) as (o & fm & mn & Eo & Eu & Hw & EU & B & M & _).
      rewrite Eo, EU. cbn [rbind]. unfold cache_remove_obj_base. rewrite Eo. cbn [rbind]. eexists. split; [reflexivity|].
      assert (T := tbl_delete _ _ _ _ _ (lo_id x) (lr_tbl _ _ _ _ H)).
      assert (Hm : mem (ls_l a) (ls_gl a) (ls_gf a) (ls_both a) (lo_id x) (ECached (lo_w x) (lo_n x))) by (cbn; by destruct x).
      destruct (drop_other _ _ _ _ _ _ _ (lr_tbl _ _ _ _ H) Hm) as (_ & D2 & D3 & D4). rewrite D2, D3, D4 in T.
      destruct (lr_nd _ _ _ _ H) as (N1 & N2 & N3 & N4). destruct (lr_occ _ _ _ _ H) as [O1 O2].
      assert (LB := l_bytes_drop x _ N1 Hx). assert (LL := l_length_drop x _ N1 Hx).
      unfold ghosts in Hg. rewrite !not_elem_of_app in Hg. destruct Hg as (G1 & G2 & _).
      destruct (lr_gl _ _ _ _ H) as (EL & HL). destruct (lr_gf _ _ _ _ H) as (EF & HF).
      assert (HC := lr_cap _ _ _ _ H).
      unfold set_l. split; cbn [lc_c lc_q lc_fm lc_min lc_max lc_gl lc_gbl lc_gf lc_gbf lc_w lc_draws lc_gen
          ls_l ls_gl ls_gf ls_both ls_w ls_draws ls_now ls_adm c_upd c_set_tbl c_md c_size c_occ c_nobj c_nreq c_adm c_tbl] in *.
      + apply (lr_size _ _ _ _ H).
      + apply (lr_md _ _ _ _ H).
      + apply (lr_now _ _ _ _ H).
      + apply (lr_adm _ _ _ _ H).
      + exact T.
      + by rewrite (lr_q _ _ _ _ H), map_l_drop.
      + split_and!; try done. rewrite map_l_drop. by apply NoDup_q_del.
      + rewrite Eu. lia.
      + lia.
      + exact B.
      + exact M.
      + rewrite EL, unlink_absent by exact G1. done.
      + rewrite EF, unlink_absent by exact G2. done.
      + apply (lr_w _ _ _ _ H).
    - rewrite bool_decide_false by (intros [? ?]; done).
      assert (En : c_tbl (lc_c s) !! id = None) by (by apply (rel_none _ _ _ H)). rewrite En. exists s. split; [done|].
      rewrite l_drop_absent by (by apply l_find_none). unfold set_l. by destruct a.
  Qed.

  (** ** get *)

  Lemma rel_tick s a : lrel s a -> ls_now a < 2 ^ 39 - 1 -> lrel (lc_set_c s (c_incr_nreq (lc_c s))) (tick a).
  Proof.
    intros H Hn. destruct H. split; cbn in *; try done. split; [lia|]. lia.
  Qed.
  Lemma rel_set_adm s a adm : lrel s a -> lrel (lc_set_c s (c_set_adm (lc_c s) adm)) (set_adm a adm).
  Proof. intros H. by destruct H. Qed.

  (** What eviction leaves alone. *)
  Lemma evict_same a : ls_adm (l_evict pick cap a) = ls_adm a /\ ls_now (l_evict pick cap a) = ls_now a /\
    (forall id, l_find id (ls_l a) = None -> l_find id (ls_l (l_evict pick cap a)) = None) /\
    (forall id, l_find id (ls_l a) = None -> id ∉ ghosts a -> id ∉ ghosts (l_evict pick cap a)).
  Proof.
    assert (D : forall i j l, l_find j l = None -> l_find j (l_drop i l) = None).
    { intros i j l. rewrite !l_find_none, map_l_drop, elem_q_del. tauto. }
    assert (K : forall (i : Z) (x : lobj) t g, i <> lo_id x -> i ∉ lg_id <$> g ->
              i ∉ lg_id <$> keep (cap / 2) (mkLG (lo_id x) (lo_w x) t :: g)).
    { intros i x t g Hi Hg Hk. apply elem_of_list_fmap in Hk as (y & -> & Hy). apply keep_elem in Hy.
      apply elem_of_cons in Hy as [->|Hy]; [done|]. by apply Hg, elem_of_list_fmap_1. }
    unfold l_evict. destruct (lru_choice (ls_l a)) as [x|] eqn:Ex; [|done].
    destruct (lfu_choice (ls_l a)) as [y|] eqn:Ey; [|done].
    assert (Hx : x ∈ ls_l a) by (by apply last_Some_elem_of).
    assert (Hy : y ∈ ls_l a) by (apply last_Some_elem_of in Ey; by apply elem_of_list_filter in Ey as [_ ?]).
    assert (F : forall id z, z ∈ ls_l a -> l_find id (ls_l a) = None -> id <> lo_id z).
    { intros id z Hz Hl ->. apply l_find_none in Hl. by apply Hl, elem_of_list_fmap_1. }
    destruct (decide _); [|destruct (pick _ _)]; cbn; split_and!; try done; eauto;
      unfold ghosts; cbn [ls_gl ls_gf ls_both]; intros id Hl; rewrite !not_elem_of_app; intros (G1 & G2 & G3).
    - split_and!; try done. apply not_elem_of_cons. split; [by apply F|done].
    - split_and!; try done. apply K; [by apply F|done].
    - split_and!; try done. apply K; [by apply F|done].
  Qed.

  Lemma room_ok r fuel n : forall s a, lrel s a -> (length (ls_l a) <= n)%nat -> (length (ls_l a) <= fuel)%nat ->
    r_size r + md <= cap ->
    exists s', evict_loop (lc_ops upd pick) fuel s r = Ok s' /\ lrel s' (l_room pick cap n (r_size r + md) a) /\
      l_bytes (ls_l (l_room pick cap n (r_size r + md) a)) + (r_size r + md) <= cap /\
      (forall id, l_find id (ls_l a) = None -> l_find id (ls_l (l_room pick cap n (r_size r + md) a)) = None) /\
      (forall id, l_find id (ls_l a) = None -> id ∉ ghosts a -> id ∉ ghosts (l_room pick cap n (r_size r + md) a)) /\
      (length (ls_l (l_room pick cap n (r_size r + md) a)) <= length (ls_l a))%nat.
  Proof using Hcap Hmd.
    revert fuel. induction n as [|n IH]; intros fuel s a H Hn Hf Hr.
    - assert (E : ls_l a = []) by (destruct (ls_l a); [done|cbn in Hn; lia]).
      assert (Hb : l_bytes (ls_l a) + (r_size r + md) <= cap) by (rewrite E; change (l_bytes []) with 0; lia).
      exists s. cbn [l_room]. split; [|done].
      assert (decide_no : ~ (c_occ (lc_c s) + r_size r + c_md (lc_c s) > c_size (lc_c s))).
      { rewrite (proj1 (lr_occ _ _ _ _ H)), (lr_md _ _ _ _ H), (lr_size _ _ _ _ H). lia. }
      destruct fuel; cbn [evict_loop]; cbn [lc_ops op_occupied op_md op_size]; by rewrite decide_False.
    - cbn [l_room]. destruct (decide (l_bytes (ls_l a) + (r_size r + md) > cap)) as [Hgt|Hle].
      + assert (Hne : ls_l a <> []). { intros E. rewrite E in Hgt. change (l_bytes []) with 0 in Hgt. lia. }
        destruct (evict_ok s a r H Hne) as (s1 & E1 & H1 & L1).
        destruct fuel as [|fuel]; [destruct (ls_l a); [done|cbn in Hf; lia]|].
        cbn [evict_loop]. cbn [lc_ops op_occupied op_md op_size op_evict].
        rewrite decide_True.
        2:{ rewrite (proj1 (lr_occ _ _ _ _ H)), (lr_md _ _ _ _ H), (lr_size _ _ _ _ H). lia. }
        rewrite E1. cbn [rbind].
        destruct (IH fuel s1 _ H1 ltac:(lia) ltac:(lia) Hr) as (s2 & E2 & H2 & B2 & F2 & G2 & L2).
        exists s2. split; [exact E2|]. split; [done|]. split; [done|].
        destruct (evict_same a) as (_ & _ & F1 & G1). split_and!.
        * intros id Hid. by apply F2, F1.
        * intros id Hid Hg. apply G2; [by apply F1|by apply G1].
        * lia.
      + exists s. split; [|split_and!; try done; lia].
        assert (decide_no : ~ (c_occ (lc_c s) + r_size r + c_md (lc_c s) > c_size (lc_c s))).
        { rewrite (proj1 (lr_occ _ _ _ _ H)), (lr_md _ _ _ _ H), (lr_size _ _ _ _ H). lia. }
        destruct fuel; cbn [evict_loop]; cbn [lc_ops op_occupied op_md op_size]; by rewrite decide_False.
  Qed.

  (** After an access that misses, the object is neither cached nor
      remembered. *)
  Lemma access_miss s a id : lrel s a -> (l_access upd a id).2 = false ->
    l_find id (ls_l (l_access upd a id).1) = None /\ id ∉ ghosts (l_access upd a id).1 /\
    ls_l (l_access upd a id).1 = ls_l a.
  Proof.
    intros H. destruct (lr_nd _ _ _ _ H) as (N1 & N2 & N3 & N4). unfold l_access.
    destruct (l_find id (ls_l a)) as [x|] eqn:E1; [done|].
    assert (U : forall e e', mem (ls_l a) (ls_gl a) (ls_gf a) (ls_both a) id e ->
                             mem (ls_l a) (ls_gl a) (ls_gf a) (ls_both a) id e' -> e = e').
    { intros e e'. apply (tbl_unique _ _ _ _ _ _ _ _ (lr_tbl _ _ _ _ H)). }
    destruct (g_find id (ls_gl a)) as [g|] eqn:E2; [|destruct (g_find id (ls_gf a)) as [g|] eqn:E3]; intros _;
      cbn [fst snd ls_l]; (split; [done|]); (split; [|done]); unfold ghosts; cbn [ls_gl ls_gf ls_both]; rewrite !not_elem_of_app.
    - apply g_find_elem in E2 as [Hg Hi]; [|done].
      assert (Hm : mem (ls_l a) (ls_gl a) (ls_gf a) (ls_both a) id (EL (lg_w g) (lg_t g))) by (cbn; rewrite <- Hi; by destruct g).
      split_and!.
      + change (id ∉ lg_id <$> g_drop id (ls_gl a)). rewrite map_g_drop, elem_q_del. tauto.
      + intros Hf. apply elem_of_list_fmap in Hf as ([i w t] & -> & Hx). by discriminate (U _ (EF w t) Hm Hx).
      + intros Hf. by discriminate (U _ EBoth Hm Hf).
    - apply g_find_elem in E3 as [Hg Hi]; [|done]. apply g_find_none in E2.
      assert (Hm : mem (ls_l a) (ls_gl a) (ls_gf a) (ls_both a) id (EF (lg_w g) (lg_t g))) by (cbn; rewrite <- Hi; by destruct g).
      split_and!.
      + exact E2.
      + change (id ∉ lg_id <$> g_drop id (ls_gf a)). rewrite map_g_drop, elem_q_del. tauto.
      + intros Hf. by discriminate (U _ EBoth Hm Hf).
    - apply g_find_none in E2, E3. split_and!; [exact E2|exact E3|]. rewrite elem_of_list_filter. tauto.
  Qed.

  Lemma get_ok s a r fuel : lrel s a -> l_ok md a (CGet r) -> (length (ls_l a) <= fuel)%nat ->
    exists s', cache_get_base (lc_ops upd pick) fuel s r = Ok (s', (l_get upd pick cap md a r).2) /\
      lrel s' (l_get upd pick cap md a r).1 /\
      (length (ls_l (l_get upd pick cap md a r).1) <= S (length (ls_l a)))%nat.
  Proof using Hcap Hmd.
    intros H (Hr & Hnow & Hn) Hf. unfold cache_get_base, l_get. cbn [lc_ops op_tick op_find op_can_insert op_insert].
    assert (H1 := rel_tick s a H Hnow).
    destruct (find_access _ _ r H1 Hn) as (s2 & E2 & H2). rewrite E2. cbn [rbind].
    assert (Hm := access_miss _ _ (r_id r) H1).
    assert (HL : (l_access upd (tick a) (r_id r)).2 = true ->
                 (length (ls_l (l_access upd (tick a) (r_id r)).1) <= S (length (ls_l a)))%nat).
    { unfold l_access. cbn [tick ls_l]. destruct (l_find (r_id r) (ls_l a)) as [x|]; [|by repeat destruct (g_find _ _)].
      intros _. cbn [fst set_l ls_l length]. apply le_n_S. unfold l_drop. apply filter_length. }
    destruct (l_access upd (tick a) (r_id r)) as [a2 hit] eqn:EA. cbn [fst snd] in *. destruct hit.
    { eexists. split; [reflexivity|]. split; [done|]. by apply HL. }
    destruct (Hm eq_refl) as (M1 & M2 & M3). clear Hm HL.
    unfold lc_can_insert, cache_can_insert_default. rewrite (lr_adm _ _ _ _ H2).
    destruct (admit (ls_adm a2) r) as [adm ok] eqn:Ea.
    assert (H3 := rel_set_adm _ _ adm H2). set (a3 := set_adm a2 adm) in *.
    assert (EL3 : ls_l a3 = ls_l a) by exact M3.
    destruct ok; cbn [andb rbind].
    - rewrite (lr_md _ _ _ _ H2 : c_md (lc_c s2) = md), (lr_size _ _ _ _ H2 : c_size (lc_c s2) = cap).
      destruct (decide (r_size r + md > cap)) as [Hbig|Hfit].
      + rewrite bool_decide_false by lia. cbn [rbind]. eexists. split; [reflexivity|]. split; [exact H3|].
        cbn [fst]. rewrite EL3. lia.
      + rewrite bool_decide_true by lia. cbn [rbind].
        destruct (room_ok r fuel (length (ls_l a3)) _ _ H3 ltac:(lia) ltac:(by rewrite EL3) ltac:(lia)) as (s4 & E4 & H4 & B4 & F4 & G4 & L4).
        rewrite E4. cbn [rbind].
        destruct (insert_ok s4 _ r H4 Hr (F4 _ M1) (G4 _ M1 M2) B4) as (s5 & E5 & H5).
        rewrite E5. cbn [rbind]. eexists. split; [reflexivity|]. split; [exact H5|].
        cbn [fst l_insert set_l ls_l length]. rewrite <- EL3. lia.
    - eexists. split; [reflexivity|]. split; [exact H3|]. cbn [fst]. rewrite EL3. lia.
  Qed.

  Lemma step_ok s a c fuel : lrel s a -> l_ok md a c -> (length (ls_l a) <= fuel)%nat ->
    exists s', step (lc_ops upd pick) fuel s c = Ok (s', (l_call upd pick cap md a c).2) /\
      lrel s' (l_call upd pick cap md a c).1 /\
      (length (ls_l (l_call upd pick cap md a c).1) <= S (length (ls_l a)))%nat.
  Proof using Hcap Hmd.
    intros H Hok Hf. destruct c as [r|r u|r|id|r|r]; cbn [step l_call].
    - destruct (get_ok s a r fuel H Hok Hf) as (s' & E & H' & L). rewrite E. cbn [rbind].
      destruct (l_get upd pick cap md a r) as [a' b]. cbn [fst snd] in *. eauto.
    - cbn [lc_ops op_find]. destruct u.
      + destruct (find_access s a r H Hok) as (s' & E & H'). rewrite E. cbn [rbind].
        destruct (l_access upd a (r_id r)) as [a' b] eqn:EA. cbn [fst snd] in *. exists s'. split; [done|]. split; [done|].
        unfold l_access in EA. destruct (l_find (r_id r) (ls_l a)) as [x|].
        * injection EA as <- <-. cbn [set_l ls_l length]. apply le_n_S. unfold l_drop. apply filter_length.
        * destruct (g_find _ _); [injection EA as <- <-; cbn; lia|]. destruct (g_find _ _); injection EA as <- <-; cbn; lia.
      + rewrite (find_peek s a r H). cbn [rbind fst snd]. exists s. split; [done|]. split; [done|]. lia.
    - destruct Hok as [Hr Hg]. cbn [lc_ops op_find op_occupied op_md op_size op_insert].
      rewrite (find_peek s a r H). cbn [rbind]. unfold cached. destruct (l_find (r_id r) (ls_l a)) as [x|] eqn:El.
      { rewrite bool_decide_true by (by eexists). exists s. split; [done|]. split; [done|]. cbn. lia. }
      rewrite bool_decide_false by (intros [? ?]; done).
      rewrite (proj1 (lr_occ _ _ _ _ H)), (lr_md _ _ _ _ H), (lr_size _ _ _ _ H).
      destruct (decide (l_bytes (ls_l a) + r_size r + md > cap)) as [Hgt|Hle].
      + rewrite decide_True by lia. exists s. split; [done|]. split; [done|]. cbn. lia.
      + rewrite decide_False by lia. destruct (insert_ok s a r H Hr El Hg ltac:(lia)) as (s' & E & H').
        rewrite E. cbn [rbind fst snd]. exists s'. split; [done|]. split; [done|]. cbn. lia.
    - destruct (remove_ok s a id H Hok) as (s' & E & H'). cbn [lc_ops op_remove]. rewrite E. cbn [rbind fst snd].
      exists s'. split; [done|]. split; [done|]. cbn [set_l ls_l]. unfold l_drop. apply le_S, filter_length.
    - cbn [lc_ops op_nobj op_evict]. rewrite (proj2 (lr_occ _ _ _ _ H)). cbn [fst snd].
      destruct (ls_l a) as [|x l] eqn:El.
      + rewrite decide_True by (cbn; lia). exists s. split; [done|].
        assert (E : l_evict pick cap a = a) by (unfold l_evict; by rewrite El). rewrite E, El. split; [done|]. cbn. lia.
      + rewrite decide_False by (cbn; lia). rewrite <- El in *. assert (Hne : ls_l a <> []) by (by rewrite El).
        destruct (evict_ok s a r H Hne) as (s' & E & H' & L). rewrite E. cbn [rbind]. exists s'. split; [done|]. split; [done|]. lia.
    - done.
  Qed.

  Lemma run_ok cs : forall s a fuel, lrel s a -> l_oks upd pick cap md a cs ->
    (length (ls_l a) + length cs <= fuel)%nat ->
    exists s', run (lc_ops upd pick) fuel s cs = Ok (s', (l_run upd pick cap md a cs).2) /\
      lrel s' (l_run upd pick cap md a cs).1.
  Proof using Hcap Hmd.
    induction cs as [|c cs IH]; intros s a fuel H Hok Hf; cbn [run l_run]; [by exists s|].
    destruct Hok as [Hc Hcs]. cbn [length] in Hf.
    destruct (step_ok s a c fuel H Hc ltac:(lia)) as (s1 & E1 & H1 & L1). rewrite E1. cbn [rbind].
    destruct (IH s1 _ fuel H1 Hcs ltac:(lia)) as (s2 & E2 & H2). rewrite E2. cbn [rbind].
    destruct (l_call upd pick cap md a c) as [a1 o]. cbn [fst snd] in *.
    destruct (l_run upd pick cap md a1 cs) as [a2 os]. cbn [fst snd] in *. eauto.
  Qed.

  Lemma init_ok adm w : lrel (lc_init cap md adm w) (lspec0 w adm).
  Proof using Hcap Hmd.
    unfold lc_init, lspec0. split; cbn; try done.
    - split; [|intros id o Ho; by rewrite lookup_empty in Ho]. intros id e. rewrite lookup_empty. cbn. split; [done|].
      destruct e; cbn; try done; intros Hm; by apply elem_of_nil in Hm.
    - split_and!; constructor.
    - split.
      + intros f nd Hf. apply lookup_singleton_Some in Hf as [<- <-]. done.
      + intros x Hx. by apply elem_of_nil in Hx.
      + rewrite lookup_singleton. by eexists.
    - split; [intros x Hx; by apply elem_of_nil in Hx|done|lia].
    - split_and!; try done. apply Z.div_pos; lia.
    - split_and!; try done. apply Z.div_pos; lia.
  Qed.
End Sim.
