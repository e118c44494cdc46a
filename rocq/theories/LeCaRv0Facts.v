(** LeCaRv0 is the machine of SpecLeCaR.v.  Its LRU and its LFU are in the
    simulation relation with the same ledger. *)
From stdpp Require Import gmap list numbers fin_maps sorting.
From Verif Require Import Base Driver Abs AbsFacts Sim ModelQueue QueueFacts SimQueue ModelLFU SimLFU QList CompFacts
  ModelTwoQ ModelLeCaR SpecLeCaR LeCaRFacts ModelLeCaRv0.
Open Scope Z_scope.

Definition lobj_of (m : gmap Z entry) (id : Z) : lobj :=
  match m !! id with Some e => mkLO id (e_size e) (e_cnt e) | None => mkLO id 0 0 end.
Definition gobj (x : Z * cobj) : lghost := mkLG x.1 (o_size x.2) (o_p3 x.2).

Lemma lobj_of_id m id : lo_id (lobj_of m id) = id.
Proof. unfold lobj_of. by destruct (m !! id). Qed.
Lemma lobj_of_some m id e : m !! id = Some e -> lobj_of m id = mkLO id (e_size e) (e_cnt e).
Proof. unfold lobj_of. by intros ->. Qed.
Lemma lobj_ids m (q : list Z) : lo_id <$> (lobj_of m <$> q) = q.
Proof. rewrite <- list_fmap_compose. rewrite <- (list_fmap_id q) at 2. apply list_fmap_ext. intros. apply lobj_of_id. Qed.
Lemma lobj_ext m m' (q : list Z) : (forall id, id ∈ q -> m !! id = m' !! id) -> lobj_of m <$> q = lobj_of m' <$> q.
Proof. intros H. apply list_fmap_ext. intros i id Hi. apply elem_of_list_lookup_2 in Hi. unfold lobj_of. by rewrite (H _ Hi). Qed.
Lemma lobj_drop m (q : list Z) id : l_drop id (lobj_of m <$> q) = lobj_of m <$> q_del id q.
Proof.
  unfold l_drop, q_del. induction q as [|x q IH]; [done|]. rewrite fmap_cons, !filter_cons, lobj_of_id.
  destruct (decide (x <> id)); [|exact IH]. rewrite fmap_cons. by f_equal.
Qed.
Lemma lobj_drop' m (q : list Z) id : l_drop id (lobj_of m <$> q) = lobj_of (delete id m) <$> q_del id q.
Proof. rewrite lobj_drop. apply lobj_ext. intros j [Hj _]%elem_q_del. by rewrite lookup_delete_ne. Qed.

Lemma lobj_find m q id : qdom q m ->
  l_find id (lobj_of m <$> q) = (fun e => mkLO id (e_size e) (e_cnt e)) <$> m !! id.
Proof.
  intros [Hn Hd]. destruct (m !! id) as [e|] eqn:E; cbn.
  - apply l_find_elem; [by rewrite lobj_ids|]. rewrite <- (lobj_of_some m id e E). split; [|apply lobj_of_id].
    apply elem_of_list_fmap_1, Hd. eauto.
  - apply l_find_none. rewrite lobj_ids, Hd, E. by intros [].
Qed.

Lemma lobj_bytes q : forall m, qdom q m -> l_bytes (lobj_of m <$> q) = msum 0 m /\ length q = size m.
Proof.
  induction q as [|x q IH]; intros m HD.
  - assert (m = ∅) as ->.
    { apply map_eq. intros i. rewrite lookup_empty. destruct (m !! i) eqn:E; [|done].
      assert (i ∈ @nil Z) as Hi by (apply HD; eauto). by inversion Hi. }
    by rewrite msum_empty, map_size_empty.
  - pose proof HD as [Hn Hd]. apply NoDup_cons in Hn as [Hx Hn].
    destruct (proj1 (Hd x) ltac:(by left)) as [e He].
    destruct (IH (delete x m)) as [I1 I2]; [by apply qdom_cons_del|].
    rewrite fmap_cons, l_bytes_cons, (lobj_of_some _ _ _ He). cbn [lo_w].
    rewrite (msum_delete _ _ _ _ He) in I1. rewrite map_size_delete, He in I2. cbn in I2.
    assert (size m <> 0%nat). { apply map_size_non_empty_iff. intros ->. by rewrite lookup_empty in He. }
    rewrite (lobj_ext m (delete x m)) by (intros j Hj; rewrite lookup_delete_ne; [done|congruence]).
    cbn [length]. lia.
Qed.

(** The LFU expert's choice is the victim of the LFU policy. *)
Lemma lobj_lfu m q v : qdom q m -> qsorted e_last q m -> is_Some (m !! v) -> pol_lfu m v ->
  lfu_choice (lobj_of m <$> q) = Some (lobj_of m v).
Proof.
  intros [Hn Hd] HS [ev Hv] Hp. assert (Hvq : v ∈ q) by (apply Hd; eauto).
  apply elem_of_list_split in Hvq as (q1 & q2 & Eq). unfold lfu_choice.
  set (P := fun x => Forall (fun y => lo_n x <= lo_n y) (lobj_of m <$> q)).
  assert (HPv : P (lobj_of m v)).
  { unfold P. apply Forall_fmap, Forall_forall. intros j Hj. apply Hd in Hj as [ej Hj]. unfold compose.
    rewrite (lobj_of_some _ _ _ Hv), (lobj_of_some _ _ _ Hj). cbn. destruct (Hp _ _ _ Hv Hj); lia. }
  assert (H2 : filter P (lobj_of m <$> q2) = []).
  { 
    destruct (filter P (lobj_of m <$> q2)) as [|x l] eqn:E; [done|]. exfalso.
    assert (Hx : x ∈ filter P (lobj_of m <$> q2)) by (rewrite E; by left).
    apply elem_of_list_filter in Hx as [HPx Hx]. apply elem_of_list_fmap in Hx as (j & -> & Hj).
    assert (Hjq : j ∈ q) by (rewrite Eq; apply elem_of_app; right; by right).
    apply Hd in Hjq as [ej Hej].
    unfold P in HPx. rewrite Forall_fmap, Forall_forall in HPx.
    specialize (HPx v ltac:(rewrite Eq; apply elem_of_app; right; by left)). unfold compose in HPx.
    rewrite (lobj_of_some _ _ _ Hv), (lobj_of_some _ _ _ Hej) in HPx. cbn in HPx.
    assert (Ho : ord e_last m v j).
    { rewrite Eq in HS. unfold qsorted in HS. clear -HS Hj. induction q1 as [|y q1 IH]; cbn in HS; inversion HS; subst.
      - rewrite Forall_forall in H2. by apply H2.
      - by apply IH. }
    specialize (Ho _ _ Hv Hej). destruct (Hp _ _ _ Hv Hej); lia. }
  assert (E : filter P (lobj_of m <$> q) = filter P (lobj_of m <$> q1) ++ [lobj_of m v]).
  { rewrite Eq at 1. rewrite fmap_app, fmap_cons, filter_app, filter_cons_True by done. by rewrite H2. }
  rewrite E. apply last_snoc.
Qed.

(** The lists of LRU's operations. *)
Lemma lru_find_q s r s' : lru_find s r true = Ok (s', true) -> q_q s' = q_to_head (r_id r) (q_q s).
Proof. unfold lru_find. destruct (cache_find_base _ _ _) as [c [|]]; cbn; by intros [= <-]. Qed.
Lemma lru_miss_q s r s' : lru_find s r true = Ok (s', false) -> q_q s' = q_q s.
Proof. unfold lru_find. destruct (cache_find_base _ _ _) as [c [|]]; cbn; by intros [= <-]. Qed.
Lemma q_insert_q s r s' : q_insert s r = Ok s' -> q_q s' = r_id r :: q_q s.
Proof. unfold q_insert. destruct (cache_insert_base _ _); cbn; by intros [= <-]. Qed.
Lemma q_remove_q s id s' : q_remove s id = Ok (s', true) -> q_q s' = q_del id (q_q s).
Proof. unfold q_remove. destruct (c_tbl _ !! id); [|done]. destruct (cache_remove_obj_base _ _); cbn; by intros [= <-]. Qed.
Lemma q_evict_q s r s' q v : q_evict_tail s r = Ok s' -> q_q s = q ++ [v] -> q_q s' = q.
Proof.
  unfold q_evict_tail. intros H E. rewrite E, last_snoc in H.
  destruct (cache_evict_base _ _); cbn in H; [|done]. injection H as <-. apply removelast_last.
Qed.

(** Ghosts. *)
Lemma gobj_ids (l : qlist) : lg_id <$> (gobj <$> l) = ids l.
Proof. by rewrite <- list_fmap_compose. Qed.
Lemma gobj_bytes (l : qlist) : g_bytes (gobj <$> l) = bytes 0 l.
Proof. induction l as [|x l IH]; [done|]. rewrite fmap_cons, g_bytes_cons, bytes_cons, IH. cbn. lia. Qed.
Lemma gobj_nonneg l : Forall (fun x => osz_ok 0 x.2) l -> nonneg (gobj <$> l).
Proof. intros H. apply Forall_fmap. eapply Forall_impl; [exact H|]. intros x [? _]. cbn. lia. Qed.
Lemma gobj_drop id (l : qlist) : g_drop id (gobj <$> l) = gobj <$> l_del id l.
Proof.
  unfold g_drop, l_del. induction l as [|x l IH]; [done|]. rewrite fmap_cons, !filter_cons. cbn [gobj lg_id].
  destruct (decide (x.1 <> id)); [|exact IH]. rewrite fmap_cons. by f_equal.
Qed.
Lemma gobj_find id l : NoDup (ids l) ->
  (forall o, (id, o) ∈ l -> g_find id (gobj <$> l) = Some (mkLG id (o_size o) (o_p3 o))) /\
  (id ∉ ids l -> g_find id (gobj <$> l) = None).
Proof.
  intros Hn. split.
  - intros o Ho. apply g_find_elem; [by rewrite gobj_ids|]. split; [|done]. apply elem_of_list_fmap. by exists (id, o).
  - intros H. apply g_find_none. by rewrite gobj_ids.
Qed.

(** The oldest go until the rest and [need] bytes fit. *)
Lemma fits_keep sz need l1 l : Forall (fun x => osz_ok 0 x.2) l -> fits sz 0 need l1 l ->
  gobj <$> l1 = keep (sz - need) (gobj <$> l).
Proof.
  intros HO (l2 & -> & Hb & Hm). apply Forall_app in HO as [HO1 HO2]. revert need Hb Hm.
  induction HO1 as [|x l1 [Hx _] HO1 IH]; intros need Hb Hm.
  - cbn in Hb |- *. destruct l2 as [|y l2]; [done|]. cbn in Hm |- *. by rewrite decide_False by lia.
  - rewrite bytes_cons in Hb. assert (0 <= bytes 0 l1) by (by apply bytes_nonneg; [lia|]).
    cbn [app fmap list_fmap keep]. rewrite decide_True by (cbn; lia). f_equal.
    replace (sz - need - lg_w (gobj x)) with (sz - (need + o_size x.2)) by (cbn; lia). apply IH; [lia|].
    destruct l2 as [|y l2]; [done|]. rewrite <- app_comm_cons, bytes_cons in Hm. lia.
Qed.

Lemma sx40_small x : 0 <= x < 2 ^ 39 -> sx40 x = x.
Proof. intros H. unfold sx40. rewrite Z.mod_small by lia. lia. Qed.

Section V0.
  Context {W : Type} (upd : bool -> Z -> W -> W) (pick : W -> nat -> bool) (cap : Z) (Hcap : 0 <= cap).
  Notation st := (lecar0 W).
  Notation O := (v0_ops upd pick).

  Definition gok (g : qstate) (l : qlist) (ls : list lghost) : Prop :=
    qok (cap / 2) 0 g l /\ ls = gobj <$> l /\ bytes 0 l <= cap / 2.

  Record vrel (s : st) (a : lspec W) (t : Z) (m : gmap Z entry) (ll lf : qlist) : Prop := {
    vr_ok : abs_ok cap 0 (mkAbs t m AdmNone);
    vr_lru : qrel e_last cap 0 (v_lru s) (mkAbs t m AdmNone);
    vr_lfu : lrel cap 0 (v_lfu s) (mkAbs t m AdmNone);
    vr_l : ls_l a = lobj_of m <$> q_q (v_lru s);
    vr_fit : forall id e, m !! id = Some e -> e_size e <= cap / 2;
    vr_gl : gok (v_gl s) ll (ls_gl a);
    vr_gf : gok (v_gf s) lf (ls_gf a);
    vr_dl : forall id, id ∈ ids ll -> m !! id = None;
    vr_df : forall id, id ∈ ids lf -> m !! id = None;
    vr_dis : disj ll lf;
    vr_c : c_size (v_c s) = cap /\ c_md (v_c s) = 0 /\ c_nreq (v_c s) = ls_now a /\ c_adm (v_c s) = ls_adm a;
    vr_w : v_w s = ls_w a /\ v_draws s = ls_draws a;
    vr_now : 0 <= ls_now a < 2 ^ 39
  }.
  Definition vrels (s : st) (a : lspec W) : Prop := exists t m ll lf, vrel s a t m ll lf.

  Lemma vr_dom s a t m ll lf : vrel s a t m ll lf -> qdom (q_q (v_lru s)) m.
  Proof. intros H. by destruct (vr_lru _ _ _ _ _ _ H) as (_ & ? & _). Qed.
  Lemma vr_find s a t m ll lf id : vrel s a t m ll lf ->
    l_find id (ls_l a) = (fun e => mkLO id (e_size e) (e_cnt e)) <$> m !! id.
  Proof. intros H. rewrite (vr_l _ _ _ _ _ _ H). apply lobj_find. by eapply vr_dom. Qed.
  Lemma vr_bytes s a t m ll lf : vrel s a t m ll lf ->
    l_bytes (ls_l a) = msum 0 m /\ length (ls_l a) = size m /\ q_occ (v_lru s) = l_bytes (ls_l a) /\
    q_nobj (v_lru s) = Z.of_nat (length (ls_l a)).
  Proof.
    intros H. destruct (lobj_bytes _ _ (vr_dom _ _ _ _ _ _ H)) as [H1 H2]. rewrite (vr_l _ _ _ _ _ _ H), fmap_length, H1, H2.
    pose proof (sim_occ _ _ _ _ _ _ (lru_sim cap 0) _ _ (vr_lru _ _ _ _ _ _ H)) as H3.
    pose proof (sim_nobj _ _ _ _ _ _ (lru_sim cap 0) _ _ (vr_lru _ _ _ _ _ _ H)) as H4. done.
  Qed.
  Lemma vr_cached s a t m ll lf id : vrel s a t m ll lf -> cached a id = bool_decide (is_Some (m !! id)).
  Proof.
    intros H. unfold cached. rewrite (vr_find _ _ _ _ _ _ _ H). apply bool_decide_ext. rewrite fmap_is_Some. done.
  Qed.

  Lemma v0_init_rel adm w : vrel (v0_init false cap adm w) (lspec0 w adm) 0 ∅ [] [].
  Proof.
    assert (HG : gok (lru_init false (cap / 2) AdmNone) [] []).
    { split; [|split; [done|cbn; apply Z.div_pos; lia]]. apply qok_init. }
    split; try done.
    - exact (q_init_rel e_last cap 0 AdmNone).
    - by apply lfu_init_rel.
    - intros id x H. by apply elem_of_nil in H.
  Qed.

  Lemma v0_tick_rel s a t m ll lf : vrel s a t m ll lf -> ls_now a < 2 ^ 39 - 1 ->
    vrel (op_tick O s) (tick a) t m ll lf.
  Proof.
    intros H Hn. destruct H. cbn. split; try done.
    - cbn. destruct vr_c0 as (? & ? & ? & ?). split_and!; try done. lia.
    - cbn. lia.
  Qed.

  Lemma v0_find_false s a t m ll lf r : vrel s a t m ll lf ->
    v0_find upd s r false = Ok (s, cached a (r_id r)).
  Proof.
    intros H. unfold v0_find.
    pose proof (sim_find_false _ _ _ _ _ _ (lru_sim cap 0) _ _ r (vr_lru _ _ _ _ _ _ H)) as E1. cbn in E1. rewrite E1. cbn [rbind].
    pose proof (sim_find_false _ _ _ _ _ _ (lfu_sim cap 0) _ _ r (vr_lfu _ _ _ _ _ _ H)) as E2. cbn in E2. rewrite E2. cbn [rbind].
    rewrite (vr_cached _ _ _ _ _ _ _ H). by destruct s.
  Qed.

  Lemma gok_del g l ls id : gok g l ls -> id ∈ ids l ->
    exists g', q_remove g id = Ok (g', true) /\ gok g' (l_del id l) (g_drop id ls).
  Proof.
    intros (HQ & -> & Hb) Hi. destruct (qok_remove_hit _ _ _ _ HQ id ltac:(lia) Hi) as (g' & E & HQ').
    exists g'. split; [done|]. split; [done|]. split; [by rewrite gobj_drop|].
    pose proof (bytes_del_le 0 _ _ _ id ltac:(lia) HQ). lia.
  Qed.

  Lemma v0_access s a t m ll lf r : vrel s a t m ll lf ->
    exists s', v0_find upd s r true = Ok (s', (l_access upd a (r_id r)).2) /\ vrels s' (l_access upd a (r_id r)).1 /\
      length (ls_l (l_access upd a (r_id r)).1) = length (ls_l a) /\
      ((l_access upd a (r_id r)).2 = false -> l_find (r_id r) (ls_l (l_access upd a (r_id r)).1) = None /\
         r_id r ∉ map lg_id (ls_gl (l_access upd a (r_id r)).1) /\ r_id r ∉ map lg_id (ls_gf (l_access upd a (r_id r)).1)).
  Proof.
    intros H. unfold l_access. rewrite (vr_find _ _ _ _ _ _ _ H). unfold v0_find.
    pose proof (vr_ok _ _ _ _ _ _ H) as Hok. pose proof (vr_lru _ _ _ _ _ _ H) as HL. pose proof (vr_lfu _ _ _ _ _ _ H) as HF.
    destruct (m !! r_id r) as [e|] eqn:Em; cbn [fmap option_fmap option_map].
    - destruct (sim_find_hit _ _ _ _ _ _ (lru_sim cap 0) _ _ _ _ _ _ Hok HL Em) as (l' & E1 & HL').
      destruct (sim_find_hit _ _ _ _ _ _ (lfu_sim cap 0) _ _ _ _ _ _ Hok HF Em) as (f' & E2 & HF').
      cbn in E1, E2. rewrite E1. cbn [rbind]. rewrite E2. cbn [rbind fst snd lo_w lo_n].
      pose proof (lru_find_q _ _ _ E1) as Hq. pose proof (vr_dom _ _ _ _ _ _ H) as HD.
      eexists. split; [done|]. split; [|split; [|done]].
      + exists (t + 1), (<[r_id r := touch t r e]> m), ll, lf. destruct H. split; try done.
        * by eapply abs_ok_touch.
        * cbn [ls_l set_l v_lru]. rewrite Hq. unfold q_to_head. rewrite fmap_cons.
          rewrite (lobj_of_some _ _ (touch t r e)) by apply lookup_insert. cbn [touch e_size e_cnt]. f_equal.
          rewrite vr_l0, lobj_drop. apply lobj_ext. intros j [Hj _]%elem_q_del. by rewrite lookup_insert_ne.
        * intros id x Hx. apply lookup_insert_Some in Hx as [[<- <-]|[_ Hx]]; [cbn; by eapply vr_fit0|by eapply vr_fit0].
        * intros id Hi. destruct (decide (id = r_id r)) as [->|Hne]; [by rewrite (vr_dl0 _ Hi) in Em|].
          rewrite lookup_insert_ne by done. auto.
        * intros id Hi. destruct (decide (id = r_id r)) as [->|Hne]; [by rewrite (vr_df0 _ Hi) in Em|].
          rewrite lookup_insert_ne by done. auto.
      + cbn [ls_l set_l length]. rewrite (vr_l _ _ _ _ _ _ H), lobj_drop, !fmap_length.
        assert (r_id r ∈ q_q (v_lru s)) by (apply HD; eauto).
        pose proof (q_del_length (r_id r) (q_q (v_lru s)) ltac:(apply HD) ltac:(done)). lia.
    - destruct (sim_find_miss _ _ _ _ _ _ (lru_sim cap 0) _ _ r HL Em) as (l' & E1 & HL').
      destruct (sim_find_miss _ _ _ _ _ _ (lfu_sim cap 0) _ _ r HF Em) as (f' & E2 & HF').
      cbn in E1, E2. rewrite E1. cbn [rbind]. rewrite E2. cbn [rbind].
      pose proof (lru_miss_q _ _ _ E1) as Hq. unfold v0_history. cbn [v_gl v_gf v_w v_draws v_c v_lru v_lfu].
      destruct (vr_gl _ _ _ _ _ _ H) as (GL & EL & BL). destruct (vr_gf _ _ _ _ _ _ H) as (GF & EF & BF).
      rewrite (qok_lru_false _ _ _ _ GL), (qok_lru_false _ _ _ _ GF). cbn [rbind].
      destruct (gobj_find (r_id r) ll ltac:(apply GL)) as [FL1 FL2]. destruct (gobj_find (r_id r) lf ltac:(apply GF)) as [FF1 FF2].
      rewrite <- EL in FL1, FL2. rewrite <- EF in FF1, FF2.
      pose proof (vr_c _ _ _ _ _ _ H) as (C1 & C2 & C3 & C4). pose proof (vr_w _ _ _ _ _ _ H) as [W1 W2].
      assert (HNl : l_find (r_id r) (ls_l a) = None) by (rewrite (vr_find _ _ _ _ _ _ _ H); by rewrite Em).
      destruct (decide (r_id r ∈ ids ll)) as [Hl|Hl].
      + rewrite bool_decide_eq_true_2 by done. pose proof Hl as (o & Ho)%ids_elem.
        rewrite (proj2 (qok_lookup _ _ _ _ GL _ _) Ho).
        destruct (gok_del _ _ _ _ (vr_gl _ _ _ _ _ _ H) Hl) as (g' & -> & HG'). cbn [rbind].
        rewrite (FL1 _ Ho). cbn [fst snd].
        eexists. split; [done|]. split; [|split; [done|]].
        * exists t, m, (l_del (r_id r) ll), lf. destruct H. split; try done; cbn.
          -- by rewrite Hq.
          -- intros id Hi%del_sub. auto.
          -- intros id Hi%del_sub. eauto.
          -- rewrite W1, C3. done.
        * intros _. cbn [ls_l ls_gl ls_gf]. split; [done|]. rewrite EL, EF. change (map lg_id) with (fmap (M := list) lg_id).
          rewrite gobj_drop, !gobj_ids, elem_ids_del. split; [tauto|]. intros Hi. by eapply (vr_dis _ _ _ _ _ _ H).
      + rewrite bool_decide_eq_false_2 by done. rewrite (FL2 Hl).
        destruct (decide (r_id r ∈ ids lf)) as [Hf|Hf].
        * rewrite bool_decide_eq_true_2 by done. pose proof Hf as (o & Ho)%ids_elem.
          rewrite (proj2 (qok_lookup _ _ _ _ GF _ _) Ho).
          destruct (gok_del _ _ _ _ (vr_gf _ _ _ _ _ _ H) Hf) as (g' & -> & HG'). cbn [rbind].
          rewrite (FF1 _ Ho). cbn [fst snd].
          eexists. split; [done|]. split; [|split; [done|]].
          -- exists t, m, ll, (l_del (r_id r) lf). destruct H. split; try done; cbn.
             ++ by rewrite Hq.
             ++ intros id Hi%del_sub. auto.
             ++ intros id Hi Hx%del_sub. eauto.
             ++ rewrite W1, C3. done.
          -- intros _. cbn [ls_l ls_gl ls_gf]. split; [done|]. rewrite EL, EF. change (map lg_id) with (fmap (M := list) lg_id).
             rewrite gobj_drop, !gobj_ids, elem_ids_del. tauto.
        * rewrite bool_decide_eq_false_2 by done. rewrite (FF2 Hf). cbn [fst snd rbind].
          eexists. split; [done|]. split; [|split; [done|]].
          -- exists t, m, ll, lf. destruct H. split; try done; cbn. by rewrite Hq.
          -- intros _. cbn [ls_l ls_gl ls_gf]. split; [done|]. rewrite EL, EF. change (map lg_id) with (fmap (M := list) lg_id).
             rewrite !gobj_ids. done.
  Qed.

  Lemma v0_remember_ok g l ls id o now : gok g l ls -> id ∉ ids l -> osz_ok 0 o -> o_size o <= cap / 2 -> 0 <= now < 2 ^ 39 ->
    exists g' l', v0_remember g (req_of_obj id o) now = Ok g' /\
      gok g' l' (keep (cap / 2) (mkLG id (o_size o) now :: ls)) /\ (forall j, j ∈ ids l' -> j = id \/ j ∈ ids l).
  Proof using Hcap.
    intros (HQ & -> & Hb) Hi [Ho1 Ho2] Hfit Hnow. unfold v0_remember, sub_get.
    assert (Hr : req_ok 0 (req_of_obj id o)) by (split; cbn; lia).
    destruct (lru_get_miss _ _ _ _ (req_of_obj id o) (Z.to_nat (q_nobj g)) (Z.le_refl 0) HQ Hr Hi (subget_fuel _ _ _ _ HQ))
      as (g1 & l' & E & HQ1 & Hl'). cbn [op_nobj lru_ops]. rewrite E. cbn [rbind].
    cbn [r_size req_of_obj r_id] in Hl'. rewrite decide_True in Hl' by lia. destruct Hl' as (l1 & Hf & ->).
    rewrite (qok_lru_false _ _ _ _ HQ1). cbn [rbind r_id req_of_obj].
    rewrite bool_decide_eq_true_2 by (cbn; by left).
    set (F := fun x : cobj => o_set_p3 x (sx40 now)).
    pose proof (qok_upd _ _ _ _ HQ1 F id ltac:(done)) as HQ2.
    assert (Hi1 : id ∉ ids l1) by (intros Hx; by apply (fits_ids _ _ _ _ _ Hf) in Hx).
    set (l' := (id, F (obj_of_req (req_of_obj id o))) :: l1).
    assert (El : l_upd F id ((id, obj_of_req (req_of_obj id o)) :: l1) = l').
    { unfold l', l_upd. rewrite fmap_cons. cbn [fst snd]. rewrite decide_True by done. f_equal. by apply l_upd_notin. }
    rewrite El in HQ2. eexists _, l'. split; [done|].
    assert (Hs : o_size (F (obj_of_req (req_of_obj id o))) = o_size o).
    { change (o_size (obj_of_req (req_of_obj id o)) = o_size o). by rewrite (o_size_of_req _ 0) by (done || lia). }
    assert (Eg : gobj <$> l' = keep (cap / 2) (mkLG id (o_size o) now :: (gobj <$> l))).
    { cbn [keep lg_w]. rewrite decide_True by lia. unfold l'. rewrite fmap_cons. f_equal.
      - unfold gobj. cbn [fst snd]. rewrite Hs. f_equal. cbn. by apply sx40_small.
      - rewrite (fits_keep _ _ _ _ ltac:(apply HQ) Hf). f_equal. lia. }
    split.
    - split; [done|]. split; [by rewrite Eg|]. rewrite <- gobj_bytes, Eg. apply keep_bytes. apply Z.div_pos; lia.
    - intros j Hj. apply elem_of_cons in Hj as [->|Hj]; [by left|]. right. by apply (fits_ids _ _ _ _ _ Hf).
  Qed.

  Lemma v0_evict_ok s a t m ll lf r : vrel s a t m ll lf -> m <> ∅ ->
    exists s', v0_evict pick s r = Ok s' /\ vrels s' (l_evict pick cap a) /\
      length (ls_l a) = S (length (ls_l (l_evict pick cap a))) /\ ls_now (l_evict pick cap a) = ls_now a /\
      ls_adm (l_evict pick cap a) = ls_adm a /\
      (forall id, l_find id (ls_l a) = None -> l_find id (ls_l (l_evict pick cap a)) = None /\
         (id ∉ map lg_id (ls_gl a) -> id ∉ map lg_id (ls_gl (l_evict pick cap a))) /\
         (id ∉ map lg_id (ls_gf a) -> id ∉ map lg_id (ls_gf (l_evict pick cap a)))).
  Proof using Hcap.
    intros H Hne. pose proof (vr_ok _ _ _ _ _ _ H) as Hok. pose proof (vr_lru _ _ _ _ _ _ H) as HL. pose proof (vr_lfu _ _ _ _ _ _ H) as HF.
    pose proof (vr_dom _ _ _ _ _ _ H) as HD.
    destruct (sim_evict _ _ _ _ _ _ (lru_sim cap 0) _ _ _ _ r Hok HL Hne) as (l1 & x & l2 & E1 & _ & Hx & _ & E2 & HL2 & _).
    destruct (sim_evict _ _ _ _ _ _ (lfu_sim cap 0) _ _ _ _ r Hok HF Hne) as (f1 & y & _ & E3 & HF1 & Hy & Hpy & _ & _ & E4).
    destruct (E4 r) as (f2 & E5 & HF2). clear E4. cbn in E1, E2, E3, E5.
    unfold q_to_evict_tail in E1. injection E1 as <- Elast.
    assert (exists q, q_q (v_lru s) = q ++ [x]) as (q & Eq).
    { destruct (q_q (v_lru s)) as [|z q _] using rev_ind; [done|]. rewrite last_snoc in Elast. injection Elast as ->. eauto. }
    pose proof (q_evict_q _ _ _ _ _ E2 Eq) as Hq2.
    assert (Hxq : q_del x (q_q (v_lru s)) = q).
    { destruct HD as [Hn _]. rewrite Eq in Hn |- *. by rewrite q_del_mid, app_nil_r. }
    assert (Ex : lru_choice (ls_l a) = Some (lobj_of m x)).
    { unfold lru_choice. rewrite (vr_l _ _ _ _ _ _ H), Eq, fmap_app. apply last_snoc. }
    assert (Ey : lfu_choice (ls_l a) = Some (lobj_of m y)).
    { rewrite (vr_l _ _ _ _ _ _ H). apply lobj_lfu; try done. apply HL. }
    destruct Hx as [ex Hx]. destruct Hy as [ey Hy].
    destruct (sim_remove _ _ _ _ _ _ (lfu_sim cap 0) _ _ _ _ x Hok HF1) as (f3 & E6 & HF3).
    cbn in E6. rewrite bool_decide_eq_true_2 in E6 by eauto.
    destruct (sim_remove _ _ _ _ _ _ (lru_sim cap 0) _ _ _ _ y Hok HL) as (l3 & E7 & HL3).
    cbn in E7. rewrite bool_decide_eq_true_2 in E7 by eauto. pose proof (q_remove_q _ _ _ E7) as Hq3.
    pose proof (vr_c _ _ _ _ _ _ H) as (C1 & C2 & C3 & C4). pose proof (vr_w _ _ _ _ _ _ H) as [W1 W2].
    unfold v0_evict, q_to_evict_tail. cbn [rbind]. rewrite E3. cbn [rbind]. rewrite Elast.
    assert (Hlen : forall v, is_Some (m !! v) -> length (ls_l a) = S (length (l_drop v (ls_l a)))).
    { intros v Hv. rewrite (vr_l _ _ _ _ _ _ H), lobj_drop, !fmap_length.
      assert (v ∈ q_q (v_lru s)) by (apply HD; eauto).
      pose proof (q_del_length v (q_q (v_lru s)) ltac:(apply HD) ltac:(done)). lia. }
    assert (Hnone : forall v j, l_find j (ls_l a) = None -> l_find j (l_drop v (ls_l a)) = None).
    { intros v j. rewrite !l_find_none, map_l_drop, elem_q_del. tauto. }
    assert (Hkeep : forall v z n gs j, m !! v = Some z -> l_find j (ls_l a) = None -> j ∉ map lg_id gs ->
      j ∉ map lg_id (keep (cap / 2) (mkLG v (e_size z) n :: gs))).
    { intros v z n gs j Hv Hj Hg Hk. apply elem_of_list_fmap in Hk as (g & -> & Hk). apply keep_elem in Hk.
      apply elem_of_cons in Hk as [->|Hk].
      - cbn in Hj. by rewrite (vr_find _ _ _ _ _ _ _ H), Hv in Hj.
      - apply Hg. by apply elem_of_list_fmap_1. }
    assert (Hosz : forall v z o, m !! v = Some z -> orel o z -> osz_ok 0 o /\ o_size o = e_size z /\ o_size o <= cap / 2).
    { intros v z o Hv (Hs & _). destruct Hok as (_ & Hok & _). specialize (Hok _ _ Hv). cbn in Hok.
      pose proof (vr_fit _ _ _ _ _ _ H _ _ Hv). unfold osz_ok. split_and!; lia. }
    assert (Hdel : forall v, forall id e, delete v m !! id = Some e -> e_size e <= cap / 2).
    { intros v id e He. apply lookup_delete_Some in He as [_ He]. by eapply (vr_fit _ _ _ _ _ _ H). }
    unfold l_evict. rewrite Ex, Ey, !lobj_of_id.
    destruct (decide (x = y)) as [->|Hxy].
    - rewrite E6. cbn [rbind]. rewrite E2. cbn [rbind]. eexists. split; [done|].
      split; [|split; [apply Hlen; eauto|split; [done|split; [done|]]]].
      + exists t, (delete y m), ll, lf. destruct H. split; try done; cbn.
        * by apply abs_ok_delete.
        * by rewrite vr_l0, lobj_drop', Hxq, Hq2.
        * apply Hdel.
        * intros id Hi. rewrite lookup_delete_None. auto.
        * intros id Hi. rewrite lookup_delete_None. auto.
      + intros id Hi. split; [by apply Hnone|done].
    - rewrite W1, W2. destruct (pick (ls_w a) (ls_draws a)).
      + destruct (brel_some _ _ _ _ _ _ (proj1 HL) Hx) as (o & Ho & Hor). rewrite Ho, E6. cbn [rbind]. rewrite E2. cbn [rbind].
        destruct (Hosz _ _ _ Hx Hor) as (O1 & O2 & O3).
        assert (Hxl : x ∉ ids ll) by (intros Hi; by rewrite (vr_dl _ _ _ _ _ _ H _ Hi) in Hx).
        destruct (v0_remember_ok _ _ _ x o (ls_now a) (vr_gl _ _ _ _ _ _ H) Hxl O1 O3 (vr_now _ _ _ _ _ _ H)) as (g' & ll' & E8 & HG & Hsub).
        rewrite C3, E8. cbn [rbind]. rewrite (lobj_of_some _ _ _ Hx). cbn [lo_id lo_w]. rewrite <- O2.
        eexists. split; [done|]. split; [|split; [apply Hlen; eauto|split; [done|split; [done|]]]].
        * exists t, (delete x m), ll', lf. destruct H. split; try done; cbn.
          -- by apply abs_ok_delete.
          -- by rewrite vr_l0, lobj_drop', Hxq, Hq2.
          -- apply Hdel.
          -- intros id Hi. apply lookup_delete_None. apply Hsub in Hi as [->|Hi]; [by left|right; auto].
          -- intros id Hi. rewrite lookup_delete_None. auto.
          -- intros id Hi Hf. apply Hsub in Hi as [->|Hi]; [by rewrite (vr_df0 _ Hf) in Hx|eauto].
        * cbn. rewrite O2. intros id Hi. split; [by apply Hnone|]. split; [|done]. by eapply Hkeep.
      + destruct (brel_some _ _ _ _ _ _ (proj1 HF1) Hy) as (o & Ho & Hor). rewrite Ho, E7. cbn [rbind]. rewrite E5. cbn [rbind].
        destruct (Hosz _ _ _ Hy Hor) as (O1 & O2 & O3).
        assert (Hyl : y ∉ ids lf) by (intros Hi; by rewrite (vr_df _ _ _ _ _ _ H _ Hi) in Hy).
        destruct (v0_remember_ok _ _ _ y o (ls_now a) (vr_gf _ _ _ _ _ _ H) Hyl O1 O3 (vr_now _ _ _ _ _ _ H)) as (g' & lf' & E8 & HG & Hsub).
        rewrite C3, E8. cbn [rbind]. rewrite (lobj_of_some _ _ _ Hy). cbn [lo_id lo_w]. rewrite <- O2.
        eexists. split; [done|]. split; [|split; [apply Hlen; eauto|split; [done|split; [done|]]]].
        * exists t, (delete y m), ll, lf'. destruct H. split; try done; cbn.
          -- by apply abs_ok_delete.
          -- by rewrite vr_l0, lobj_drop', Hq3.
          -- apply Hdel.
          -- intros id Hi. rewrite lookup_delete_None. auto.
          -- intros id Hi. apply lookup_delete_None. apply Hsub in Hi as [->|Hi]; [by left|right; auto].
          -- intros id Hf Hi. apply Hsub in Hi as [->|Hi]; [by rewrite (vr_dl0 _ Hf) in Hy|eauto].
        * cbn. rewrite O2. intros id Hi. split; [by apply Hnone|]. split; [done|]. by eapply Hkeep.
  Qed.

  Lemma v0_room r fuel n : forall s a, vrels s a -> (length (ls_l a) <= n)%nat -> (length (ls_l a) <= fuel)%nat ->
    r_size r <= cap ->
    exists s', evict_loop O fuel s r = Ok s' /\ vrels s' (l_room pick cap n (r_size r) a) /\
      l_bytes (ls_l (l_room pick cap n (r_size r) a)) + r_size r <= cap /\
      (length (ls_l (l_room pick cap n (r_size r) a)) <= length (ls_l a))%nat /\
      (forall id, l_find id (ls_l a) = None -> l_find id (ls_l (l_room pick cap n (r_size r) a)) = None /\
         (id ∉ map lg_id (ls_gl a) -> id ∉ map lg_id (ls_gl (l_room pick cap n (r_size r) a))) /\
         (id ∉ map lg_id (ls_gf a) -> id ∉ map lg_id (ls_gf (l_room pick cap n (r_size r) a)))).
  Proof using Hcap.
    revert fuel. induction n as [|n IH]; intros fuel s a HV Hn Hf Hr; pose proof HV as (t & m & ll & lf & H);
      pose proof (vr_bytes _ _ _ _ _ _ H) as (B1 & B2 & B3 & B4); pose proof (vr_c _ _ _ _ _ _ H) as (C1 & C2 & _).
    - assert (Hl : ls_l a = []) by (apply nil_length_inv; lia). cbn [l_room].
      assert (Hb : l_bytes (ls_l a) = 0) by (by rewrite Hl).
      exists s. split; [|split; [done|split; [lia|split; [lia|done]]]].
      destruct fuel; cbn [evict_loop op_occupied op_md op_size v0_ops]; by rewrite decide_False by lia.
    - cbn [l_room]. destruct (decide (l_bytes (ls_l a) + r_size r > cap)) as [Hgt|Hle].
      + assert (Hne : m <> ∅). { intros ->. rewrite msum_empty in B1. lia. }
        destruct (v0_evict_ok _ _ _ _ _ _ r H Hne) as (s1 & E1 & HV1 & L1 & _ & _ & N1).
        destruct fuel as [|fuel]; [lia|]. cbn [evict_loop op_occupied op_md op_size v0_ops].
        rewrite decide_True by lia. cbn [op_evict v0_ops]. rewrite E1. cbn [rbind].
        destruct (IH fuel s1 _ HV1 ltac:(lia) ltac:(lia) Hr) as (s' & E' & HV' & Hb & Hl & N2).
        exists s'. split; [exact E'|]. split; [done|]. split; [done|]. split; [lia|].
        intros id Hi. destruct (N1 id Hi) as (P1 & P2 & P3). destruct (N2 id P1) as (Q1 & Q2 & Q3). auto.
      + exists s. split; [|split; [done|split; [lia|split; [lia|done]]]].
        destruct fuel; cbn [evict_loop op_occupied op_md op_size v0_ops]; by rewrite decide_False by lia.
  Qed.

  Lemma v0_insert_ok s a t m ll lf r : vrel s a t m ll lf -> req_ok 0 r -> r_size r <= cap / 2 ->
    l_find (r_id r) (ls_l a) = None -> r_id r ∉ map lg_id (ls_gl a) -> r_id r ∉ map lg_id (ls_gf a) ->
    l_bytes (ls_l a) + r_size r <= cap ->
    exists s', v0_insert s r = Ok s' /\ vrels s' (l_insert 0 a r).
  Proof using Hcap.
    intros H Hr Hs Hn Hl Hf Hb. rewrite (vr_find _ _ _ _ _ _ _ H) in Hn. apply fmap_None in Hn.
    pose proof (vr_bytes _ _ _ _ _ _ H) as (B1 & _). pose proof (vr_ok _ _ _ _ _ _ H) as Hok.
    destruct (sim_insert _ _ _ _ _ _ (lru_sim cap 0) _ _ _ _ r Hok (vr_lru _ _ _ _ _ _ H) Hn Hr ltac:(lia)) as (l' & E1 & HL).
    destruct (sim_insert _ _ _ _ _ _ (lfu_sim cap 0) _ _ _ _ r Hok (vr_lfu _ _ _ _ _ _ H) Hn Hr ltac:(lia)) as (f' & E2 & HF).
    cbn in E1, E2. unfold v0_insert. rewrite E1. cbn [rbind]. rewrite E2. cbn [rbind]. eexists. split; [done|].
    pose proof (q_insert_q _ _ _ E1) as Hq. destruct (vr_gl _ _ _ _ _ _ H) as (_ & EL & _). destruct (vr_gf _ _ _ _ _ _ H) as (_ & EF & _).
    rewrite EL in Hl. rewrite EF in Hf. change (map lg_id) with (fmap (M := list) lg_id) in Hl, Hf. rewrite gobj_ids in Hl, Hf.
    exists (t + 1), (<[r_id r := fresh t r]> m), ll, lf. pose proof (vr_dom _ _ _ _ _ _ H) as HD. destruct H. split; try done; cbn.
    - eapply abs_ok_fresh; try done. lia.
    - rewrite Hq, fmap_cons. rewrite (lobj_of_some _ _ (fresh t r)) by apply lookup_insert. cbn [fresh e_size e_cnt].
      rewrite Z.add_0_r. f_equal. rewrite vr_l0. apply lobj_ext. intros j Hj. rewrite lookup_insert_ne; [done|].
      intros <-. apply HD in Hj as [? Hj]. congruence.
    - intros id e He. apply lookup_insert_Some in He as [[<- <-]|[_ He]]; [done|by eapply vr_fit0].
    - intros id Hi. rewrite lookup_insert_ne; [auto|]. by intros <-.
    - intros id Hi. rewrite lookup_insert_ne; [auto|]. by intros <-.
  Qed.

  (** The calls of the property; objects fit the ghosts or nowhere, remove is for
      cached objects, insert not for remembered ones. *)
  Definition v0_ok (a : lspec W) (c : call) : Prop :=
    match c with
    | CGet r => req_ok 0 r /\ (r_size r <= cap / 2 \/ cap < r_size r) /\ ls_now a < 2 ^ 39 - 1
    | CFind _ _ => True
    | CInsert r => req_ok 0 r /\ (r_size r <= cap / 2 \/ cap < r_size r) /\ r_id r ∉ map lg_id (ls_gl a) /\ r_id r ∉ map lg_id (ls_gf a)
    | CRemove id => cached a id = true
    | CEvict _ => True
    | CToEvict _ => False
    end.
  Fixpoint v0_oks (a : lspec W) (cs : list call) : Prop :=
    match cs with
    | [] => True
    | c :: cs => v0_ok a c /\ v0_oks (l_call upd pick cap 0 a c).1 cs
    end.

  Lemma v0_get_ok s a r fuel : vrels s a -> v0_ok a (CGet r) -> (length (ls_l a) <= fuel)%nat ->
    exists s', cache_get_base O fuel s r = Ok (s', (l_get upd pick cap 0 a r).2) /\ vrels s' (l_get upd pick cap 0 a r).1 /\
      (length (ls_l (l_get upd pick cap 0 a r).1) <= S (length (ls_l a)))%nat.
  Proof using Hcap.
    intros (t & m & ll & lf & H) (Hr & Hs & Hn) Hf. unfold cache_get_base, l_get.
    pose proof (v0_tick_rel _ _ _ _ _ _ H Hn) as HT.
    destruct (v0_access _ _ _ _ _ _ r HT) as (s1 & E1 & HV1 & L1 & M1).
    change (op_find O) with (v0_find upd). rewrite E1. cbn [rbind].
    destruct (l_access upd (tick a) (r_id r)) as [a1 hit]. cbn [fst snd] in *.
    change (length (ls_l (tick a))) with (length (ls_l a)) in L1.
    destruct hit; [exists s1; split_and!; try done; cbn; lia|].
    destruct HV1 as (t1 & m1 & ll1 & lf1 & H1). destruct (M1 eq_refl) as (M2 & M3 & M4).
    change (op_can_insert O) with (v0_can_insert (W := W)). unfold v0_can_insert, cache_can_insert_default.
    pose proof (vr_c _ _ _ _ _ _ H1) as (C1 & C2 & C3 & C4). rewrite C4.
    destruct (admit (ls_adm a1) r) as [adm ok]. rewrite Z.add_0_r.
    assert (HA : vrel (mkL0 (c_set_adm (v_c s1) adm) (v_lru s1) (v_gl s1) (v_lfu s1) (v_gf s1) (v_w s1) (v_draws s1)) (set_adm a1 adm) t1 m1 ll1 lf1).
    { destruct H1. split; try done; cbn; split_and!; try done; lia. }
    destruct ok; cbn [andb].
    - change (c_md (c_set_adm (v_c s1) adm)) with (c_md (v_c s1)). change (c_size (c_set_adm (v_c s1) adm)) with (c_size (v_c s1)).
      rewrite C1, C2, Z.add_0_r.
      destruct (decide (r_size r > cap)) as [Hgt|Hle].
      + rewrite bool_decide_eq_false_2 by lia. cbn [rbind]. eexists. split; [done|]. split; [exists t1, m1, ll1, lf1; exact HA|]. cbn. lia.
      + rewrite bool_decide_eq_true_2 by lia. cbn [rbind].
        destruct (v0_room r fuel (length (ls_l (set_adm a1 adm))) _ (set_adm a1 adm) ltac:(exists t1, m1, ll1, lf1; exact HA) ltac:(done)
          ltac:(cbn; lia) ltac:(lia)) as (s2 & E2 & (t2 & m2 & ll2 & lf2 & H2) & B2 & L2 & N2).
        rewrite E2. cbn [rbind]. change (op_insert O) with (v0_insert (W := W)).
        destruct (N2 (r_id r) M2) as (N3 & N4 & N5).
        destruct (v0_insert_ok _ _ _ _ _ _ r H2 Hr ltac:(lia) N3 (N4 M3) (N5 M4) B2) as (s3 & E3 & HV3).
        rewrite E3. cbn [rbind]. exists s3. split; [done|]. split; [done|]. cbn in L2 |- *. lia.
    - cbn [rbind]. eexists. split; [done|]. split; [exists t1, m1, ll1, lf1; exact HA|]. cbn. lia.
  Qed.

  Lemma v0_step_ok s a c fuel : vrels s a -> v0_ok a c -> (length (ls_l a) <= fuel)%nat ->
    exists s', step O fuel s c = Ok (s', (l_call upd pick cap 0 a c).2) /\ vrels s' (l_call upd pick cap 0 a c).1 /\
      (length (ls_l (l_call upd pick cap 0 a c).1) <= S (length (ls_l a)))%nat.
  Proof using Hcap.
    intros HV Hc Hf. pose proof HV as (t & m & ll & lf & H). pose proof (vr_bytes _ _ _ _ _ _ H) as (B1 & B2 & B3 & B4).
    pose proof (vr_c _ _ _ _ _ _ H) as (C1 & C2 & _).
    destruct c as [r|r u|r|id|r|r]; cbn [step l_call].
    - destruct (v0_get_ok s a r fuel HV Hc Hf) as (s' & E & HV' & L). rewrite E. cbn [rbind].
      destruct (l_get upd pick cap 0 a r) as [a' b]. cbn [fst snd] in *. eauto.
    - change (op_find O) with (v0_find upd). destruct u.
      + destruct (v0_access _ _ _ _ _ _ r H) as (s' & E & HV' & L & _). rewrite E. cbn [rbind].
        destruct (l_access upd a (r_id r)) as [a' b]. cbn [fst snd] in *. exists s'. split_and!; try done. lia.
      + rewrite (v0_find_false _ _ _ _ _ _ r H). cbn [rbind]. exists s. split_and!; try done. cbn. lia.
    - change (op_find O) with (v0_find upd). rewrite (v0_find_false _ _ _ _ _ _ r H). cbn [rbind].
      destruct (cached a (r_id r)) eqn:Ec; [exists s; split_and!; try done; cbn; lia|].
      cbn [op_occupied op_md op_size v0_ops]. rewrite C1, C2, B3, Z.add_0_r, Z.add_0_r.
      destruct Hc as (Hr & Hs & Hl & Hg). destruct (decide _) as [Hgt|Hle]; [exists s; split_and!; try done; cbn; lia|].
      unfold cached in Ec. apply bool_decide_eq_false in Ec. rewrite <- eq_None_not_Some in Ec.
      assert (0 <= l_bytes (ls_l a)). { rewrite B1. apply (vr_ok _ _ _ _ _ _ H). }
      destruct (v0_insert_ok _ _ _ _ _ _ r H Hr ltac:(lia) Ec Hl Hg ltac:(lia)) as (s' & E & HV').
      cbn [op_insert v0_ops]. rewrite E. cbn [rbind]. exists s'. split_and!; try done; cbn; lia.
    - cbn in Hc. rewrite Hc. rewrite (vr_cached _ _ _ _ _ _ _ H) in Hc. apply bool_decide_eq_true in Hc as [e He].
      cbn [op_remove v0_ops]. unfold v0_remove.
      pose proof (vr_ok _ _ _ _ _ _ H) as Hok. pose proof (vr_lru _ _ _ _ _ _ H) as HL. pose proof (vr_lfu _ _ _ _ _ _ H) as HF.
      destruct (brel_some _ _ _ _ _ _ (proj1 HL) He) as (o & Ho & _). destruct (brel_some _ _ _ _ _ _ (proj1 HF) He) as (o' & Ho' & _).
      destruct (sim_remove _ _ _ _ _ _ (lru_sim cap 0) _ _ _ _ id Hok HL) as (l' & E1 & HL').
      destruct (sim_remove _ _ _ _ _ _ (lfu_sim cap 0) _ _ _ _ id Hok HF) as (f' & E2 & HF').
      cbn in E1, E2. rewrite bool_decide_eq_true_2 in E1, E2 by eauto.
      rewrite Ho, E1. cbn [rbind]. rewrite Ho', E2. cbn [rbind]. eexists. split; [done|]. split.
      + exists t, (delete id m), ll, lf. pose proof (q_remove_q _ _ _ E1) as Hq. destruct H. split; try done; cbn.
        * by apply abs_ok_delete.
        * by rewrite vr_l0, lobj_drop', Hq.
        * intros j x Hx. apply lookup_delete_Some in Hx as [_ Hx]. by eapply vr_fit0.
        * intros j Hj. rewrite lookup_delete_None. auto.
        * intros j Hj. rewrite lookup_delete_None. auto.
      + cbn. unfold l_drop. pose proof (filter_length (fun x => lo_id x <> id) (ls_l a)). lia.
    - cbn [op_nobj v0_ops]. rewrite B4. destruct (decide _) as [Hz|Hz].
      + assert (Hl : ls_l a = []) by (apply nil_length_inv; lia).
        assert (El : l_evict pick cap a = a) by (unfold l_evict; by rewrite Hl). rewrite El.
        exists s. split_and!; try done. cbn. lia.
      + assert (Hne : m <> ∅). { intros ->. rewrite map_size_empty in B2. lia. }
        destruct (v0_evict_ok _ _ _ _ _ _ r H Hne) as (s' & E & HV' & L & _). cbn [op_evict v0_ops]. rewrite E. cbn [rbind].
        exists s'. split_and!; try done. cbn. lia.
    - done.
  Qed.

  Lemma v0_run_ok cs : forall s a fuel, vrels s a -> v0_oks a cs -> (length (ls_l a) + length cs <= fuel)%nat ->
    exists s', run O fuel s cs = Ok (s', (l_run upd pick cap 0 a cs).2) /\ vrels s' (l_run upd pick cap 0 a cs).1.
  Proof using Hcap.
    induction cs as [|c cs IH]; intros s a fuel H Hok Hf; cbn [run l_run]; [by exists s|].
    destruct Hok as [Hc Hcs]. cbn [length] in Hf.
    destruct (v0_step_ok s a c fuel H Hc ltac:(lia)) as (s1 & E1 & H1 & L1). rewrite E1. cbn [rbind].
    destruct (IH s1 _ fuel H1 Hcs ltac:(lia)) as (s2 & E2 & H2). rewrite E2. cbn [rbind].
    exists s2. destruct (l_call upd pick cap 0 a c) as [a1 o]. cbn [fst snd] in *.
    destruct (l_run upd pick cap 0 a1 cs) as [a2 os]. cbn [fst snd] in *. done.
  Qed.
End V0.
