(** What every operation of the QDLP model does to its queues and to the main
    cache, and the invariant that all client programs preserve. *)
From stdpp Require Import gmap list numbers fin_maps.
From Verif Require Import Base Driver Abs AbsFacts Sim ModelQueue QueueFacts QList CompFacts ModelTwoQ ModelS3FIFO S3Facts ModelQDLP.
Open Scope Z_scope.

(** [H id]: the number of hits on [id] while it is in the fifo. *)
Definition allF (H : Z -> Z) (l : qlist) : Prop := Forall (fun x => o_freq x.2 = H x.1) l.

Lemma allF_ext H H' l : (forall id, id ∈ ids l -> H' id = H id) -> allF H l -> allF H' l.
Proof.
  intros He Hl. apply Forall_forall. intros [j o] Hj. rewrite He by (apply ids_elem; eauto).
  unfold allF in Hl. rewrite Forall_forall in Hl. by apply (Hl (j, o)).
Qed.
Lemma allF_notin_bump H id l : id ∉ ids l -> allF H l -> allF (bump H id) l.
Proof. intros Hn. apply allF_ext. intros j Hj. unfold bump. rewrite decide_False; [done|]. by intros ->. Qed.
Lemma allF_notin_zero H id l : id ∉ ids l -> allF H l -> allF (zero_at H id) l.
Proof. intros Hn. apply allF_ext. intros j Hj. unfold zero_at. rewrite decide_False; [done|]. by intros ->. Qed.
Lemma allF_upd H id f l : (forall o, o_freq (f o) = o_freq o + 1) -> allF H l -> allF (bump H id) (l_upd f id l).
Proof.
  intros Hf Hl. unfold allF, l_upd in *. apply Forall_fmap. apply (Forall_impl _ _ _ Hl).
  intros [j o] Hp. unfold compose, bump. cbn in *. destruct (decide (j = id)) as [->|Hne]; cbn;
    [rewrite decide_True, Hf by done|rewrite decide_False by done]; lia.
Qed.
Lemma allF_elem H l id o : allF H l -> (id, o) ∈ l -> o_freq o = H id.
Proof. unfold allF. rewrite Forall_forall. intros Hl Ho. by apply (Hl (id, o)). Qed.

(** ids of a list and of a map are disjoint *)
Definition apart (l : qlist) (m : gmap Z entry) : Prop := forall id, id ∈ ids l -> m !! id = None.

Lemma apart_sub l l' m : (forall id, id ∈ ids l' -> id ∈ ids l) -> apart l m -> apart l' m.
Proof. intros H Ha id Hid. apply Ha, H, Hid. Qed.
Lemma apart_map l m m' : (forall id, is_Some (m' !! id) -> is_Some (m !! id)) -> apart l m -> apart l m'.
Proof.
  intros H Ha id Hid. destruct (m' !! id) eqn:E; [|done]. destruct (H id) as [? Hx]; [eauto|].
  by rewrite (Ha id Hid) in Hx.
Qed.

Lemma ghost_get_some g r g' : ghost_get g r = Ok g' -> is_Some g' <-> is_Some g.
Proof.
  unfold ghost_get. destruct g; [|by intros [= <-]]. destruct (sub_get _ _ _) as [[? ?]|]; [|done]. cbn [rbind].
  intros [= <-]. split; eauto.
Qed.

Lemma evict_to_msum pol cap n m m' : evict_to pol cap 0 n m m' ->
  (forall id e, m !! id = Some e -> 0 <= e_size e) -> msum 0 m' <= msum 0 m.
Proof.
  induction 1 as [|m v m' _ [e He] _ _ IH]; intros Hy; [lia|].
  rewrite (msum_delete _ _ _ _ He) in IH. pose proof (Hy _ _ He).
  assert (msum 0 m' <= msum 0 m - (e_size e + 0)); [|lia]. apply IH.
  intros id e'. rewrite lookup_delete_Some. intros [_ ?]. eauto.
Qed.

Section QD.
  Context {M : Type} (pol : policy) (O : ops M) (R : M -> abs -> Prop).
  Context (G : Z -> Z -> Prop) (cap fsz gsz thr : Z).
  Context (Hfsz : 0 <= fsz <= cap).
  Notation msz := (cap - fsz).
  Context (HS : simulation pol O msz 0 (req_ok 0) R).

  Record dok (H : Z -> Z) (s : qd M) (lf lg : qlist) (t : Z) (m : gmap Z entry) : Prop := mkDok {
    dok_f   : qok fsz 0 (d_fifo s) lf;
    dok_g   : gok gsz (d_gq s) lg;
    dok_gs  : is_Some (d_gq s) <-> 0 < gsz;
    dok_m   : R (d_main s) (mkAbs t m AdmNone);
    dok_ok  : abs_ok msz 0 (mkAbs t m AdmNone);
    dok_sz  : d_size s = cap;
    dok_thr : d_thr s = thr;
    dok_fg  : disj lf lg;
    dok_fm  : apart lf m;
    dok_gm  : apart lg m;
    dok_cap : bytes 0 lf + msum 0 m <= cap;
    dok_Gf  : allG G lf;
    dok_Gg  : allG G lg;
    dok_Gm  : forall id e, m !! id = Some e -> G id (e_size e);
    dok_H   : allF H lf;
    dok_lt  : Forall (fun x => o_size x.2 < fsz) lf
  }.

  Lemma dok_bytes H s lf lg t m : dok H s lf lg t m -> 0 <= bytes 0 lf /\ 0 <= msum 0 m.
  Proof.
    intros []. split; [apply bytes_nonneg; [lia|apply dok_f0]|]. apply dok_ok0.
  Qed.

  (** A get of an absent object on the main cache. *)
  Lemma main_get_spec ms t m r : R ms (mkAbs t m AdmNone) -> abs_ok msz 0 (mkAbs t m AdmNone) ->
    req_ok 0 r -> m !! r_id r = None -> r_size r <= msz ->
    exists ms' m1, main_get O ms r = Ok (ms', false) /\
      evict_to pol msz 0 (r_size r) m m1 /\
      R ms' (mkAbs (t + 1) (<[r_id r := fresh t r]> m1) AdmNone) /\
      abs_ok msz 0 (mkAbs (t + 1) (<[r_id r := fresh t r]> m1) AdmNone).
  Proof.
    intros HR Hok Hr Hn Hsz.
    destruct (sim_step pol O msz 0 (req_ok 0) R HS (Z.to_nat (op_nobj O ms)) ms _ (CGet r) Hok HR Hr)
      as (s' & o & a' & Hst & Ha & HR').
    { cbn. rewrite (sim_nobj _ _ _ _ _ _ HS _ _ HR). cbn. lia. }
    pose proof (abs_step_ok _ _ _ _ _ _ _ Ha Hr Hok) as Hok'.
    cbn [step] in Hst. unfold main_get. destruct (cache_get_base O _ ms r) as [[s1 b]|]; cbn [rbind] in Hst; [|done].
    injection Hst as -> <-. inversion Ha; subst.
    - congruence.
    - match goal with H : admit AdmNone _ = _ |- _ => discriminate H end.
    - lia.
    - match goal with H : admit AdmNone _ = _ |- _ => cbn in H; injection H as <- end.
      exists s', m'. rewrite Z.add_0_r in *. split_and!; done.
  Qed.

  Lemma dok_find_false H s lf lg t m r : dok H s lf lg t m ->
    qd_find O s r false = Ok (s, bool_decide (r_id r ∈ ids lf \/ is_Some (m !! r_id r))).
  Proof.
    intros []. unfold qd_find. rewrite (qok_find_false _ _ _ _ dok_f0). cbn [rbind].
    destruct (bool_decide (r_id r ∈ ids lf)) eqn:E.
    - apply bool_decide_eq_true in E. rewrite bool_decide_eq_true_2 by (by left). by destruct s.
    - apply bool_decide_eq_false in E. cbn [qd_set_fifo d_main].
      rewrite (sim_find_false _ _ _ _ _ _ HS _ _ r dok_m0). cbn [rbind a_m].
      destruct s. unfold qd_set_main. cbn. do 2 f_equal. apply bool_decide_ext. tauto.
  Qed.

  (** What a lookup with update does. *)
  Lemma dok_find_true H s lf lg t m r : dok H s lf lg t m ->
    exists s' b lf' lg' t' m', qd_find O s r true = Ok (s', b) /\
      b = bool_decide (r_id r ∈ ids lf \/ is_Some (m !! r_id r)) /\
      dok (if b then bump H (r_id r) else H) s' lf' lg' t' m' /\
      ids lf' = ids lf /\ (forall id, is_Some (m' !! id) <-> is_Some (m !! id)) /\ size m' = size m /\
      (b = false -> lf' = lf /\ m' = m /\ lg' = l_del (r_id r) lg /\ d_hg s' = bool_decide (r_id r ∈ ids lg)) /\
      (b = true -> lg' = lg).
  Proof.
    intros HD. pose proof HD as []. unfold qd_find. cbn [qd_set_hg d_fifo].
    destruct (decide (r_id r ∈ ids lf)) as [Hf|Hf].
    - destruct (qok_find_hit _ _ _ _ dok_f0 r Hf) as (f' & -> & Hf'). cbn [rbind].
      eexists _, true, _, lg, t, m. split; [done|]. rewrite bool_decide_eq_true_2 by (by left).
      assert (E : ids (l_upd (o_hit r) (r_id r) lf) = ids lf) by apply ids_upd.
      split; [done|]. split.
      + split; cbn; try done.
        * intros id. rewrite E. apply dok_fg0.
        * intros id. rewrite E. apply dok_fm0.
        * by rewrite bytes_upd.
        * by apply allG_upd.
        * by apply allF_upd.
        * by apply Forall_upd.
      + split_and!; done.
    - rewrite (qok_find_miss _ _ _ _ dok_f0 r true Hf). cbn [rbind qd_set_fifo qd_set_hg d_gq].
      destruct (ghost_remove_spec gsz (d_gq s) lg (r_id r) dok_g0) as (g' & -> & Hg' & Hgs'). cbn [rbind].
      set (s2 := if bool_decide (r_id r ∈ ids lg) then _ else _).
      assert (Hs2 : d_main s2 = d_main s /\ d_fifo s2 = d_fifo s /\ d_gq s2 = g' /\ d_size s2 = d_size s /\
        d_thr s2 = d_thr s /\ d_hg s2 = bool_decide (r_id r ∈ ids lg)).
      { unfold s2. by destruct (bool_decide _). }
      destruct Hs2 as (E1 & E2 & E3 & E4 & E5 & E6). clearbody s2. rewrite E1.
      destruct (m !! r_id r) as [e|] eqn:Em.
      + assert (Hng : r_id r ∉ ids lg). { intros Hx. by rewrite (dok_gm0 _ Hx) in Em. }
        destruct (sim_find_hit _ _ _ _ _ _ HS _ _ _ _ r e dok_ok0 dok_m0 Em) as (m' & -> & HR'). cbn [rbind].
        rewrite bool_decide_eq_true_2 by (right; eauto).
        assert (Hsub : forall id, is_Some (<[r_id r:=touch t r e]> m !! id) <-> is_Some (m !! id)).
        { intros id. rewrite lookup_insert_is_Some'. naive_solver. }
        assert (Hsz : size (<[r_id r:=touch t r e]> m) = size m) by (apply map_size_insert_Some; eauto).
        assert (Hb : msum 0 (<[r_id r:=touch t r e]> m) = msum 0 m) by (by eapply msum_update).
        rewrite (l_del_notin _ _ Hng) in Hg'.
        eexists _, true, lf, lg, _, _. split; [done|]. split; [done|]. split; [|split_and!; done].
        split; cbn; rewrite ?E2, ?E3, ?E4, ?E5, ?Hgs'; try done.
        * by apply abs_ok_touch.
        * eapply apart_map; [|done]. intros id. by rewrite Hsub.
        * eapply apart_map; [|done]. intros id. by rewrite Hsub.
        * by rewrite Hb.
        * intros id e'. rewrite lookup_insert_Some. intros [[<- <-]|[_ ?]]; [|eauto]. cbn. eauto.
        * by apply allF_notin_bump.
      + destruct (sim_find_miss _ _ _ _ _ _ HS _ _ r dok_m0 Em) as (m' & -> & HR'). cbn [rbind].
        rewrite bool_decide_eq_false_2 by (intros [?|[? ?]]; congruence).
        eexists _, false, lf, (l_del (r_id r) lg), t, m. split; [done|]. split; [done|]. split; [|split_and!; done].
        split; cbn; rewrite ?E2, ?E3, ?E4, ?E5, ?Hgs'; try done.
        * eapply disj_sub; [| |exact dok_fg0]; [done|apply del_sub].
        * eapply apart_sub; [|done]. apply del_sub.
        * by apply allG_del.
  Qed.

  (** One eviction. *)
  Lemma dok_evict H s lf lg t m r : dok H s lf lg t m -> fsz <= msz -> bytes 0 lf + msum 0 m > 0 ->
    exists s' lf' lg' t' m', qd_evict O s r = Ok s' /\ dok H s' lf' lg' t' m' /\ d_hg s' = d_hg s /\
      bytes 0 lf' + msum 0 m' <= bytes 0 lf + msum 0 m /\
      if decide (bytes 0 lf = 0) then
        lf' = lf /\ lg' = lg /\ exists v, is_Some (m !! v) /\ pol m v /\ m' = delete v m
      else exists v o, lf = lf' ++ [(v, o)] /\
        if decide (H v >= thr) then lg' = lg /\ exists m1 e, evict_to pol msz 0 (o_size o) m m1 /\
          m' = <[v := e]> m1
        else m' = m /\ (forall id, id ∈ ids lg' -> id = v \/ id ∈ ids lg) /\
          (0 < gsz -> o_size o <= gsz -> v ∈ ids lg').
  Proof.
    intros HD Hle Hpos. pose proof HD as []. pose proof (dok_bytes _ _ _ _ _ _ HD) as [Hb1 Hb2].
    unfold qd_evict. assert (q_occ (d_fifo s) = bytes 0 lf) as -> by apply dok_f0.
    destruct (decide (bytes 0 lf = 0)) as [Hz|Hnz].
    - rewrite (sim_occ _ _ _ _ _ _ HS _ _ dok_m0), dok_sz0. cbn [a_m].
      rewrite decide_True by lia.
      assert (m <> ∅) as Hne. { intros ->. rewrite msum_empty in Hpos. lia. }
      destruct (sim_evict _ _ _ _ _ _ HS _ _ _ _ r dok_ok0 dok_m0 Hne) as (_ & v & s2 & _ & _ & Hv & Hp & -> & HR2 & _).
      cbn [rbind]. destruct Hv as [e Hv].
      pose proof (msum_delete 0 m v e Hv) as Hm.
      assert (0 <= e_size e) by (destruct dok_ok0 as (_ & Hx & _); specialize (Hx _ _ Hv); lia).
      assert (Hsub : forall id, is_Some (delete v m !! id) -> is_Some (m !! id)).
      { intros id. rewrite lookup_delete_is_Some. tauto. }
      eexists _, lf, lg, t, (delete v m). split; [done|]. split_and!; try done.
      + split; cbn; try done.
        * by apply abs_ok_delete.
        * by eapply apart_map.
        * by eapply apart_map.
        * lia.
        * intros id e'. rewrite lookup_delete_Some. intros [_ ?]. eauto.
      + lia.
      + exists v. split_and!; [eauto|done|done].
    - destruct lf as [|[v o] lf' _] using rev_ind; [done|].
      rewrite (qok_q _ _ _ _ dok_f0), ids_app. cbn [ids fmap list_fmap fst]. rewrite last_snoc.
      assert (Hin : (v, o) ∈ lf' ++ [(v, o)]) by (apply elem_of_app; right; left).
      rewrite (proj2 (qok_lookup _ _ _ _ dok_f0 _ _) Hin).
      rewrite (allF_elem _ _ _ _ dok_H0 Hin), dok_thr0.
      pose proof (req_of_obj_ok _ _ _ _ _ dok_f0 Hin) as Hrq.
      assert (Hvm : m !! v = None). { apply dok_fm0. apply ids_elem. eauto. }
      assert (Hosz : o_size o < fsz). { rewrite Forall_forall in dok_lt0. by apply (dok_lt0 (v, o)). }
      assert (Hsub : forall id, id ∈ ids lf' -> id ∈ ids (lf' ++ [(v, o)])).
      { intros id Hid. rewrite ids_app. apply elem_of_app. by left. }
      assert (Hvn : v ∉ ids lf'). { by destruct (NoDup_ids_mid lf' v o [] (qok_nd _ _ _ _ dok_f0)) as (? & _). }
      assert (Hvb : bytes 0 (lf' ++ [(v, o)]) = bytes 0 lf' + o_size o).
      { rewrite bytes_app, bytes_cons. cbn. lia. }
      pose proof (osz_elem _ _ _ _ _ dok_f0 Hin) as Hoz.
      assert (HGo : G v (o_size o)) by exact (allG_elem _ _ _ _ dok_Gf0 Hin).
      apply allG_app in dok_Gf0 as [HG1 _]. apply Forall_app in dok_lt0 as [Hlt1 _].
      apply Forall_app in dok_H0 as [HH1 _].
      destruct (decide (H v >= thr)) as [Hthr|Hthr].
      + destruct (main_get_spec _ _ _ (req_of_obj v o) dok_m0 dok_ok0 Hrq Hvm) as (ms & m1 & -> & Hev & HR' & Hok').
        { cbn. lia. }
        cbn [rbind qd_set_main d_fifo]. destruct (qok_evict _ _ _ _ _ _ r (Z.le_refl 0) dok_f0) as (f' & -> & Hf').
        cbn [rbind]. cbn [r_id req_of_obj] in HR', Hok'.
        destruct (evict_to_ok _ _ _ _ _ _ _ AdmNone Hev dok_ok0) as (_ & _ & Hss & _).
        assert (Hm1 : m1 !! v = None).
        { destruct (m1 !! v) eqn:E; [|done]. by rewrite (lookup_weaken _ _ _ _ E Hss) in Hvm. }
        assert (Hms : msum 0 (<[v := fresh t (req_of_obj v o)]> m1) = o_size o + msum 0 m1).
        { rewrite msum_insert by done. cbn. lia. }
        assert (Hm1le : msum 0 m1 <= msum 0 m).
        { eapply evict_to_msum; [done|]. intros id e He. destruct dok_ok0 as (_ & Hx & _). specialize (Hx _ _ He). lia. }
        eexists _, lf', lg, _, _. split; [done|]. split_and!.
        * split; cbn; try done.
          -- eapply disj_sub; [| |exact dok_fg0]; done.
          -- intros id Hid. rewrite lookup_insert_ne by (intros ->; done).
             destruct (m1 !! id) eqn:E; [|done]. pose proof (dok_fm0 id (Hsub _ Hid)) as Hx.
             by rewrite (lookup_weaken _ _ _ _ E Hss) in Hx.
          -- intros id Hid. destruct (decide (id = v)) as [->|Hne].
             { exfalso. apply (dok_fg0 v); [apply ids_elem; eauto|done]. }
             rewrite lookup_insert_ne by done. destruct (m1 !! id) eqn:E; [|done].
             pose proof (dok_gm0 id Hid) as Hx. by rewrite (lookup_weaken _ _ _ _ E Hss) in Hx.
          -- lia.
          -- intros id e. rewrite lookup_insert_Some. intros [[<- <-]|[_ He]]; [done|].
             eapply dok_Gm0, lookup_weaken; eauto.
        * done.
        * lia.
        * eexists v, o. split; [done|]. rewrite decide_True by done. eauto 10.
      + destruct (ghost_get_spec G gsz (d_gq s) lg (req_of_obj v o) dok_g0 Hrq) as (g' & lg' & Hgg & Hg' & HGg' & Hin' & Hst'); try done.
        { cbn. intros Hx. apply (dok_fg0 v); [apply ids_elem; eauto|done]. }
        pose proof (ghost_get_some _ _ _ Hgg) as Hgs. rewrite Hgg. clear Hgg.
        cbn [rbind qd_set_gq d_fifo]. destruct (qok_evict _ _ _ _ _ _ r (Z.le_refl 0) dok_f0) as (f' & -> & Hf').
        cbn [rbind r_id r_size req_of_obj] in *.
        eexists _, lf', lg', _, _. split; [done|]. split_and!.
        * split; cbn; try done.
          -- by rewrite Hgs.
          -- intros id Hid Hid'. apply Hin' in Hid' as [->|Hid']; [done|]. apply (dok_fg0 id); auto.
          -- eapply apart_sub; [|exact dok_fm0]. done.
          -- intros id Hid. apply Hin' in Hid as [->|Hid]; auto.
          -- lia.
        * done.
        * lia.
        * eexists v, o. split; [done|]. rewrite decide_False by done. split_and!; try done.
          intros ? ?. apply Hst'; [done|]. by apply dok_gs0.
  Qed.

  Lemma evict_to_size n m m' : evict_to pol msz 0 n m m' -> m' ⊆ m /\ (size m' <= size m)%nat.
  Proof.
    induction 1 as [|m v m' _ [e He] _ _ [IH1 IH2]]; [done|]. split.
    - etrans; [exact IH1|apply delete_subseteq].
    - rewrite map_size_delete_Some in IH2 by eauto. lia.
  Qed.

  (** What matters of an eviction for the loop of get. *)
  Lemma dok_evict_w H s lf lg t m r : dok H s lf lg t m -> fsz <= msz -> bytes 0 lf + msum 0 m > 0 ->
    exists s' lf' lg' t' m', qd_evict O s r = Ok s' /\ dok H s' lf' lg' t' m' /\ d_hg s' = d_hg s /\
      (exists d, lf = lf' ++ d) /\
      (forall id, is_Some (m' !! id) -> is_Some (m !! id) \/ (id ∈ ids lf /\ H id >= thr)) /\
      (forall id, id ∈ ids lg' -> id ∈ ids lg \/ (id ∈ ids lf /\ H id < thr)) /\
      bytes 0 lf' + msum 0 m' <= bytes 0 lf + msum 0 m /\
      (length lf' + size m' <= length lf + size m)%nat /\
      (2 * length lf' + size m' < 2 * length lf + size m)%nat.
  Proof.
    intros HD Hle Hpos. destruct (dok_evict H s lf lg t m r HD Hle Hpos) as (s' & lf' & lg' & t' & m' & He & HD' & Hg & Hb & Hc).
    exists s', lf', lg', t', m'. split; [done|]. split; [done|]. split; [done|].
    destruct (decide (bytes 0 lf = 0)).
    - destruct Hc as (-> & -> & v & Hv & _ & ->).
      assert (size m <> 0)%nat. { destruct Hv as [e0 Hv]. apply map_size_non_empty_iff. intros ->. by rewrite lookup_empty in Hv. }
      rewrite map_size_delete_Some by done.
      split_and!; try done; try lia.
      + exists []. by rewrite app_nil_r.
      + intros id. rewrite lookup_delete_is_Some. intros [_ ?]. by left.
      + intros; by left.
    - destruct Hc as (v & o & -> & Hc). rewrite app_length. cbn [length].
      assert (Hv : v ∈ ids (lf' ++ [(v, o)])) by (rewrite ids_app; apply elem_of_app; right; left).
      split; [by eexists|]. destruct (decide (H v >= thr)).
      + destruct Hc as (-> & m1 & e & Hev & ->). destruct (evict_to_size _ _ _ Hev) as [Hss Hs].
        pose proof (size_insert_le m1 v e). split_and!; try done; try lia.
        * intros id. rewrite lookup_insert_is_Some'. intros [<-|[e' He']]; [by right|]. left.
          exists e'. by eapply lookup_weaken.
        * intros; by left.
      + destruct Hc as (-> & Hc & _). split_and!; try done; try lia.
        * intros; by left.
        * intros id Hid. apply Hc in Hid as [->|?]; [right; split; [done|lia]|by left].
  Qed.

  Lemma dok_loop H r : fsz <= msz -> 0 <= r_size r <= fsz -> forall n s lf lg t m fuel,
    (2 * length lf + size m <= n)%nat -> (n <= fuel)%nat -> dok H s lf lg t m ->
    exists s' lf' lg' t' m', evict_loop (qd_ops O) fuel s r = Ok s' /\ dok H s' lf' lg' t' m' /\ d_hg s' = d_hg s /\
      bytes 0 lf' + msum 0 m' + r_size r <= cap /\
      (exists d, lf = lf' ++ d) /\
      (forall id, is_Some (m' !! id) -> is_Some (m !! id) \/ (id ∈ ids lf /\ H id >= thr)) /\
      (forall id, id ∈ ids lg' -> id ∈ ids lg \/ (id ∈ ids lf /\ H id < thr)) /\
      (length lf' + size m' <= length lf + size m)%nat /\
      (bytes 0 lf + msum 0 m + r_size r <= cap -> s' = s).
  Proof.
    intros Hle Hr n. induction n as [|n IH]; intros s lf lg t m fuel Hn Hfu HD.
    all: assert (Hocc : op_occupied (qd_ops O) s + r_size r + op_md (qd_ops O) s = bytes 0 lf + msum 0 m + r_size r
                     /\ op_size (qd_ops O) s = cap)
      by (pose proof HD as []; cbn; unfold q_occ; rewrite (qok_occ _ _ _ _ dok_f0), (sim_occ _ _ _ _ _ _ HS _ _ dok_m0); cbn; split; [lia|done]).
    all: destruct Hocc as [Hocc Hsz].
    all: pose proof (dok_bytes _ _ _ _ _ _ HD) as [Hb1 Hb2].
    - assert (lf = [] /\ m = ∅) as [-> ->].
      { split; [destruct lf; [done|cbn in Hn; lia]|apply map_size_empty_inv; lia]. }
      exists s, [], lg, t, ∅. change (bytes 0 []) with 0 in *. rewrite msum_empty in *.
      assert (evict_loop (qd_ops O) fuel s r = Ok s) as -> by (destruct fuel; cbn [evict_loop]; by rewrite decide_False by lia).
      split_and!; try done; try lia; try (by exists []); intros; by left.
    - destruct fuel as [|fuel]; [lia|]. cbn [evict_loop]. destruct (decide _) as [Hgt|Hnot].
      + cbn [op_evict qd_ops].
        destruct (dok_evict_w H s lf lg t m r HD Hle ltac:(lia)) as
          (s1 & lf1 & lg1 & t1 & m1 & -> & HS1 & Hg1 & (d1 & Hd1) & Hm1 & Hlg1 & Hbb & Hl1 & Hdec).
        cbn [rbind].
        destruct (IH s1 lf1 lg1 t1 m1 fuel ltac:(lia) ltac:(lia) HS1) as
          (s' & lf' & lg' & t' & m' & -> & HS' & Hg' & Hc & (d & Hd) & Hm' & Hlg' & Hl' & _).
        assert (Hsub : forall id, id ∈ ids lf1 -> id ∈ ids lf).
        { intros id Hid. rewrite Hd1, ids_app. apply elem_of_app. by left. }
        exists s', lf', lg', t', m'. split_and!; try done; try lia; try congruence.
        * exists (d ++ d1). by rewrite app_assoc, <- Hd.
        * intros id Hid. apply Hm' in Hid as [Hid|[Hid ?]]; [by apply Hm1|]. right. split; [by apply Hsub|done].
        * intros id Hid. apply Hlg' in Hid as [Hid|[Hid ?]]; [by apply Hlg1|]. right. split; [by apply Hsub|done].
      + exists s, lf, lg, t, m. split_and!; try done; try lia; try (by exists []; rewrite app_nil_r); intros; by left.
  Qed.

  Lemma dok_insert H s lf lg t m r : fsz <= msz -> dok H s lf lg t m -> req_ok 0 r -> G (r_id r) (r_size r) ->
    r_size r <= fsz -> r_id r ∉ ids lf -> r_id r ∉ ids lg -> m !! r_id r = None ->
    bytes 0 lf + msum 0 m + r_size r <= cap ->
    exists s' lf' t' m' o', qd_insert O s r = Ok s' /\ dok (zero_at H (r_id r)) s' lf' lg t' m' /\
      (if d_hg s then lf' = lf /\ exists m1, evict_to pol msz 0 (r_size r) m m1 /\ m' = <[r_id r := fresh t r]> m1
       else m' = m /\ if decide (r_size r < fsz) then lf' = (r_id r, o') :: lf else lf' = lf).
  Proof.
    intros Hle [] Hr HGr Hsz Hf Hg Hm Hc. pose proof Hr as [Hr1 Hr2]. unfold qd_insert.
    pose proof (o_size_of_req _ _ Hr (Z.le_refl 0)) as Hos.
    set (o' := obj_of_req r) in *.
    destruct (d_hg s).
    - cbn [qd_set_hg d_main].
      destruct (main_get_spec _ _ _ r dok_m0 dok_ok0 Hr Hm ltac:(lia)) as (ms & m1 & -> & Hev & HR' & Hok').
      cbn [rbind]. rewrite (sim_find_false _ _ _ _ _ _ HS _ _ r HR'). cbn [rbind a_m].
      rewrite bool_decide_eq_true_2 by (rewrite lookup_insert; eauto).
      destruct (evict_to_size _ _ _ Hev) as [Hss Hs].
      assert (Hm1 : m1 !! r_id r = None).
      { destruct (m1 !! r_id r) eqn:E; [|done]. by rewrite (lookup_weaken _ _ _ _ E Hss) in Hm. }
      assert (Hms : msum 0 (<[r_id r := fresh t r]> m1) = r_size r + msum 0 m1).
      { rewrite msum_insert by done. cbn. lia. }
      assert (Hm1le : msum 0 m1 <= msum 0 m).
      { eapply evict_to_msum; [done|]. intros id e He. destruct dok_ok0 as (_ & Hx & _). specialize (Hx _ _ He). lia. }
      eexists _, lf, _, _, o'. split; [done|]. split; [|eauto 10].
      split; cbn; try done.
      + intros id Hid. rewrite lookup_insert_ne by (intros Hx; by rewrite Hx in *). destruct (m1 !! id) eqn:E; [|done].
        pose proof (dok_fm0 id Hid) as Hx. by rewrite (lookup_weaken _ _ _ _ E Hss) in Hx.
      + intros id Hid. rewrite lookup_insert_ne by (intros Hx; by rewrite Hx in *). destruct (m1 !! id) eqn:E; [|done].
        pose proof (dok_gm0 id Hid) as Hx. by rewrite (lookup_weaken _ _ _ _ E Hss) in Hx.
      + lia.
      + intros id e. rewrite lookup_insert_Some. intros [[<- <-]|[_ He]]; [done|].
        eapply dok_Gm0, lookup_weaken; eauto.
      + by apply allF_notin_zero.
    - unfold q_size. rewrite (qok_size _ _ _ _ dok_f0). destruct (decide (r_size r >= fsz)) as [Hbig|Hsm].
      + eexists _, lf, _, m, o'. split; [done|]. rewrite decide_False by lia. split; [|done].
        split; try done. by apply allF_notin_zero.
      + destruct (qok_insert _ _ _ _ dok_f0 r Hf Hr (Z.le_refl 0)) as (f & -> & Hf'). cbn [rbind].
        eexists _, _, _, m, o'. split; [done|]. rewrite decide_True by lia. split; [|by split].
        assert (Hp : o_freq o' = 0) by done. fold o' in Hf'. clearbody o'.
        split; cbn [qd_set_fifo d_fifo d_gq d_main d_size d_thr]; try done.
        * intros id [->|H2]%elem_of_cons H1; [done|]. by apply (dok_fg0 id).
        * intros id [->|H2]%elem_of_cons; [done|]. by apply (dok_fm0 id).
        * rewrite bytes_cons. cbn [snd]. lia.
        * apply allG_cons; [|done]. cbn [fst snd]. by rewrite Hos.
        * apply Forall_cons. split; [|by apply allF_notin_zero]. cbn. unfold zero_at. by rewrite decide_True.
        * apply Forall_cons. split; [|done]. cbn. lia.
  Qed.

  Lemma dok_remove H s lf lg t m id : dok H s lf lg t m ->
    exists s', qd_remove O s id = Ok (s', bool_decide (id ∈ ids lf \/ id ∈ ids lg \/ is_Some (m !! id))) /\
      dok H s' (l_del id lf) (l_del id lg) t (delete id m).
  Proof.
    intros []. unfold qd_remove.
    assert (HC : forall s', qok fsz 0 (d_fifo s') (l_del id lf) -> gok gsz (d_gq s') (l_del id lg) ->
       (is_Some (d_gq s') <-> is_Some (d_gq s)) ->
       R (d_main s') (mkAbs t (delete id m) AdmNone) -> d_size s' = cap -> d_thr s' = thr ->
       dok H s' (l_del id lf) (l_del id lg) t (delete id m)).
    { intros s' H1 H2 H2' H3 H4 H5.
      pose proof (bytes_del_le _ _ _ _ id (Z.le_refl 0) dok_f0).
      assert (msum 0 (delete id m) <= msum 0 m).
      { destruct (m !! id) as [e|] eqn:E; [|by rewrite delete_notin]. rewrite (msum_delete _ _ _ _ E).
        destruct dok_ok0 as (_ & Hx & _). specialize (Hx _ _ E). lia. }
      split; try done; try lia; try (by apply allG_del); try (by apply Forall_del).
      - by rewrite H2'.
      - by apply abs_ok_delete.
      - eapply disj_sub; [apply del_sub|apply del_sub|done].
      - eapply apart_sub; [apply del_sub|]. eapply apart_map; [|done]. intros j. rewrite lookup_delete_is_Some. tauto.
      - eapply apart_sub; [apply del_sub|]. eapply apart_map; [|done]. intros j. rewrite lookup_delete_is_Some. tauto.
      - intros j e. rewrite lookup_delete_Some. intros [_ ?]. eauto. }
    destruct (decide (id ∈ ids lf)) as [Hi|Hi].
    { destruct (qok_remove_hit _ _ _ _ dok_f0 id ltac:(lia) Hi) as (i & -> & Hi'). cbn [rbind].
      rewrite bool_decide_eq_true_2 by (by left). eexists. split; [done|].
      apply HC; cbn; try done.
      - rewrite l_del_notin; [done|]. intros ?. by apply (dok_fg0 id).
      - rewrite delete_notin; [done|]. by apply dok_fm0. }
    rewrite (qok_remove_miss _ _ _ _ dok_f0 _ Hi). cbn [rbind qd_set_fifo d_gq].
    destruct (ghost_remove_spec _ _ _ id dok_g0) as (g' & -> & Hg' & Hgs). cbn [rbind].
    destruct (decide (id ∈ ids lg)) as [Ho|Ho].
    { rewrite bool_decide_eq_true_2 by done.
      rewrite bool_decide_eq_true_2 by (by right; left). eexists. split; [done|].
      apply HC; cbn; try done.
      - by rewrite l_del_notin.
      - rewrite delete_notin; [done|]. by apply dok_gm0. }
    rewrite bool_decide_eq_false_2 by done. cbn [qd_set_fifo qd_set_gq d_main].
    destruct (sim_remove _ _ _ _ _ _ HS _ _ _ _ id dok_ok0 dok_m0) as (ms & -> & HR'). cbn [rbind].
    assert (bool_decide (is_Some (m !! id)) = bool_decide (id ∈ ids lf \/ id ∈ ids lg \/ is_Some (m !! id))) as ->
      by (apply bool_decide_ext; tauto).
    eexists. split; [done|]. apply HC; cbn; try done; by rewrite l_del_notin.
  Qed.

  Lemma dok_get H s lf lg t m r fuel : fsz <= msz -> dok H s lf lg t m -> req_ok 0 r -> G (r_id r) (r_size r) ->
    (2 * length lf + size m <= fuel)%nat ->
    let h := bool_decide (r_id r ∈ ids lf \/ is_Some (m !! r_id r)) in
    exists s' lf' lg' t' m', cache_get_base (qd_ops O) fuel s r = Ok (s', h) /\
      dok (if h then bump H (r_id r) else zero_at H (r_id r)) s' lf' lg' t' m' /\
      (length lf' + size m' <= length lf + size m + 1)%nat /\
      (h = true -> ids lf' = ids lf /\ lg' = lg /\ forall id, is_Some (m' !! id) <-> is_Some (m !! id)) /\
      (h = false -> fsz < r_size r -> lf' = lf /\ m' = m /\ lg' = l_del (r_id r) lg) /\
      (h = false -> r_size r <= fsz ->
         r_id r ∉ ids lg' /\
         (forall id, id ∈ ids lf' -> id = r_id r \/ id ∈ ids lf) /\
         (forall id, is_Some (m' !! id) -> is_Some (m !! id) \/ (id ∈ ids lf /\ H id >= thr) \/ (id = r_id r /\ id ∈ ids lg)) /\
         (forall id, id ∈ ids lg' -> id ∈ ids lg \/ (id ∈ ids lf /\ H id < thr)) /\
         (r_id r ∈ ids lg -> is_Some (m' !! r_id r)) /\
         (r_id r ∉ ids lg -> (r_size r < fsz -> r_id r ∈ ids lf') /\
            (r_size r = fsz -> r_id r ∉ ids lf' /\ m' !! r_id r = None))).
  Proof.
    intros Hle HD Hr HGr Hfu h. subst h. unfold cache_get_base. pose proof Hr as [Hr1 Hr2].
    assert (HT : dok H (op_tick (qd_ops O) s) lf lg t m) by (destruct HD; by split).
    cbn [op_find qd_ops].
    destruct (dok_find_true _ _ _ _ _ _ r HT) as (s1 & b & lf1 & lg1 & t1 & m1 & -> & -> & H1 & Hif & Him & Hsm & HF & HTr).
    cbn [rbind]. destruct (bool_decide (r_id r ∈ ids lf \/ is_Some (m !! r_id r))) eqn:Eb.
    - apply bool_decide_eq_true in Eb. rewrite (HTr eq_refl) in *.
      exists s1, lf1, lg, t1, m1. split_and!; try done.
      assert (length (ids lf1) = length (ids lf)) as E1 by (by rewrite Hif).
      unfold ids in E1. rewrite !fmap_length in *. lia.
    - apply bool_decide_eq_false in Eb. destruct (HF eq_refl) as (-> & -> & -> & Hg).
      cbn [op_can_insert qd_ops]. unfold qd_can_insert.
      assert (Hq : q_size (d_fifo s1) = fsz) by (apply H1). rewrite Hq.
      cbn [rbind].
      assert (Hi : r_id r ∉ ids lf) by tauto.
      assert (Hm : m !! r_id r = None) by (apply eq_None_not_Some; tauto).
      destruct (bool_decide (r_size r <= fsz)) eqn:Es.
      + apply bool_decide_eq_true in Es.
        assert (Ho : r_id r ∉ ids (l_del (r_id r) lg)) by (rewrite elem_ids_del; tauto).
        destruct (dok_loop H r Hle ltac:(lia) _ s1 lf _ t1 m fuel (le_n _) Hfu H1)
          as (s2 & lf2 & lg2 & t2 & m2 & -> & H2 & Hg2 & Hc & (d & Hd) & Hm2 & Hlg2 & Hl2 & _).
        cbn [rbind op_insert qd_ops].
        assert (Hsub : forall id, id ∈ ids lf2 -> id ∈ ids lf).
        { intros id Hid. rewrite Hd, ids_app. apply elem_of_app. by left. }
        assert (Hi2 : r_id r ∉ ids lf2) by (intros ?; by apply Hi, Hsub).
        assert (Hm2' : m2 !! r_id r = None).
        { apply eq_None_not_Some. intros [Hx|[? ?]]%Hm2; [|done]. rewrite Hm in Hx. by apply is_Some_None in Hx. }
        assert (Ho2 : r_id r ∉ ids lg2) by (intros [?|[? ?]]%Hlg2; done).
        destruct (dok_insert H s2 lf2 lg2 t2 m2 r Hle H2 Hr HGr Es Hi2 Ho2 Hm2' Hc) as (s3 & lf3 & t3 & m3 & o' & -> & H3 & Hcase).
        cbn [rbind]. rewrite Hg2, Hg in Hcase.
        exists s3, lf3, lg2, t3, m3. split; [done|]. split; [done|].
        assert (Hlg : forall id, id ∈ ids lg2 -> id ∈ ids lg \/ (id ∈ ids lf /\ H id < thr)).
        { intros id Hid. apply Hlg2 in Hid as [Hid|?]; [|by right]. left. by apply elem_ids_del in Hid as [? _]. }
        destruct (decide (r_id r ∈ ids lg)) as [Hgh|Hgh].
        * rewrite bool_decide_eq_true_2 in Hcase by done. destruct Hcase as [-> (m4 & Hev & ->)].
          destruct (evict_to_size _ _ _ Hev) as [Hss Hs]. pose proof (size_insert_le m4 (r_id r) (fresh t2 r)).
          split_and!; try done; [lia|intros _ ?; lia|].
          intros _ _. split_and!; try done.
          -- intros id Hid. right. by apply Hsub.
          -- intros id. rewrite lookup_insert_is_Some'. intros [<-|[e He]]; [right; right; by split|].
             destruct (Hm2 id) as [?|?]; [|by left|right; by left]. exists e. by eapply lookup_weaken.
          -- intros _. rewrite lookup_insert. eauto.
        * rewrite bool_decide_eq_false_2 in Hcase by done. destruct Hcase as [-> Hcase].
          destruct (decide (r_size r < fsz)) as [Hlt|Hge]; subst lf3.
          -- split_and!; try done; [cbn [length]; lia|intros _ ?; lia|].
             intros _ _. split_and!; try done.
             ++ intros id [->|Hid]%elem_of_cons; [by left|]. right. by apply Hsub.
             ++ intros id Hid. apply Hm2 in Hid as [?|?]; [by left|right; by left].
             ++ intros _. split; [intros _; left|lia].
          -- split_and!; try done; [lia|intros _ ?; lia|].
             intros _ _. split_and!; try done.
             ++ intros id Hid. right. by apply Hsub.
             ++ intros id Hid. apply Hm2 in Hid as [?|?]; [by left|right; by left].
      + apply bool_decide_eq_false in Es. exists s1, lf, (l_del (r_id r) lg), t1, m. split_and!; try done; try lia.
        destruct H1. split; try done. by apply allF_notin_zero.
  Qed.

  Lemma dok_init main0 : R main0 (abs_init AdmNone) -> dok (fun _ => 0) (qd_init cap fsz gsz thr main0) [] [] 0 ∅.
  Proof.
    intros HR. split; cbn; try done; try lia; try (intros ? ? ?; by eapply elem_of_nil); try (by apply Forall_nil_2).
    - apply qok_init.
    - unfold gok. destruct (decide _); [|done]. split; [apply qok_init|cbn; lia].
    - destruct (decide _); split; try lia; try eauto. by intros ?%is_Some_None.
    - apply (abs_init_ok _ _ AdmNone); lia.
    - rewrite msum_empty. lia.
  Qed.
End QD.
