(** What every operation of the flashProb model does to its two tiers, and the
    invariant that all client programs preserve. *)
From stdpp Require Import gmap list numbers fin_maps.
From Verif Require Import Base Driver Abs AbsFacts Sim ModelQueue QueueFacts QList CompFacts ModelTwoQ TwoQFacts ModelS3FIFO S3Facts ModelQDLP QDLPFacts ModelFlash.
Open Scope Z_scope.

Section FP.
  Context {M : Type} (pol : policy) (O : ops M) (R : M -> abs -> Prop).
  Context (lru : bool) (rnd : Z -> Z * Z) (stale : Z -> res Z) (inv : Z).
  Context (G : Z -> Z -> Prop) (cap rsz rmd : Z).
  Context (Hrsz : 0 <= rsz <= cap) (Hrmd : 0 <= rmd).
  Notation dsz := (cap - rsz).
  Context (HS : simulation pol O dsz 0 (req_ok 0) R).
  Context (Hstale : forall z, exists z', stale z = Ok z') (Hinv : inv <> 0).
  Notation F := (fp_ops O lru rnd stale inv).

  Record fok (s : fp M) (lr : qlist) (t : Z) (m : gmap Z entry) : Prop := mkFok {
    fok_r   : qok rsz rmd (f_ram s) lr;
    fok_d   : R (f_disk s) (mkAbs t m AdmNone);
    fok_ok  : abs_ok dsz 0 (mkAbs t m AdmNone);
    fok_sz  : c_size (f_c s) = cap;
    fok_md  : c_md (f_c s) = 0;
    fok_rd  : apart lr m;
    fok_cap : bytes rmd lr + msum 0 m <= cap + rmd;
    fok_Gr  : allG G lr;
    fok_Gd  : forall id e, m !! id = Some e -> G id (e_size e)
  }.

  Lemma fok_bytes s lr t m : fok s lr t m -> 0 <= bytes rmd lr /\ 0 <= msum 0 m <= dsz.
  Proof.
    intros []. split; [apply bytes_nonneg; [done|apply fok_r0]|]. apply fok_ok0.
  Qed.

  (** The RAM tier, LRU or FIFO. *)
  Lemma ram_false q l r : qok rsz rmd q l -> op_find (ram_ops lru) q r false = Ok (q, bool_decide (r_id r ∈ ids l)).
  Proof. intros HQ. unfold ram_ops. destruct lru; cbn; [by apply (qok_lru_false _ _ _ _ HQ)|by apply (qok_find_false _ _ _ _ HQ)]. Qed.
  Lemma ram_miss q l r u : qok rsz rmd q l -> r_id r ∉ ids l -> op_find (ram_ops lru) q r u = Ok (q, false).
  Proof. intros HQ Hn. unfold ram_ops. destruct lru; cbn; [by apply (qok_lru_miss _ _ _ _ HQ)|by apply (qok_find_miss _ _ _ _ HQ)]. Qed.
  Lemma ram_hit q l r : qok rsz rmd q l -> r_id r ∈ ids l ->
    exists q' l', op_find (ram_ops lru) q r true = Ok (q', true) /\ qok rsz rmd q' l' /\
      (forall id, id ∈ ids l' <-> id ∈ ids l) /\ length l' = length l /\ bytes rmd l' = bytes rmd l /\
      (allG G l -> allG G l').
  Proof.
    intros HQ Hin. unfold ram_ops. destruct lru; cbn.
    - destruct (qok_lru_hit _ _ _ _ _ HQ Hin) as (q' & o' & Hf & (o & Ho & ->) & HQ').
      exists q', ((r_id r, o_hit r o) :: l_del (r_id r) l). split_and!; try done.
      + intros id. cbn. rewrite elem_of_cons. rewrite elem_ids_del. destruct (decide (id = r_id r)) as [->|]; naive_solver.
      + cbn [length]. pose proof (qok_nd _ _ _ _ HQ') as Hnd. pose proof (qok_nd _ _ _ _ HQ) as Hnd0.
        pose proof Ho as (l1 & l2 & ->)%split_at.
        rewrite (l_del_mid l1 _ _ l2 Hnd0). rewrite !app_length. cbn. lia.
      + rewrite bytes_cons. rewrite (bytes_del _ _ o); [|apply HQ|done]. cbn. lia.
      + intros HG. apply allG_cons; [|by apply allG_del]. cbn. by apply (allG_elem _ _ _ _ HG).
    - destruct (qok_find_hit _ _ _ _ HQ r Hin) as (q' & Hf & HQ').
      exists q', (l_upd (o_hit r) (r_id r) l). split_and!; try done.
      + intros id. by rewrite ids_upd.
      + unfold l_upd. by rewrite fmap_length.
      + by rewrite bytes_upd.
      + intros. by apply allG_upd.
  Qed.
  Lemma ram_ins : op_insert (ram_ops lru) = q_insert /\ op_remove (ram_ops lru) = q_remove /\
    op_to_evict (ram_ops lru) = q_to_evict_tail /\ op_occupied (ram_ops lru) = q_occ /\ op_nobj (ram_ops lru) = q_nobj.
  Proof. unfold ram_ops. by destruct lru. Qed.

  Lemma disk_get ms t m r : R ms (mkAbs t m AdmNone) -> abs_ok dsz 0 (mkAbs t m AdmNone) ->
    req_ok 0 r -> m !! r_id r = None ->
    exists ms' m', main_get O ms r = Ok (ms', false) /\
      R ms' (mkAbs (t + 1) m' AdmNone) /\ abs_ok dsz 0 (mkAbs (t + 1) m' AdmNone) /\
      if decide (r_size r <= dsz) then exists m1, evict_to pol dsz 0 (r_size r) m m1 /\ m' = <[r_id r := fresh t r]> m1
      else m' = m.
  Proof using All.
    intros HR Hok Hr Hn. destruct (decide (r_size r <= dsz)) as [Hsz|Hsz].
    - destruct (main_get_spec pol O R cap rsz HS ms t m r HR Hok Hr Hn Hsz) as (ms' & m1 & Hg & He & HR' & Hok').
      exists ms', (<[r_id r := fresh t r]> m1). split_and!; try done. by exists m1.
    - destruct (sim_step pol O dsz 0 (req_ok 0) R HS (Z.to_nat (op_nobj O ms)) ms _ (CGet r) Hok HR Hr)
        as (s' & o & a' & Hst & Ha & HR').
      { cbn. rewrite (sim_nobj _ _ _ _ _ _ HS _ _ HR). cbn. lia. }
      pose proof (abs_step_ok _ _ _ _ _ _ _ Ha Hr Hok) as Hok'.
      cbn [step] in Hst. unfold main_get. destruct (cache_get_base O _ ms r) as [[s1 b]|]; cbn [rbind] in Hst; [|done].
      injection Hst as -> <-. inversion Ha; subst.
      + congruence.
      + match goal with H : admit AdmNone _ = _ |- _ => discriminate H end.
      + match goal with H : admit AdmNone _ = _ |- _ => cbn in H; injection H as <- end.
        by exists s', m.
      + lia.
  Qed.

  Lemma fok_find_false s lr t m r : fok s lr t m ->
    fp_find O lru s r false = Ok (s, bool_decide (r_id r ∈ ids lr \/ is_Some (m !! r_id r))).
  Proof using All.
    intros []. unfold fp_find. rewrite (ram_false _ _ r fok_r0). cbn [rbind].
    destruct (bool_decide (r_id r ∈ ids lr)) eqn:E.
    - apply bool_decide_eq_true in E. rewrite bool_decide_eq_true_2 by (by left). by destruct s.
    - apply bool_decide_eq_false in E. cbn [fp_set_ram f_disk].
      rewrite (sim_find_false _ _ _ _ _ _ HS _ _ r fok_d0). cbn [rbind a_m].
      destruct s. unfold fp_set_disk. cbn. do 2 f_equal. apply bool_decide_ext. tauto.
  Qed.

  Lemma fok_find_true s lr t m r : fok s lr t m ->
    exists s' lr' t' m', fp_find O lru s r true = Ok (s', bool_decide (r_id r ∈ ids lr \/ is_Some (m !! r_id r))) /\
      fok s' lr' t' m' /\ (forall id, id ∈ ids lr' <-> id ∈ ids lr) /\ length lr' = length lr /\
      (forall id, is_Some (m' !! id) <-> is_Some (m !! id)) /\ size m' = size m /\
      bytes rmd lr' = bytes rmd lr /\ msum 0 m' = msum 0 m /\ f_c s' = f_c s /\ f_seed s' = f_seed s /\
      (~ (r_id r ∈ ids lr \/ is_Some (m !! r_id r)) -> lr' = lr /\ m' = m /\ t' = t).
  Proof using All.
    intros HD. pose proof HD as []. unfold fp_find. destruct (decide (r_id r ∈ ids lr)) as [Hf|Hf].
    - destruct (ram_hit _ _ _ fok_r0 Hf) as (q' & l' & -> & HQ' & Hi & Hl & Hb & HG). cbn [rbind].
      rewrite bool_decide_eq_true_2 by (by left). eexists _, l', t, m. split; [done|].
      split_and!; try done; [|tauto]. split; cbn; try done; [|by rewrite Hb|by apply HG].
      intros id Hid. apply fok_rd0. by apply Hi.
    - rewrite (ram_miss _ _ r true fok_r0 Hf). cbn [rbind fp_set_ram f_disk].
      destruct (m !! r_id r) as [e|] eqn:Em.
      + destruct (sim_find_hit _ _ _ _ _ _ HS _ _ _ _ r e fok_ok0 fok_d0 Em) as (d' & -> & HR'). cbn [rbind].
        rewrite bool_decide_eq_true_2 by (right; eauto).
        assert (Hsub : forall id, is_Some (<[r_id r:=touch t r e]> m !! id) <-> is_Some (m !! id)).
        { intros id. rewrite lookup_insert_is_Some'. naive_solver. }
        assert (Hb : msum 0 (<[r_id r:=touch t r e]> m) = msum 0 m) by (by eapply msum_update).
        eexists _, lr, _, _. split; [done|]. split_and!; try done.
        * split; cbn; try done.
          -- by apply abs_ok_touch.
          -- eapply apart_map; [|done]. intros id. by rewrite Hsub.
          -- by rewrite Hb.
          -- intros id e'. rewrite lookup_insert_Some. intros [[<- <-]|[_ ?]]; [|eauto]. cbn. eauto.
        * apply map_size_insert_Some; eauto.
        * intros Hx. exfalso. apply Hx. right. eauto.
      + destruct (sim_find_miss _ _ _ _ _ _ HS _ _ r fok_d0 Em) as (d' & -> & HR'). cbn [rbind].
        rewrite bool_decide_eq_false_2 by (intros [?|[? ?]]; congruence).
        eexists _, lr, t, m. split; [done|]. split_and!; try done.
  Qed.

  Lemma fok_remove s lr t m id : fok s lr t m ->
    exists s', fp_remove O lru s id = Ok (s', bool_decide (id ∈ ids lr \/ is_Some (m !! id))) /\
      fok s' (l_del id lr) t (delete id m).
  Proof using All.
    intros HD. pose proof HD as []. unfold fp_remove. destruct ram_ins as (_ & -> & _).
    assert (Hmd : forall (e : entry), m !! id = Some e -> msum 0 (delete id m) <= msum 0 m).
    { intros e He. rewrite (msum_delete _ _ _ _ He). destruct fok_ok0 as (_ & Hx & _). specialize (Hx _ _ He). lia. }
    assert (Hsub : forall j, is_Some (delete id m !! j) -> is_Some (m !! j)).
    { intros j. rewrite lookup_delete_is_Some. tauto. }
    destruct (decide (id ∈ ids lr)) as [Hin|Hn].
    - destruct (qok_remove_hit _ _ _ _ fok_r0 id Hrmd Hin) as (q' & -> & HQ'). cbn [rbind].
      rewrite bool_decide_eq_true_2 by (by left). eexists. split; [done|].
      assert (delete id m = m) as -> by (apply delete_notin; by apply fok_rd0).
      pose proof (bytes_del_le _ _ _ _ id Hrmd fok_r0). split; cbn; try done; [|lia|by apply allG_del].
      intros j Hj. apply fok_rd0. by eapply del_sub.
    - rewrite (qok_remove_miss _ _ _ _ fok_r0 id Hn). cbn [rbind fp_set_ram f_disk].
      destruct (sim_remove _ _ _ _ _ _ HS _ _ _ _ id fok_ok0 fok_d0) as (d' & -> & HR'). cbn [rbind].
      eexists. split. { do 3 f_equal. apply bool_decide_ext. tauto. }
      rewrite l_del_notin by done. split; cbn; try done.
      + by apply abs_ok_delete.
      + eapply apart_map; [|done]. done.
      + destruct (m !! id) as [e|] eqn:E; [specialize (Hmd e eq_refl); lia|]. rewrite delete_notin by done. lia.
      + intros j e. rewrite lookup_delete_Some. intros [_ ?]. eauto.
  Qed.

  (** The victim of the RAM tier and the random draw decide what an eviction does. *)
  Lemma fok_evict s lr t m r : fok s lr t m -> bytes rmd lr + msum 0 m > 0 ->
    exists s' lr' t' m', fp_evict O lru rnd stale inv s r = Ok s' /\ fok s' lr' t' m' /\ f_c s' = f_c s /\
      bytes rmd lr' + msum 0 m' <= bytes rmd lr + msum 0 m /\
      if decide (bytes rmd lr = 0) then
        lr' = lr /\ f_seed s' = f_seed s /\ exists v, is_Some (m !! v) /\ pol m v /\ m' = delete v m
      else exists v o, lr = lr' ++ [(v, o)] /\ f_seed s' = (rnd (f_seed s)).2 /\
        if decide ((rnd (f_seed s)).1 mod inv = 0 /\ o_size o <= dsz) then
          exists m1 e, evict_to pol dsz 0 (o_size o) m m1 /\ m' = <[v := e]> m1
        else m' = m.
  Proof using All.
    intros HD Hpos. pose proof HD as []. pose proof (fok_bytes _ _ _ _ HD) as [Hb1 Hb2].
    unfold fp_evict. destruct ram_ins as (_ & -> & -> & -> & _).
    assert (q_occ (f_ram s) = bytes rmd lr) as -> by apply fok_r0.
    destruct (decide (bytes rmd lr = 0)) as [Hz|Hnz].
    - rewrite (sim_occ _ _ _ _ _ _ HS _ _ fok_d0), fok_sz0. cbn [a_m]. rewrite decide_True by lia.
      assert (m <> ∅) as Hne. { intros ->. rewrite msum_empty in Hpos. lia. }
      destruct (sim_evict _ _ _ _ _ _ HS _ _ _ _ r fok_ok0 fok_d0 Hne) as (_ & v & s2 & _ & _ & Hv & Hp & -> & HR2 & _).
      cbn [rbind]. destruct Hv as [e Hv].
      pose proof (msum_delete 0 m v e Hv) as Hm.
      assert (0 <= e_size e) by (destruct fok_ok0 as (_ & Hx & _); specialize (Hx _ _ Hv); lia).
      eexists _, lr, t, (delete v m). split; [done|]. split_and!; try done.
      + split; cbn; try done.
        * by apply abs_ok_delete.
        * eapply apart_map; [|done]. intros j. rewrite lookup_delete_is_Some. tauto.
        * lia.
        * intros id e'. rewrite lookup_delete_Some. intros [_ ?]. eauto.
      + lia.
      + exists v. split_and!; [eauto|done|done].
    - destruct lr as [|[v o] lr' _] using rev_ind; [done|].
      rewrite (qok_to_evict _ _ _ _ _ _ r fok_r0). cbn [rbind].
      assert (Hin : (v, o) ∈ lr' ++ [(v, o)]) by (apply elem_of_app; right; left).
      rewrite (proj2 (qok_lookup _ _ _ _ fok_r0 _ _) Hin).
      assert (Hvin : v ∈ ids (lr' ++ [(v, o)])) by (apply ids_elem; eauto).
      destruct (qok_remove_hit _ _ _ _ fok_r0 v Hrmd Hvin) as (q' & -> & HQ'). cbn [rbind].
      assert (Hvn : v ∉ ids lr'). { by destruct (NoDup_ids_mid lr' v o [] (qok_nd _ _ _ _ fok_r0)) as (? & _). }
      rewrite (l_del_mid lr' v o [] (qok_nd _ _ _ _ fok_r0)) in HQ'. rewrite app_nil_r in HQ'.
      assert (Hvb : bytes rmd (lr' ++ [(v, o)]) = bytes rmd lr' + o_size o + rmd).
      { rewrite bytes_app, bytes_cons. cbn. lia. }
      pose proof (qok_osz _ _ _ _ fok_r0) as Hoz. rewrite Forall_forall in Hoz. specialize (Hoz _ Hin).
      destruct Hoz as [Ho1 Ho2]. cbn in Ho1, Ho2.
      assert (Hvm : m !! v = None) by (by apply fok_rd0).
      assert (HGo : G v (o_size o)) by exact (allG_elem _ _ _ _ fok_Gr0 Hin).
      apply allG_app in fok_Gr0 as [HG1 _].
      assert (Hsub : forall id, id ∈ ids lr' -> id ∈ ids (lr' ++ [(v, o)])).
      { intros id Hid. rewrite ids_app. apply elem_of_app. by left. }
      destruct (rnd (f_seed s)) as [x seed]. rewrite decide_False by done. cbn [fst snd].
      destruct (decide (x mod inv = 0)) as [Hx|Hx].
      + destruct (Hstale (o_size o)) as (z' & ->). cbn [rbind].
        destruct (disk_get (f_disk s) t m (req_of_obj v o) fok_d0 fok_ok0) as (ms & m' & -> & HR' & Hok' & Hm').
        { split; cbn; lia. }
        { done. }
        cbn [rbind]. cbn [r_id r_size req_of_obj] in Hm'.
        destruct (decide (o_size o <= dsz)) as [Hfit|Hbig].
        * destruct Hm' as (m1 & Hev & ->).
          destruct (evict_to_ok _ _ _ _ _ _ _ AdmNone Hev fok_ok0) as (_ & _ & Hss & _).
          assert (Hm1 : m1 !! v = None).
          { destruct (m1 !! v) eqn:E; [|done]. by rewrite (lookup_weaken _ _ _ _ E Hss) in Hvm. }
          assert (Hms : msum 0 (<[v := fresh t (req_of_obj v o)]> m1) = o_size o + msum 0 m1).
          { rewrite msum_insert by done. cbn. lia. }
          assert (Hm1le : msum 0 m1 <= msum 0 m).
          { eapply evict_to_msum; [done|]. intros id e He. destruct fok_ok0 as (_ & Hy & _). specialize (Hy _ _ He). lia. }
          eexists _, lr', _, _. split; [done|]. split_and!.
          -- split; cbn; try done.
             ++ intros id Hid. rewrite lookup_insert_ne by (intros ->; done).
                destruct (m1 !! id) eqn:E; [|done]. pose proof (fok_rd0 id (Hsub _ Hid)) as Hy.
                by rewrite (lookup_weaken _ _ _ _ E Hss) in Hy.
             ++ lia.
             ++ intros id e. rewrite lookup_insert_Some. intros [[<- <-]|[_ He]]; [done|].
                eapply fok_Gd0, lookup_weaken; eauto.
          -- done.
          -- lia.
          -- exists v, o. split; [done|]. split; [done|]. rewrite decide_True by done. eauto.
        * subst m'. eexists _, lr', _, m. split; [done|]. split_and!.
          -- split; cbn; try done; [|lia]. eapply apart_sub; [|done]. done.
          -- done.
          -- lia.
          -- exists v, o. split; [done|]. split; [done|]. rewrite decide_False; [done|]. tauto.
      + eexists _, lr', t, m. split; [done|]. split_and!.
        * split; cbn; try done; [|lia]. eapply apart_sub; [|done]. done.
        * done.
        * lia.
        * exists v, o. split; [done|]. split; [done|]. rewrite decide_False; [done|]. tauto.
  Qed.

  (** What matters of an eviction for the loop of get. *)
  Lemma fok_evict_w s lr t m r : fok s lr t m -> bytes rmd lr + msum 0 m > 0 ->
    exists s' lr' t' m', fp_evict O lru rnd stale inv s r = Ok s' /\ fok s' lr' t' m' /\ f_c s' = f_c s /\
      (exists d, lr = lr' ++ d) /\
      (forall id, is_Some (m' !! id) -> is_Some (m !! id) \/ id ∈ ids lr) /\
      bytes rmd lr' + msum 0 m' <= bytes rmd lr + msum 0 m /\
      (length lr' + size m' <= length lr + size m)%nat /\
      (2 * length lr' + size m' < 2 * length lr + size m)%nat.
  Proof using All.
    intros HD Hpos. destruct (fok_evict s lr t m r HD Hpos) as (s' & lr' & t' & m' & He & HD' & Hc & Hb & Hk).
    exists s', lr', t', m'. split; [done|]. split; [done|]. split; [done|].
    destruct (decide (bytes rmd lr = 0)).
    - destruct Hk as (-> & _ & v & Hv & _ & ->).
      assert (size m <> 0)%nat. { destruct Hv as [e0 Hv]. apply map_size_non_empty_iff. intros ->. by rewrite lookup_empty in Hv. }
      rewrite map_size_delete_Some by done. split_and!; try done; try lia.
      + exists []. by rewrite app_nil_r.
      + intros id. rewrite lookup_delete_is_Some. intros [_ ?]. by left.
    - destruct Hk as (v & o & -> & _ & Hk). rewrite app_length. cbn [length].
      assert (Hv : v ∈ ids (lr' ++ [(v, o)])) by (rewrite ids_app; apply elem_of_app; right; left).
      split; [by eexists|]. destruct (decide _).
      + destruct Hk as (m1 & e & Hev & ->). destruct (evict_to_size pol cap rsz _ _ _ Hev) as [Hss Hs].
        pose proof (size_insert_le m1 v e). split_and!; try done; try lia.
        intros id. rewrite lookup_insert_is_Some'. intros [<-|[e' He']]; [by right|]. left.
        exists e'. by eapply lookup_weaken.
      + subst m'. split_and!; try done; try lia. intros; by left.
  Qed.

  Lemma fok_loop r : 0 <= r_size r <= cap -> forall n s lr t m fuel,
    (2 * length lr + size m <= n)%nat -> (n <= fuel)%nat -> fok s lr t m ->
    exists s' lr' t' m', evict_loop F fuel s r = Ok s' /\ fok s' lr' t' m' /\ f_c s' = f_c s /\
      bytes rmd lr' + msum 0 m' + r_size r <= cap /\
      (exists d, lr = lr' ++ d) /\
      (forall id, is_Some (m' !! id) -> is_Some (m !! id) \/ id ∈ ids lr) /\
      (length lr' + size m' <= length lr + size m)%nat /\
      (bytes rmd lr + msum 0 m + r_size r <= cap -> lr' = lr /\ m' = m).
  Proof using All.
    intros Hr n. induction n as [|n IH]; intros s lr t m fuel Hn Hfu HD.
    all: assert (Hocc : op_occupied F s + r_size r + op_md F s = bytes rmd lr + msum 0 m + r_size r
                     /\ op_size F s = cap)
      by (pose proof HD as []; cbn; destruct ram_ins as (_ & _ & _ & -> & _); unfold q_occ;
          rewrite (qok_occ _ _ _ _ fok_r0), (sim_occ _ _ _ _ _ _ HS _ _ fok_d0), fok_md0; cbn; split; [lia|done]).
    all: destruct Hocc as [Hocc Hsz].
    all: pose proof (fok_bytes _ _ _ _ HD) as [Hb1 Hb2].
    - assert (lr = [] /\ m = ∅) as [-> ->].
      { split; [destruct lr; [done|cbn in Hn; lia]|apply map_size_empty_inv; lia]. }
      exists s, [], t, ∅. change (bytes rmd []) with 0 in *. rewrite msum_empty in *.
      assert (evict_loop F fuel s r = Ok s) as -> by (destruct fuel; cbn [evict_loop]; by rewrite decide_False by lia).
      split_and!; try done; try lia; try (by exists []); intros; by left.
    - destruct (decide (bytes rmd lr + msum 0 m + r_size r > cap)) as [Hgt|Hle].
      + destruct fuel as [|fuel]; [lia|]. cbn [evict_loop]. rewrite Hocc, Hsz, decide_True by done.
        cbn [op_evict fp_ops].
        destruct (fok_evict_w s lr t m r HD ltac:(lia)) as (s1 & lr1 & t1 & m1 & -> & H1 & Hc1 & (d1 & E1) & Hm1 & _ & Hl1 & Hmu).
        cbn [rbind].
        destruct (IH s1 lr1 t1 m1 fuel ltac:(lia) ltac:(lia) H1) as (s' & lr' & t' & m' & -> & H' & Hc' & Hcap & (d & E) & Hm' & Hl' & _).
        exists s', lr', t', m'. split_and!; try done; try lia.
        * by rewrite Hc'.
        * exists (d ++ d1). by rewrite E1, E, app_assoc.
        * intros id Hid. apply Hm' in Hid as [Hid|Hid]; [by apply Hm1|]. right. rewrite E1, ids_app. apply elem_of_app. by left.
      + exists s, lr, t, m.
        assert (evict_loop F fuel s r = Ok s) as -> by (destruct fuel; cbn [evict_loop]; by rewrite decide_False by lia).
        split_and!; try done; try lia; [exists []; by rewrite app_nil_r|intros; by left].
  Qed.

  Lemma fok_init adm disk0 seed : R disk0 (abs_init AdmNone) -> fok (fp_init cap rsz rmd adm disk0 seed) [] 0 ∅.
  Proof using All.
    intros HR0. split; cbn; try done.
    - apply qok_init.
    - apply abs_init_ok; lia.
    - rewrite msum_empty. lia.
    - by constructor.
  Qed.

  (** get: a hit moves nothing between the tiers; a miss that the outer cache
      accepts puts the object into the RAM tier. *)
  Lemma fok_get s lr t m r fuel : fok s lr t m -> req_ok rmd r -> G (r_id r) (r_size r) ->
    (2 * length lr + size m <= fuel)%nat ->
    exists s' lr' t' m', cache_get_base F fuel s r = Ok (s', bool_decide (r_id r ∈ ids lr \/ is_Some (m !! r_id r))) /\
      fok s' lr' t' m' /\ (length lr' + size m' <= length lr + size m + 1)%nat /\
      ((r_id r ∈ ids lr \/ is_Some (m !! r_id r)) ->
         c_adm (f_c s') = c_adm (f_c s) /\
         (forall id, id ∈ ids lr' <-> id ∈ ids lr) /\ (forall id, is_Some (m' !! id) <-> is_Some (m !! id))) /\
      (~ (r_id r ∈ ids lr \/ is_Some (m !! r_id r)) ->
         c_adm (f_c s') = (admit (c_adm (f_c s)) r).1 /\
         if decide ((admit (c_adm (f_c s)) r).2 = true /\ r_size r <= cap) then
           r_id r ∈ ids lr' /\ (forall id, id ∈ ids lr' -> id = r_id r \/ id ∈ ids lr) /\
           (forall id, is_Some (m' !! id) -> is_Some (m !! id) \/ id ∈ ids lr) /\
           (bytes rmd lr + msum 0 m + r_size r <= cap ->
              (forall id, id ∈ ids lr -> id ∈ ids lr') /\ m' = m)
         else lr' = lr /\ m' = m).
  Proof using All.
    intros HD Hr HG Hfu. unfold cache_get_base.
    assert (HD0 : fok (op_tick F s) lr t m) by (pose proof HD as []; by split).
    destruct (fok_find_true _ _ _ _ r HD0) as (s1 & lr1 & t1 & m1 & Hf & HD1 & Hi & Hl & Hm & Hsz & Hb & Hms & Hc & _ & Hmiss).
    cbn [op_find fp_ops]. rewrite Hf. cbn [rbind]. clear Hf.
    destruct (decide (r_id r ∈ ids lr \/ is_Some (m !! r_id r))) as [Hin|Hn].
    - rewrite bool_decide_eq_true_2 by done. exists s1, lr1, t1, m1. split_and!; try done; [lia|].
      intros _. split; [by rewrite Hc|]. done.
    - rewrite bool_decide_eq_false_2 by done. destruct (Hmiss Hn) as (-> & -> & ->).
      cbn [op_can_insert fp_ops]. unfold fp_can_insert, cache_can_insert_default.
      rewrite Hc. cbn [op_tick fp_ops f_c c_incr_nreq c_adm].
      destruct (admit (c_adm (f_c s)) r) as [ad ok]. cbn [fst snd].
      pose proof HD1 as []. rewrite Hc in fok_sz0, fok_md0. cbn in fok_sz0, fok_md0.
      destruct ok; cbn.
      2:{ eexists _, lr, t, m. split; [done|]. split; [by split|]. split; [lia|]. split; [done|].
          intros _. split; [done|]. by rewrite decide_False by naive_solver. }
      rewrite fok_md0, fok_sz0. destruct (decide (r_size r + 0 > cap)) as [Hbig|Hfit]; cbn.
      { eexists _, lr, t, m. split; [done|]. split; [by split|]. split; [lia|]. split; [done|].
        intros _. split; [done|]. by rewrite decide_False by (intros [_ ?]; lia). }
      set (s2 := mkFp _ _ _ _ _).
      assert (HD2 : fok s2 lr t m) by (by split).
      destruct (fok_loop r ltac:(destruct Hr; lia) _ s2 lr t m fuel (Nat.le_refl _) Hfu HD2)
        as (s3 & lr3 & t3 & m3 & -> & HD3 & Hc3 & Hcap & (d & Ed) & Hm3 & Hl3 & Hnop). cbn [rbind].
      pose proof HD3 as []. cbn [op_insert fp_ops]. unfold fp_insert. destruct ram_ins as (-> & _).
      assert (Hn3 : r_id r ∉ ids lr3). { intros Hx. apply Hn. left. rewrite Ed, ids_app. apply elem_of_app. by left. }
      destruct (qok_insert _ _ _ _ fok_r1 r Hn3 Hr Hrmd) as (q' & -> & HQ'). cbn [rbind].
      pose proof (o_size_of_req r rmd Hr Hrmd) as Hos.
      eexists _, _, t3, m3. split; [done|]. split_and!; try done.
      + split; cbn; try done.
        * intros id. cbn [ids fmap list_fmap fst]. rewrite elem_of_cons. intros [->|Hid]; [|by apply fok_rd1].
          destruct (m3 !! r_id r) eqn:E; [|done]. exfalso. apply Hn. destruct (Hm3 (r_id r)) as [?|?]; [eauto|by right|by left].
        * rewrite bytes_cons. cbn [snd]. lia.
        * apply allG_cons; [|done]. cbn [fst snd]. by rewrite Hos.
      + cbn [length]. lia.
      + intros _. split; [by cbn; rewrite Hc3|]. rewrite decide_True by (split; [done|lia]).
        split_and!.
        * left.
        * intros id. cbn. rewrite elem_of_cons. intros [?|?]; [by left|]. right. rewrite Ed, ids_app. apply elem_of_app. by left.
        * done.
        * intros Hx. destruct (Hnop Hx) as [-> ->]. split; [|done]. intros id Hid. by right.
  Qed.
End FP.
