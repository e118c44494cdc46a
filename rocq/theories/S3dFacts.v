(** What every operation of the S3FIFOd model does to its queues and to the main
    cache, and the invariant that all client programs preserve. *)
From stdpp Require Import gmap list numbers fin_maps.
From Verif Require Import Base Driver Abs AbsFacts Sim ModelQueue QueueFacts SimQueue ClockFacts SimClock QList CompFacts
  ModelTwoQ ModelS3FIFO S3Facts ModelQDLP QDLPFacts S3LRUFacts ModelS3FIFOd.
Open Scope Z_scope.

Lemma fifo_resizes cap : resizes fifo_ops cap (q_resize cap).
Proof.
  constructor; try done; cbn.
  - intros s r. unfold fifo_find, cache_find_base. destruct (c_tbl (q_c s) !! r_id r); cbn; destruct s; eauto.
  - intros s r u. unfold fifo_find, cache_find_base. cbn. destruct (c_tbl (q_c s) !! r_id r); [|done]. by destruct u.
  - intros s r. unfold q_insert, cache_insert_base. cbn. by destruct (c_tbl (q_c s) !! r_id r).
  - intros s r. unfold q_evict_tail, cache_evict_base, cache_remove_obj_base. cbn. destruct (last (q_q s)); [|done].
    by destruct (c_tbl (q_c s) !! z).
  - intros s id. unfold q_remove, cache_remove_obj_base. cbn. by destruct (c_tbl (q_c s) !! id).
Qed.

Lemma qok_set_size z sz md q l : qok sz md q l -> qok z md (q_set_size q z) l.
Proof. intros []. by split. Qed.

(** The two records of evicted objects never go wrong. *)
Lemma rec_get sz q r : (exists l, qok sz 0 q l) -> req_ok 0 r ->
  exists q' b, sub_get fifo_ops q r = Ok (q', b) /\ exists l, qok sz 0 q' l.
Proof.
  intros [l HQ] Hr. unfold sub_get. cbn [op_nobj fifo_ops]. destruct (decide (r_id r ∈ ids l)) as [Hi|Hi].
  - unfold cache_get_base. cbn [op_tick op_find fifo_ops].
    destruct (qok_find_hit _ _ _ _ (qok_tick _ _ _ _ HQ) r Hi) as (q' & -> & HQ'). cbn [rbind]. eauto 6.
  - destruct (fifo_get_miss _ _ _ _ r _ (Z.le_refl 0) HQ Hr Hi (subget_fuel _ _ _ _ HQ)) as (q' & l' & -> & HQ' & _).
    eauto 6.
Qed.

Lemma rec_take_spec sz q r u : (exists l, qok sz 0 q l) ->
  exists q' b, rec_take q r u = Ok (q', b) /\ exists l, qok sz 0 q' l.
Proof.
  intros [l HQ]. unfold rec_take. destruct (decide (r_id r ∈ ids l)) as [Hi|Hi].
  - destruct u.
    + destruct (qok_find_hit _ _ _ _ HQ r Hi) as (q' & -> & HQ'). cbn [rbind].
      destruct (qok_remove_hit _ _ _ _ HQ' (r_id r) (Z.le_refl 0)) as (q2 & -> & HQ2); [by rewrite ids_upd|].
      cbn [rbind]. eauto 6.
    + rewrite (qok_find_false _ _ _ _ HQ), bool_decide_eq_true_2 by done. cbn [rbind].
      destruct (qok_remove_hit _ _ _ _ HQ (r_id r) (Z.le_refl 0) Hi) as (q2 & -> & HQ2). cbn [rbind]. eauto 6.
  - rewrite (qok_find_miss _ _ _ _ HQ r u Hi). cbn [rbind]. eauto 6.
Qed.

Section X3.
  Context {M : Type} (pol : policy) (O : ops M) (mobj : M -> Z -> option cobj) (R : M -> abs -> Prop).
  Context (G : Z -> Z -> Prop) (cap fsz thr : Z).
  Context (Hfsz : 0 <= fsz <= cap).
  Context (HS : simulation pol (sized O cap) cap 0 (req_ok 0) R).
  Context (HM : forall ms t m id e, R ms (mkAbs t m AdmNone) -> m !! id = Some e -> exists o, mobj ms id = Some o /\ orel o e).
  (** The size the two parts never go below: about a hundredth of the cache, or
      what they started with. *)
  Notation low := (cap / 100 - cap / 100 / 1000).
  Context (HGs : forall id z, G id z -> z <= Z.min (cap - fsz) low).

  Record xok (H : Z -> Z) (s : s3d M) (lf lg : qlist) (t : Z) (m : gmap Z entry) : Prop := mkXok {
    xok_f   : qok (q_size (x_fifo s)) 0 (x_fifo s) lf;
    xok_fb  : 0 <= q_size (x_fifo s) <= cap;
    xok_flo : Z.min fsz low <= q_size (x_fifo s);
    xok_ms  : x_msz s = cap - q_size (x_fifo s);
    xok_mlo : Z.min (cap - fsz) low <= x_msz s;
    xok_g   : qok (q_size (x_ghost s)) 0 (x_ghost s) lg;
    xok_gs  : q_size (x_ghost s) = (cap - fsz) + (q_size (x_fifo s) - fsz);
    xok_fe  : exists l, qok (cap / 10) 0 (x_fe s) l;
    xok_me  : exists l, qok (cap / 10) 0 (x_me s) l;
    xok_m   : R (x_main s) (mkAbs t m AdmNone);
    xok_ok  : abs_ok cap 0 (mkAbs t m AdmNone);
    xok_sz  : x_size s = cap;
    xok_thr : x_thr s = thr;
    xok_fg  : disj lf lg;
    xok_fm  : apart lf m;
    xok_gm  : apart lg m;
    xok_cap : bytes 0 lf + msum 0 m <= cap;
    xok_Gf  : allG G lf;
    xok_Gg  : allG G lg;
    xok_Gm  : forall id e, m !! id = Some e -> G id (e_size e);
    xok_H   : allF H lf
  }.

  Lemma xok_bytes H s lf lg t m : xok H s lf lg t m -> 0 <= bytes 0 lf /\ 0 <= msum 0 m.
  Proof using All. intros []. split; [apply bytes_nonneg; [lia|apply xok_f0]|]. apply xok_ok0. Qed.

  Lemma xmain_insert ms t m r : R ms (mkAbs t m AdmNone) -> abs_ok cap 0 (mkAbs t m AdmNone) -> req_ok 0 r ->
    m !! r_id r = None -> msum 0 m + r_size r <= cap ->
    exists ms', op_insert O ms r = Ok ms' /\ R ms' (mkAbs (t + 1) (<[r_id r := fresh t r]> m) AdmNone) /\
      abs_ok cap 0 (mkAbs (t + 1) (<[r_id r := fresh t r]> m) AdmNone) /\
      msum 0 (<[r_id r := fresh t r]> m) = msum 0 m + r_size r /\ size (<[r_id r := fresh t r]> m) = S (size m).
  Proof using All.
    intros HR Hok Hr Hn Hfit.
    destruct (sim_insert _ _ _ _ _ _ HS _ _ _ _ r Hok HR Hn Hr ltac:(lia)) as (s' & He & HR').
    exists s'. split; [exact He|]. split; [done|].
    assert (Hm : msum 0 (<[r_id r := fresh t r]> m) = msum 0 m + r_size r) by (rewrite msum_insert by done; cbn; lia).
    split_and!; [|done|by apply map_size_insert_None].
    eapply abs_ok_fresh; try done. lia.
  Qed.

  (** The size adaptation. *)
  Lemma xok_update H s lf lg t m : xok H s lf lg t m -> xok H (s3d_update s) lf lg t m.
  Proof using All.
    intros []. unfold s3d_update. destruct (_ && _)%bool; [|by split].
    set (fh := if bool_decide _ then x_fh s else 0). set (mh := if bool_decide _ then x_mh s else 0).
    set (stp := Z.max 1 _). set (d := if decide (fh > mh * 2) then _ else _).
    assert (Hd : 0 <= q_size (x_fifo s) + d <= cap /\ Z.min fsz low <= q_size (x_fifo s) + d /\
                 Z.min (cap - fsz) low <= x_msz s - d).
    { unfold d. rewrite xok_sz0.
      assert (Hstep : 1 <= stp /\ (stp = 1 \/ (stp <= q_size (x_fifo s) / 1000 /\ stp <= x_msz s / 1000))).
      { unfold stp. split; [lia|]. destruct (decide (Z.min (q_size (x_fifo s)) (x_msz s) / 1000 <= 1)) as [|Hgt]; [left; lia|].
        right. rewrite Z.max_r by lia. split; apply Z.div_le_mono; lia. }
      assert (Hlow : forall z, z > cap / 100 -> low <= z - 1 /\ low <= z - z / 1000 /\ 0 <= z - z / 1000).
      { assert (Hc : 0 <= cap / 100) by (apply Z.div_pos; lia). intros z Hz.
        pose proof (Z.div_pos (cap / 100) 1000 Hc ltac:(lia)). split; [lia|].
        pose proof (Z.div_mod z 1000 ltac:(lia)). pose proof (Z.mod_pos_bound z 1000 ltac:(lia)).
        pose proof (Z.div_mod (cap / 100) 1000 ltac:(lia)). pose proof (Z.mod_pos_bound (cap / 100) 1000 ltac:(lia)).
        lia. }
      assert (0 <= cap / 100) by (apply Z.div_pos; lia).
      destruct (decide (fh > mh * 2)).
      - destruct (decide (x_msz s > cap / 100)) as [Hm|]; [|lia]. pose proof (Hlow _ Hm). lia.
      - destruct (decide (mh > fh * 2)); [|lia].
        destruct (decide (q_size (x_fifo s) > cap / 100)) as [Hf|]; [|lia]. pose proof (Hlow _ Hf). lia. }
    clearbody d. split; cbn [x_fifo x_ghost x_main x_msz x_fe x_me x_size x_thr]; try done; unfold q_size in *; cbn [q_set_size q_c c_size]; try lia;
      by eapply qok_set_size.
  Qed.

  Lemma xok_tick H s lf lg t m : xok H s lf lg t m -> xok H (s3d_tick s) lf lg t m.
  Proof using All. intros HD. apply xok_update in HD. destruct HD. by split. Qed.

  Lemma xok_find_false H s lf lg t m r : xok H s lf lg t m ->
    s3d_find O s r false = Ok (s, bool_decide (r_id r ∈ ids lf \/ is_Some (m !! r_id r))).
  Proof using All.
    intros []. unfold s3d_find. rewrite (qok_find_false _ _ _ _ xok_f0). cbn [rbind].
    destruct (bool_decide (r_id r ∈ ids lf)) eqn:E.
    - apply bool_decide_eq_true in E. rewrite bool_decide_eq_true_2 by (by left). by destruct s.
    - apply bool_decide_eq_false in E.
      pose proof (sim_find_false _ _ _ _ _ _ HS _ _ r xok_m0) as Hx. cbn [op_find sized] in Hx. rewrite Hx. cbn [rbind a_m].
      destruct s. cbn. do 2 f_equal. apply bool_decide_ext. tauto.
  Qed.

  Lemma q_size_find q r u q' b : fifo_find q r u = Ok (q', b) -> q_size q' = q_size q.
  Proof using.
    unfold fifo_find, cache_find_base, q_size. destruct (c_tbl (q_c q) !! r_id r); destruct u; cbn; by intros [= <- <-].
  Qed.
  Lemma q_size_remove q id q' b : q_remove q id = Ok (q', b) -> q_size q' = q_size q.
  Proof using.
    unfold q_remove, cache_remove_obj_base, q_size. destruct (c_tbl (q_c q) !! id); cbn; by intros [= <- <-].
  Qed.
  Lemma q_size_insert q r q' : q_insert q r = Ok q' -> q_size q' = q_size q.
  Proof using.
    unfold q_insert, cache_insert_base, q_size. destruct (c_tbl (q_c q) !! r_id r); cbn; by intros [= <-].
  Qed.

  (** What a lookup with update does. *)
  Lemma xok_find_true H s lf lg t m r : xok H s lf lg t m ->
    exists s' b lf' lg' t' m', s3d_find O s r true = Ok (s', b) /\
      b = bool_decide (r_id r ∈ ids lf \/ is_Some (m !! r_id r)) /\
      xok (if b then bump H (r_id r) else H) s' lf' lg' t' m' /\
      ids lf' = ids lf /\ (forall id, is_Some (m' !! id) <-> is_Some (m !! id)) /\ size m' = size m /\
      q_size (x_fifo s') = q_size (x_fifo s) /\
      (b = false -> lf' = lf /\ m' = m /\ lg' = l_del (r_id r) lg /\ x_hg s' = bool_decide (r_id r ∈ ids lg)) /\
      (b = true -> lg' = lg).
  Proof using All.
    intros HD. pose proof HD as []. unfold s3d_find.
    destruct (decide (r_id r ∈ ids lf)) as [Hf|Hf].
    - destruct (qok_find_hit _ _ _ _ xok_f0 r Hf) as (f' & Ef & Hf'). rewrite Ef. cbn [rbind].
      pose proof (q_size_find _ _ _ _ _ Ef) as Es.
      assert (Hi : ids (l_upd (o_hit r) (r_id r) lf) = ids lf) by apply ids_upd.
      eexists _, true, (l_upd (o_hit r) (r_id r) lf), lg, t, m. split; [done|].
      rewrite bool_decide_eq_true_2 by (by left). split; [done|].
      split; [|split_and!; done].
      split; cbn [x_fifo x_ghost x_main x_msz x_fe x_me x_size x_thr]; rewrite ?Es; try done.
      + intros id. rewrite Hi. apply xok_fg0.
      + intros id. rewrite Hi. apply xok_fm0.
      + by rewrite bytes_upd.
      + by apply allG_upd.
      + by apply allF_upd.
    - rewrite (qok_find_miss _ _ _ _ xok_f0 r true Hf). cbn [rbind].
      destruct (rec_take_spec _ _ r false xok_fe0) as (fe & e1 & Efe & Hfe).
      destruct (rec_take_spec _ _ r true xok_me0) as (me & e2 & Eme & Hme).
      assert (Hg : exists g, q_remove (x_ghost s) (r_id r) = Ok (g, bool_decide (r_id r ∈ ids lg)) /\
                     qok (q_size (x_ghost s)) 0 g (l_del (r_id r) lg) /\ q_size g = q_size (x_ghost s)).
      { destruct (decide (r_id r ∈ ids lg)) as [Hi|Hi].
        - destruct (qok_remove_hit _ _ _ _ xok_g0 (r_id r) (Z.le_refl 0) Hi) as (g & Eg & Hg).
          exists g. rewrite bool_decide_eq_true_2 by done. split; [done|]. split; [done|]. by eapply q_size_remove.
        - exists (x_ghost s). rewrite bool_decide_eq_false_2 by done. rewrite (qok_remove_miss _ _ _ _ xok_g0 _ Hi).
          by rewrite l_del_notin. }
      destruct Hg as (g & -> & Hg & Egs). cbn [rbind].
      destruct (m !! r_id r) as [e|] eqn:Em.
      + assert (Hng : r_id r ∉ ids lg). { intros Hx. by rewrite (xok_gm0 _ Hx) in Em. }
        destruct (sim_find_hit _ _ _ _ _ _ HS _ _ _ _ r e xok_ok0 xok_m0 Em) as (m' & Hx & HR').
        cbn [op_find sized] in Hx. rewrite Hx. cbn [rbind]. rewrite Efe. cbn [rbind]. rewrite Eme. cbn [rbind].
        rewrite (bool_decide_eq_true_2 (r_id r ∈ ids lf \/ is_Some (Some e))) by (right; eauto).
        assert (Hsub : forall id, is_Some (<[r_id r:=touch t r e]> m !! id) <-> is_Some (m !! id)).
        { intros id. rewrite lookup_insert_is_Some'. naive_solver. }
        assert (Hsz : size (<[r_id r:=touch t r e]> m) = size m) by (apply map_size_insert_Some; eauto).
        assert (Hb : msum 0 (<[r_id r:=touch t r e]> m) = msum 0 m) by (by eapply msum_update).
        rewrite (l_del_notin _ _ Hng) in Hg.
        eexists _, true, lf, lg, _, (<[r_id r:=touch t r e]> m). split; [done|]. split; [done|].
        split; [|split_and!; done].
        split; cbn [x_fifo x_ghost x_main x_msz x_fe x_me x_size x_thr]; rewrite ?Egs; try done.
        * by apply abs_ok_touch.
        * eapply apart_map; [|done]. intros id. by rewrite Hsub.
        * eapply apart_map; [|done]. intros id. by rewrite Hsub.
        * by rewrite Hb.
        * intros id e'. rewrite lookup_insert_Some. intros [[<- <-]|[_ ?]]; [|eauto]. cbn. eauto.
        * by apply allF_notin_bump.
      + destruct (sim_find_miss _ _ _ _ _ _ HS _ _ r xok_m0 Em) as (m' & Hx & HR').
        cbn [op_find sized] in Hx. rewrite Hx. cbn [rbind]. rewrite Efe. cbn [rbind]. rewrite Eme. cbn [rbind].
        rewrite (bool_decide_eq_false_2 (r_id r ∈ ids lf \/ is_Some None)) by (intros [?|[? ?]]; congruence).
        eexists _, false, lf, (l_del (r_id r) lg), t, m. split; [done|]. split; [done|].
        split; [|split_and!; done].
        split; cbn [x_fifo x_ghost x_main x_msz x_fe x_me x_size x_thr]; rewrite ?Egs; try done.
        * eapply disj_sub; [| |exact xok_fg0]; [done|apply del_sub].
        * eapply apart_sub; [|done]. apply del_sub.
        * by apply allG_del.
  Qed.

  (** One recorded eviction from the main cache. *)
  Lemma xmain_evict me ms t m r : (exists l, qok (cap / 10) 0 me l) -> R ms (mkAbs t m AdmNone) ->
    abs_ok cap 0 (mkAbs t m AdmNone) -> m <> ∅ ->
    exists me' ms' v, s3d_main_evict O mobj me ms r = Ok (me', ms') /\ (exists l, qok (cap / 10) 0 me' l) /\
      R ms' (mkAbs t (delete v m) AdmNone) /\ abs_ok cap 0 (mkAbs t (delete v m) AdmNone) /\
      is_Some (m !! v) /\ pol m v /\ msum 0 (delete v m) <= msum 0 m /\ S (size (delete v m)) = size m.
  Proof using All.
    intros Hme HR Hok Hne.
    destruct (sim_evict _ _ _ _ _ _ HS _ _ _ _ r Hok HR Hne) as (s1 & v & _ & H1 & HR1 & [e Hv] & Hp & _ & _ & H7).
    cbn [op_to_evict sized] in H1. unfold s3d_main_evict. rewrite H1. cbn [rbind].
    destruct (HM _ _ _ _ _ HR1 Hv) as (o & -> & Ho & _).
    pose proof Hok as (_ & Hy & _). pose proof (Hy _ _ Hv) as Hye.
    destruct (rec_get (cap / 10) me (req_of_obj v o) Hme) as (me' & b & -> & Hme').
    { split; cbn; rewrite Ho; lia. }
    cbn [rbind]. destruct (H7 r) as (s3 & H8 & HR3). cbn [op_evict sized] in H8. rewrite H8. cbn [rbind].
    exists me', s3, v. split; [done|]. split; [done|]. split; [done|].
    split; [by apply abs_ok_delete|]. split; [eauto|]. split; [done|].
    rewrite (msum_delete _ _ _ _ Hv), map_size_delete_Some by eauto. split; [lia|].
    assert (size m <> 0)%nat by (by apply map_size_non_empty_iff). lia.
  Qed.

  Lemma xshrink z r : 0 <= z -> forall fuel me ms t m, (size m <= fuel)%nat -> (exists l, qok (cap / 10) 0 me l) ->
    R ms (mkAbs t m AdmNone) -> abs_ok cap 0 (mkAbs t m AdmNone) ->
    exists me' ms' m', s3d_shrink O mobj fuel z me ms r = Ok (me', ms') /\ (exists l, qok (cap / 10) 0 me' l) /\
      R ms' (mkAbs t m' AdmNone) /\ abs_ok cap 0 (mkAbs t m' AdmNone) /\ m' ⊆ m /\
      msum 0 m' <= z /\ msum 0 m' <= msum 0 m /\ (size m' <= size m)%nat.
  Proof using All.
    intros Hz. induction fuel as [|fuel IH]; intros me ms t m Hf Hme HR Hok; cbn [s3d_shrink].
    all: pose proof (sim_occ _ _ _ _ _ _ HS _ _ HR) as Hocc; cbn [op_occupied sized a_m] in Hocc; rewrite Hocc.
    - assert (m = ∅) as -> by (apply map_size_empty_inv; lia). rewrite msum_empty in *. rewrite decide_False by lia.
      exists me, ms, ∅. rewrite msum_empty. split_and!; done || lia.
    - destruct (decide (msum 0 m > z)) as [Hgt|Hle].
      + assert (Hne : m <> ∅). { intros ->. rewrite msum_empty in Hgt. lia. }
        destruct (xmain_evict me ms t m r Hme HR Hok Hne) as (me1 & ms1 & v & -> & Hme1 & HR1 & Hok1 & Hv & _ & Hm1 & Hs1).
        cbn [rbind]. destruct (IH me1 ms1 t (delete v m) ltac:(lia) Hme1 HR1 Hok1)
          as (me2 & ms2 & m2 & -> & Hme2 & HR2 & Hok2 & Hsub & H1 & H2 & H3).
        exists me2, ms2, m2. split_and!; try done; [|lia|lia]. etrans; [exact Hsub|apply delete_subseteq].
      + exists me, ms, m. split_and!; done || lia.
  Qed.

  (** main_cache->get of an object that it does not hold. *)
  Lemma xloop z r : 0 <= r_size r <= z -> forall fuel ms t m, (size m <= fuel)%nat ->
    R ms (mkAbs t m AdmNone) -> abs_ok cap 0 (mkAbs t m AdmNone) ->
    exists ms' m', evict_loop (with_size O z) fuel ms r = Ok ms' /\ R ms' (mkAbs t m' AdmNone) /\
      abs_ok cap 0 (mkAbs t m' AdmNone) /\ m' ⊆ m /\ msum 0 m' + r_size r <= z /\ msum 0 m' <= msum 0 m /\
      (size m' <= size m)%nat /\ (msum 0 m + r_size r <= z -> m' = m).
  Proof using All.
    intros Hz. induction fuel as [|fuel IH]; intros ms t m Hf HR Hok; cbn [evict_loop].
    all: pose proof (sim_occ _ _ _ _ _ _ HS _ _ HR) as Hocc; pose proof (sim_md _ _ _ _ _ _ HS _ _ HR) as Hmd;
      cbn [op_occupied op_md sized a_m] in Hocc, Hmd; cbn [op_occupied op_md op_size with_size]; rewrite Hocc, Hmd.
    - assert (m = ∅) as -> by (apply map_size_empty_inv; lia). rewrite msum_empty in *. rewrite decide_False by lia.
      exists ms, ∅. rewrite msum_empty. split_and!; done || lia.
    - destruct (decide _) as [Hgt|Hle].
      + assert (Hne : m <> ∅). { intros ->. rewrite msum_empty in Hgt. lia. }
        destruct (sim_evict _ _ _ _ _ _ HS _ _ _ _ r Hok HR Hne) as (_ & v & s2 & _ & _ & [e Hv] & Hp & He & HR2 & _).
        cbn [op_evict sized] in He. cbn [op_evict with_size]. rewrite He. cbn [rbind].
        pose proof Hok as (_ & Hy & _). pose proof (Hy _ _ Hv) as Hye. pose proof (msum_delete 0 m v e Hv) as Hmd'.
        assert (Hs1 : size (delete v m) = Nat.pred (size m)) by (apply map_size_delete_Some; eauto).
        destruct (IH s2 t (delete v m) ltac:(lia) HR2 ltac:(by apply abs_ok_delete))
          as (ms2 & m2 & -> & HR3 & Hok2 & Hsub & H1 & H2 & H3 & H4).
        exists ms2, m2. split_and!; try done; try lia. etrans; [exact Hsub|apply delete_subseteq].
      + exists ms, m. split_and!; done || lia.
  Qed.

  Lemma xmain_get z ms t m r : R ms (mkAbs t m AdmNone) -> abs_ok cap 0 (mkAbs t m AdmNone) -> req_ok 0 r ->
    m !! r_id r = None -> 0 <= r_size r <= z -> msum 0 m + r_size r <= cap ->
    exists ms' m1, s3d_main_get O z ms r = Ok (ms', false) /\ m1 ⊆ m /\ msum 0 m1 + r_size r <= z /\ msum 0 m1 <= msum 0 m /\
      (size m1 <= size m)%nat /\ (msum 0 m + r_size r <= z -> m1 = m) /\
      R ms' (mkAbs (t + 1) (<[r_id r := fresh t r]> m1) AdmNone) /\
      abs_ok cap 0 (mkAbs (t + 1) (<[r_id r := fresh t r]> m1) AdmNone).
  Proof using All.
    intros HR Hok Hr Hn Hsz Hc. unfold s3d_main_get, cache_get_base. cbn [op_tick op_find op_can_insert op_insert with_size].
    pose proof (sim_tick _ _ _ _ _ _ HS _ _ HR) as HR1. cbn [op_tick sized] in HR1.
    destruct (sim_find_miss _ _ _ _ _ _ HS _ _ r HR1 Hn) as (ms1 & Hx & HR2). cbn [op_find sized] in Hx. rewrite Hx.
    cbn [rbind]. pose proof (sim_md _ _ _ _ _ _ HS _ _ HR2) as Hmd. cbn [op_md sized] in Hmd. rewrite Hmd.
    rewrite bool_decide_eq_true_2 by lia.
    pose proof (sim_nobj _ _ _ _ _ _ HS _ _ HR) as Hnb. cbn [op_nobj sized a_m] in Hnb.
    destruct (xloop z r Hsz (Z.to_nat (op_nobj O ms)) ms1 t m ltac:(lia) HR2 Hok)
      as (ms2 & m2 & -> & HR3 & Hok2 & Hsub & H1 & H2 & H3 & H4). cbn [rbind].
    assert (Hn2 : m2 !! r_id r = None) by (by eapply lookup_weaken_None).
    destruct (xmain_insert ms2 t m2 r HR3 Hok2 Hr Hn2 ltac:(lia)) as (ms3 & -> & HR4 & Hok4 & _). cbn [rbind].
    exists ms3, m2. by split_and!.
  Qed.

  (** One eviction. *)
  Lemma xok_evict H s lf lg t m r : xok H s lf lg t m -> bytes 0 lf + msum 0 m > 0 ->
    exists s' lf' lg' t' m', s3d_evict O mobj true s r = Ok s' /\ xok H s' lf' lg' t' m' /\ x_hg s' = x_hg s /\
      q_size (x_fifo s') = q_size (x_fifo s) /\
      bytes 0 lf' + msum 0 m' <= bytes 0 lf + msum 0 m /\
      if decide (bytes 0 lf = 0) then
        lf' = lf /\ lg' = lg /\ exists v, is_Some (m !! v) /\ pol m v /\ m' = delete v m
      else exists v o, lf = lf' ++ [(v, o)] /\
        if decide (H v >= thr) then
          lg' = lg /\ m' ⊆ <[v := fresh t (req_of_obj v o)]> m /\ (size m' <= S (size m))%nat /\ msum 0 m' <= x_msz s
        else
          m' = m /\ (forall id, id ∈ ids lg' -> id = v \/ id ∈ ids lg) /\ (o_size o <= q_size (x_ghost s) -> v ∈ ids lg').
  Proof using All.
    intros HD Hpos. pose proof (xok_bytes _ _ _ _ _ _ HD) as [Hb1 Hb2]. pose proof HD as [].
    unfold s3d_evict. assert (q_occ (x_fifo s) = bytes 0 lf) as -> by apply xok_f0.
    destruct (decide (bytes 0 lf = 0)) as [Hz|Hnz].
    - assert (m <> ∅) as Hne. { intros ->. rewrite msum_empty in *. lia. }
      pose proof (sim_occ _ _ _ _ _ _ HS _ _ xok_m0) as Hocc. cbn [op_occupied sized a_m] in Hocc.
      rewrite decide_True by (rewrite Hocc, xok_sz0; lia).
      destruct (xmain_evict (x_me s) (x_main s) t m r xok_me0 xok_m0 xok_ok0 Hne)
        as (me & ms & v & -> & Hme & HR & Hok & Hv & Hp & Hb & Hs). cbn [rbind].
      assert (Hsub : forall id, is_Some (delete v m !! id) -> is_Some (m !! id)).
      { intros id. rewrite lookup_delete_is_Some. tauto. }
      eexists _, lf, lg, t, (delete v m). split; [done|]. split; [|split; [done|split; [done|split; [lia|]]]].
      + split; cbn [x_fifo x_ghost x_main x_msz x_fe x_me x_size x_thr]; try done.
        * by eapply apart_map.
        * by eapply apart_map.
        * lia.
        * intros id e'. rewrite lookup_delete_Some. intros [_ ?]. eauto.
      + split; [done|]. split; [done|]. by exists v.
    - destruct lf as [|[v o] lf _] using rev_ind; [done|].
      destruct (qok_snoc_lookup _ _ _ _ _ _ xok_f0) as [-> ->].
      destruct (qok_snoc_remove _ _ _ _ _ _ (Z.le_refl 0) xok_f0) as (f1 & Hrm & Hf1).
      pose proof (q_size_remove _ _ _ _ Hrm) as Efs. rewrite Hrm. cbn [rbind].
      assert (Hin : (v, o) ∈ lf ++ [(v, o)]) by (apply elem_of_app; right; left).
      assert (Hvin : v ∈ ids (lf ++ [(v, o)])) by (apply ids_elem; eauto).
      pose proof (osz_elem _ _ _ _ _ xok_f0 Hin) as Hosz.
      pose proof (NoDup_ids_mid lf v o [] (qok_nd _ _ _ _ xok_f0)) as (Hv & _).
      assert (Hvg : v ∉ ids lg) by (intros ?; by apply (xok_fg0 v)).
      assert (Hvm : m !! v = None) by (by apply xok_fm0).
      assert (Hsub : forall id, id ∈ ids lf -> id ∈ ids (lf ++ [(v, o)])).
      { intros id ?. rewrite ids_app. apply elem_of_app. by left. }
      apply allG_app in xok_Gf0 as [Gf Gv]. apply Forall_app in xok_H0 as [HH HHv].
      assert (Hp1 : o_freq o = H v) by (by apply Forall_cons in HHv as [? _]).
      assert (HGv : G v (o_size o)) by (apply (allG_elem _ _ _ _ Gv); left).
      pose proof (req_of_obj_ok _ _ _ _ _ xok_f0 Hin) as Hrok.
      assert (Hbb : bytes 0 (lf ++ [(v, o)]) = bytes 0 lf + o_size o).
      { rewrite bytes_app, bytes_cons. cbn. lia. }
      assert (0 <= bytes 0 lf) by (apply bytes_nonneg; [lia|apply Hf1]).
      rewrite Hp1, xok_thr0. destruct (decide (H v >= thr)) as [Hge|Hlt].
      + destruct (xmain_insert _ _ _ (req_of_obj v o) xok_m0 xok_ok0 Hrok Hvm) as (ms1 & -> & HR1 & Hok1 & Hms1 & Hsz1).
        { cbn. lia. }
        cbn [rbind]. cbn [r_id r_size req_of_obj] in *.
        set (m1 := <[v:=fresh t (req_of_obj v o)]> m) in *.
        pose proof (sim_nobj _ _ _ _ _ _ HS _ _ HR1) as Hnb. cbn [op_nobj sized a_m] in Hnb.
        destruct (xshrink (x_msz s) r ltac:(lia) (Z.to_nat (op_nobj O ms1)) (x_me s) ms1 (t + 1) m1 ltac:(lia) xok_me0 HR1 Hok1)
          as (me' & ms' & m' & -> & Hme' & HR' & Hok' & Hm' & Hle & Hle2 & Hsz'). cbn [rbind].
        assert (Hm1 : forall id, is_Some (m' !! id) -> id = v \/ is_Some (m !! id)).
        { intros id [e He]. pose proof (lookup_weaken _ _ _ _ He Hm') as Hx. unfold m1 in Hx.
          apply lookup_insert_Some in Hx as [[-> _]|[_ ?]]; [by left|right; eauto]. }
        eexists _, lf, lg, _, m'. split; [done|]. split; [|split; [done|split; [done|split; [lia|]]]].
        * split; cbn [x_fifo x_ghost x_main x_msz x_fe x_me x_size x_thr]; rewrite ?Efs; try done.
          -- eapply disj_sub; [exact Hsub|done|exact xok_fg0].
          -- intros id Hi1. apply eq_None_not_Some. intros [->|Hx]%Hm1; [done|].
             rewrite (xok_fm0 id (Hsub _ Hi1)) in Hx. by apply is_Some_None in Hx.
          -- intros id Hi1. apply eq_None_not_Some. intros [->|Hx]%Hm1; [done|].
             rewrite (xok_gm0 id Hi1) in Hx. by apply is_Some_None in Hx.
          -- lia.
          -- intros id e He. pose proof (lookup_weaken _ _ _ _ He Hm') as Hx. unfold m1 in Hx.
             apply lookup_insert_Some in Hx as [[<- <-]|[_ ?]]; [done|eauto].
        * exists v, o. split; [done|]. rewrite decide_True by done. split_and!; done || lia.
      + unfold sub_get. cbn [op_nobj fifo_ops].
        destruct (fifo_get_miss _ _ _ _ (req_of_obj v o) _ (Z.le_refl 0) xok_g0 Hrok Hvg (subget_fuel _ _ _ _ xok_g0))
          as (g' & lg' & -> & Hg' & Hcase). cbn [rbind].
        destruct (rec_get (cap / 10) (x_fe s) (req_of_obj v o) xok_fe0 Hrok) as (fe & b & Efe & Hfe).
        unfold sub_get in Efe. cbn [op_nobj fifo_ops] in Efe. rewrite Efe. cbn [rbind]. cbn [r_id r_size req_of_obj] in *.
        assert (Egs : q_size g' = q_size (x_ghost s)) by apply Hg'.
        assert (Hlg : forall id, id ∈ ids lg' -> id = v \/ id ∈ ids lg).
        { destruct (decide _) as [Hfit|Hno]; [|subst; by right]. destruct Hcase as (l1 & Hf & ->).
          intros id [->|Hid]%elem_of_cons; [by left|]. right. by apply (fits_ids _ _ _ _ _ Hf). }
        eexists _, lf, lg', t, m. split; [done|]. split; [|split; [done|split; [done|split; [lia|]]]].
        * split; cbn [x_fifo x_ghost x_main x_msz x_fe x_me x_size x_thr]; rewrite ?Efs, ?Egs; try done.
          -- intros id Hi1 [->|Hi2]%Hlg; [done|]. by apply (xok_fg0 id); [apply Hsub|].
          -- by eapply apart_sub.
          -- intros id [->|Hi2]%Hlg; [done|]. by apply xok_gm0.
          -- lia.
          -- destruct (decide _) as [Hfit|Hno]; [|by subst]. destruct Hcase as (l1 & Hf & ->).
             apply allG_cons; [|by eapply allG_fits]. cbn [fst snd r_id req_of_obj].
             by rewrite (o_size_of_req _ _ Hrok (Z.le_refl 0)).
        * exists v, o. split; [done|]. rewrite decide_False by done. split; [done|]. split; [done|].
          intros Hfit. rewrite decide_True in Hcase by lia. destruct Hcase as (l1 & _ & ->). left.
  Qed.

  Lemma xok_evict_w H s lf lg t m r : xok H s lf lg t m -> bytes 0 lf + msum 0 m > 0 ->
    exists s' lf' lg' t' m', s3d_evict O mobj true s r = Ok s' /\ xok H s' lf' lg' t' m' /\ x_hg s' = x_hg s /\
      q_size (x_fifo s') = q_size (x_fifo s) /\
      (exists d, lf = lf' ++ d) /\
      (forall id, is_Some (m' !! id) -> is_Some (m !! id) \/ (id ∈ ids lf /\ H id >= thr)) /\
      (forall id, id ∈ ids lg' -> id ∈ ids lg \/ (id ∈ ids lf /\ H id < thr)) /\
      bytes 0 lf' + msum 0 m' <= bytes 0 lf + msum 0 m /\
      (length lf' + size m' <= length lf + size m)%nat /\
      (2 * length lf' + size m' < 2 * length lf + size m)%nat.
  Proof using All.
    intros HD Hpos. destruct (xok_evict H s lf lg t m r HD Hpos) as (s' & lf' & lg' & t' & m' & He & HD' & Hg & Hq & Hb & Hc).
    exists s', lf', lg', t', m'. split; [done|]. split; [done|]. split; [done|]. split; [done|].
    destruct (decide (bytes 0 lf = 0)).
    - destruct Hc as (-> & -> & v & Hv & _ & ->).
      assert (size m <> 0)%nat. { destruct Hv as [e0 Hv]. apply map_size_non_empty_iff. intros ->. by rewrite lookup_empty in Hv. }
      rewrite map_size_delete_Some by done.
      split_and!; try done; try lia.
      + exists []. by rewrite app_nil_r.
      + intros id. rewrite lookup_delete_is_Some. intros [_ ?]. by left.
      + intros; by left.
    - destruct Hc as (v & o & -> & Hc). rewrite !app_length. cbn [length]. split; [by eexists|].
      assert (Hv : v ∈ ids (lf' ++ [(v, o)])). { rewrite ids_app. apply elem_of_app. right. left. }
      destruct (decide (H v >= thr)).
      + destruct Hc as (-> & Hsub & Hs & _). split_and!; try lia; [|intros; by left].
        intros id [x Hx]. pose proof (lookup_weaken _ _ _ _ Hx Hsub) as Hy.
        apply lookup_insert_Some in Hy as [[<- _]|[_ ?]]; [by right|left; eauto].
      + destruct Hc as (-> & Hlg & _). split_and!; try lia; [intros; by left|].
        intros id [->|?]%Hlg; [right; split; [done|lia]|by left].
  Qed.

  Lemma xok_loop H r : forall n s lf lg t m fuel, 0 <= r_size r <= cap ->
    (2 * length lf + size m <= n)%nat -> (n <= fuel)%nat -> xok H s lf lg t m ->
    exists s' lf' lg' t' m', evict_loop (s3d_ops O mobj true) fuel s r = Ok s' /\ xok H s' lf' lg' t' m' /\ x_hg s' = x_hg s /\
      q_size (x_fifo s') = q_size (x_fifo s) /\
      bytes 0 lf' + msum 0 m' + r_size r <= cap /\
      (exists d, lf = lf' ++ d) /\
      (forall id, is_Some (m' !! id) -> is_Some (m !! id) \/ (id ∈ ids lf /\ H id >= thr)) /\
      (forall id, id ∈ ids lg' -> id ∈ ids lg \/ (id ∈ ids lf /\ H id < thr)) /\
      (length lf' + size m' <= length lf + size m)%nat /\
      (bytes 0 lf + msum 0 m + r_size r <= cap -> lf' = lf /\ m' = m /\ lg' = lg).
  Proof using All.
    intros n. induction n as [|n IH]; intros s lf lg t m fuel Hr Hn Hfu HD.
    all: assert (Hocc : op_occupied (s3d_ops O mobj true) s + r_size r + op_md (s3d_ops O mobj true) s = bytes 0 lf + msum 0 m + r_size r
                     /\ op_size (s3d_ops O mobj true) s = cap).
    1,3: pose proof HD as []; pose proof (sim_occ _ _ _ _ _ _ HS _ _ xok_m0) as Hx; cbn [op_occupied sized a_m] in Hx; cbn;
         unfold q_occ; rewrite (qok_occ _ _ _ _ xok_f0), Hx; cbn; split; [lia|done].
    all: destruct Hocc as [Hocc Hsz].
    all: pose proof (xok_bytes _ _ _ _ _ _ HD) as [Hb1 Hb2].
    - assert (lf = [] /\ m = ∅) as [-> ->].
      { split; [destruct lf; [done|cbn in Hn; lia]|apply map_size_empty_inv; lia]. }
      exists s, [], lg, t, ∅. change (bytes 0 []) with 0 in *. rewrite msum_empty in *.
      assert (evict_loop (s3d_ops O mobj true) fuel s r = Ok s) as -> by (destruct fuel; cbn [evict_loop]; by rewrite decide_False by lia).
      split; [done|]. split; [done|]. split; [done|]. split; [done|]. split; [lia|]. split; [by exists []|]. split; [intros; by left|].
      split; [intros; by left|]. split; [lia|done].
    - destruct fuel as [|fuel]; [lia|]. cbn [evict_loop]. destruct (decide _) as [Hgt|Hnot].
      + cbn [op_evict s3d_ops].
        destruct (xok_evict_w H s lf lg t m r HD ltac:(lia)) as
          (s1 & lf1 & lg1 & t1 & m1 & -> & HS1 & Hg1 & Hq1 & (d1 & Hd1) & Hm1 & Hlg1 & Hbb & Hl1 & Hdec).
        cbn [rbind].
        destruct (IH s1 lf1 lg1 t1 m1 fuel Hr ltac:(lia) ltac:(lia) HS1) as
          (s' & lf' & lg' & t' & m' & -> & HS' & Hg' & Hq' & Hc & (d & Hd) & Hm' & Hlg' & Hl' & _).
        assert (Hsub : forall id, id ∈ ids lf1 -> id ∈ ids lf).
        { intros id Hid. rewrite Hd1, ids_app. apply elem_of_app. by left. }
        exists s', lf', lg', t', m'. split; [done|]. split; [done|]. split; [congruence|]. split; [congruence|]. split; [done|]. split.
        { exists (d ++ d1). by rewrite app_assoc, <- Hd. }
        split.
        { intros id Hid. apply Hm' in Hid as [Hid|[Hid ?]]; [by apply Hm1|]. right. split; [by apply Hsub|done]. }
        split.
        { intros id Hid. apply Hlg' in Hid as [Hid|[Hid ?]]; [by apply Hlg1|]. right. split; [by apply Hsub|done]. }
        split; lia.
      + exists s, lf, lg, t, m. split; [done|]. split; [done|]. split; [done|]. split; [done|]. split; [lia|].
        split; [exists []; by rewrite app_nil_r|]. split; [intros; by left|]. split; [intros; by left|]. split; [lia|done].
  Qed.

  Lemma xok_insert H s lf lg t m r : xok H s lf lg t m -> req_ok 0 r -> G (r_id r) (r_size r) ->
    r_id r ∉ ids lf -> r_id r ∉ ids lg -> m !! r_id r = None ->
    bytes 0 lf + msum 0 m + r_size r <= cap ->
    exists s' lf' t' m', s3d_insert O mobj s r = Ok s' /\ xok (zero_at H (r_id r)) s' lf' lg t' m' /\
      q_size (x_fifo s') = q_size (x_fifo s) /\
      (if x_hg s then lf' = lf /\ exists m1, m1 ⊆ m /\ (size m1 <= size m)%nat /\ m' = <[r_id r := fresh t r]> m1 /\
                        (msum 0 m + r_size r <= x_msz s -> m1 = m)
       else m' = m /\ exists o', lf' = (r_id r, o') :: lf).
  Proof using All.
    intros HD Hr HGr Hf Hg Hm Hc. pose proof (xok_bytes _ _ _ _ _ _ HD) as [Hb1 Hb2]. destruct HD.
    pose proof Hr as [Hr1 Hr2]. unfold s3d_insert.
    pose proof (o_size_of_req _ _ Hr (Z.le_refl 0)) as Hos. pose proof (HGs _ _ HGr) as Hlow.
    destruct (x_hg s).
    - destruct (xmain_get (x_msz s) _ _ _ r xok_m0 xok_ok0 Hr Hm ltac:(lia) ltac:(lia))
        as (ms & m1 & -> & Hsub & H1 & H2 & H3 & H4 & HR' & Hok'). cbn [rbind].
      pose proof (sim_find_false _ _ _ _ _ _ HS _ _ r HR') as Hx. cbn [op_find sized a_m] in Hx. rewrite Hx, lookup_insert. cbn [rbind].
      rewrite bool_decide_eq_true_2 by eauto.
      destruct (HM _ _ _ (r_id r) (fresh t r) HR') as (o & -> & Ho); [by rewrite lookup_insert|].
      rewrite decide_True by (destruct Ho as (_ & _ & ->); done).
      assert (Hn1 : m1 !! r_id r = None) by (by eapply lookup_weaken_None).
      eexists _, lf, _, (<[r_id r:=fresh t r]> m1). split; [done|]. split; [|split; [done|split; [done|exists m1; by split_and!]]].
      assert (Hs : forall id, is_Some (m1 !! id) -> is_Some (m !! id)).
      { intros id [x Hy]. exists x. by eapply lookup_weaken. }
      split; cbn [x_fifo x_ghost x_main x_msz x_fe x_me x_size x_thr]; try done.
      + intros id Hid. rewrite lookup_insert_ne by (intros <-; done). by apply (apart_map _ _ _ Hs xok_fm0).
      + intros id Hid. rewrite lookup_insert_ne by (intros <-; done). by apply (apart_map _ _ _ Hs xok_gm0).
      + rewrite msum_insert by done. cbn. lia.
      + intros id e. rewrite lookup_insert_Some. intros [[<- <-]|[_ He]]; [done|]. eapply xok_Gm0. by eapply lookup_weaken.
      + by apply allF_notin_zero.
    - destruct (qok_insert _ _ _ _ xok_f0 r Hf Hr (Z.le_refl 0)) as (f & Ef & Hf'). rewrite Ef. cbn [rbind].
      pose proof (q_size_insert _ _ _ Ef) as Efs.
      assert (Hlk : c_tbl (q_c f) !! r_id r = Some (obj_of_req r)) by (apply (qok_lookup _ _ _ _ Hf'); left).
      rewrite Hlk, decide_True by done.
      eexists _, _, t, m. split; [done|]. split; [|split; [done|split; [done|eexists; done]]].
      split; cbn [x_fifo x_ghost x_main x_msz x_fe x_me x_size x_thr]; rewrite ?Efs; try done.
      * intros id [->|H2]%elem_of_cons H1; [done|]. by apply (xok_fg0 id).
      * intros id [->|H2]%elem_of_cons; [done|]. by apply (xok_fm0 id).
      * rewrite bytes_cons. cbn [snd]. lia.
      * apply allG_cons; [|done]. cbn [fst snd]. by rewrite Hos.
      * apply Forall_cons. split; [|by apply allF_notin_zero]. cbn. unfold zero_at. by rewrite decide_True.
  Qed.

  Lemma xok_remove H s lf lg t m id : xok H s lf lg t m ->
    exists s', s3d_remove O s id = Ok (s', bool_decide (id ∈ ids lf \/ id ∈ ids lg \/ is_Some (m !! id))) /\
      xok H s' (l_del id lf) (l_del id lg) t (delete id m).
  Proof using All.
    intros HD. pose proof (xok_bytes _ _ _ _ _ _ HD) as [Hb1 Hb2]. destruct HD. unfold s3d_remove.
    assert (HC : forall s', qok (q_size (x_fifo s)) 0 (x_fifo s') (l_del id lf) -> qok (q_size (x_ghost s)) 0 (x_ghost s') (l_del id lg) ->
       x_msz s' = x_msz s -> x_fe s' = x_fe s -> x_me s' = x_me s ->
       R (x_main s') (mkAbs t (delete id m) AdmNone) -> x_size s' = cap -> x_thr s' = thr ->
       xok H s' (l_del id lf) (l_del id lg) t (delete id m)).
    { intros s' H1 H2 H3 H4 H5 H6 H7 H8.
      assert (E1 : q_size (x_fifo s') = q_size (x_fifo s)) by apply H1.
      assert (E2 : q_size (x_ghost s') = q_size (x_ghost s)) by apply H2.
      pose proof (bytes_del_le _ _ _ _ id (Z.le_refl 0) xok_f0).
      assert (msum 0 (delete id m) <= msum 0 m).
      { destruct (m !! id) as [e|] eqn:E; [|by rewrite delete_notin]. rewrite (msum_delete _ _ _ _ E).
        destruct xok_ok0 as (_ & Hx & _). specialize (Hx _ _ E). lia. }
      split; rewrite ?E1, ?E2, ?H3, ?H4, ?H5; try done; try lia; try (by apply allG_del); try (by apply Forall_del).
      - by apply abs_ok_delete.
      - eapply disj_sub; [apply del_sub|apply del_sub|done].
      - eapply apart_sub; [apply del_sub|]. eapply apart_map; [|done]. intros j. rewrite lookup_delete_is_Some. tauto.
      - eapply apart_sub; [apply del_sub|]. eapply apart_map; [|done]. intros j. rewrite lookup_delete_is_Some. tauto.
      - intros j e. rewrite lookup_delete_Some. intros [_ ?]. eauto. }
    destruct (decide (id ∈ ids lf)) as [Hi|Hi].
    { destruct (qok_remove_hit _ _ _ _ xok_f0 id ltac:(lia) Hi) as (i & -> & Hi'). cbn [rbind].
      rewrite bool_decide_eq_true_2 by (by left). eexists. split; [done|].
      apply HC; cbn [x_fifo x_ghost x_main x_msz x_fe x_me x_size x_thr]; try done.
      - rewrite l_del_notin; [done|]. intros ?. by apply (xok_fg0 id).
      - rewrite delete_notin; [done|]. by apply xok_fm0. }
    rewrite (qok_remove_miss _ _ _ _ xok_f0 _ Hi). cbn [rbind].
    destruct (decide (id ∈ ids lg)) as [Ho|Ho].
    { destruct (qok_remove_hit _ _ _ _ xok_g0 id ltac:(lia) Ho) as (g & -> & Hg'). cbn [rbind].
      rewrite bool_decide_eq_true_2 by (by right; left). eexists. split; [done|].
      apply HC; cbn [x_fifo x_ghost x_main x_msz x_fe x_me x_size x_thr]; try done.
      - by rewrite l_del_notin.
      - rewrite delete_notin; [done|]. by apply xok_gm0. }
    rewrite (qok_remove_miss _ _ _ _ xok_g0 _ Ho). cbn [rbind].
    destruct (sim_remove _ _ _ _ _ _ HS _ _ _ _ id xok_ok0 xok_m0) as (ms & Hx & HR').
    cbn [op_remove sized] in Hx. rewrite Hx. cbn [rbind].
    assert (bool_decide (is_Some (m !! id)) = bool_decide (id ∈ ids lf \/ id ∈ ids lg \/ is_Some (m !! id))) as ->
      by (apply bool_decide_ext; tauto).
    eexists. split; [done|]. apply HC; cbn [x_fifo x_ghost x_main x_msz x_fe x_me x_size x_thr]; try done; by rewrite l_del_notin.
  Qed.

  Lemma xok_get H s lf lg t m r fuel : xok H s lf lg t m -> req_ok 0 r -> G (r_id r) (r_size r) ->
    (2 * length lf + size m <= fuel)%nat ->
    let h := bool_decide (r_id r ∈ ids lf \/ is_Some (m !! r_id r)) in
    let z := q_size (x_fifo (s3d_update s)) in
    exists s' lf' lg' t' m', cache_get_base (s3d_ops O mobj true) fuel s r = Ok (s', h) /\
      xok (if h then bump H (r_id r) else zero_at H (r_id r)) s' lf' lg' t' m' /\
      (length lf' + size m' <= length lf + size m + 1)%nat /\
      q_size (x_fifo s') = z /\
      (h = true -> lg' = lg /\ ids lf' = ids lf /\ forall id, is_Some (m' !! id) <-> is_Some (m !! id)) /\
      (h = false -> z < r_size r -> lf' = lf /\ m' = m /\ lg' = l_del (r_id r) lg) /\
      (h = false -> r_size r <= z ->
         r_id r ∉ ids lg' /\
         (forall id, id ∈ ids lf' -> id = r_id r \/ id ∈ ids lf) /\
         (forall id, is_Some (m' !! id) -> is_Some (m !! id) \/ (id ∈ ids lf /\ H id >= thr) \/ (id = r_id r /\ id ∈ ids lg)) /\
         (forall id, id ∈ ids lg' -> id ∈ ids lg \/ (id ∈ ids lf /\ H id < thr)) /\
         (r_id r ∈ ids lg -> is_Some (m' !! r_id r)) /\
         (r_id r ∉ ids lg -> r_id r ∈ ids lf') /\
         (bytes 0 lf + msum 0 m + r_size r <= cap ->
            (forall id, id ∈ ids lf -> id ∈ ids lf') /\
            (r_id r ∉ ids lg \/ msum 0 m + r_size r <= cap - z -> forall id, is_Some (m !! id) -> is_Some (m' !! id)))).
  Proof using All.
    intros HD Hr HGr Hfu h z. subst h. unfold cache_get_base. pose proof Hr as [Hr1 Hr2].
    assert (HT : xok H (op_tick (s3d_ops O mobj true) s) lf lg t m) by (by apply xok_tick).
    assert (Hz : q_size (x_fifo (op_tick (s3d_ops O mobj true) s)) = z) by done. clearbody z.
    cbn [op_find s3d_ops].
    destruct (xok_find_true _ _ _ _ _ _ r HT) as (s1 & b & lf1 & lg1 & t1 & m1 & -> & -> & H1 & Hids & Hmi & Hlen & Hq1 & HF & HTr).
    cbn [rbind]. rewrite Hz in Hq1.
    assert (Hlf : length lf1 = length lf).
    { transitivity (length (ids lf1)); [unfold ids; by rewrite fmap_length|]. rewrite Hids. unfold ids. by rewrite fmap_length. }
    destruct (bool_decide (r_id r ∈ ids lf \/ is_Some (m !! r_id r))) eqn:Eb.
    - exists s1, lf1, lg1, t1, m1. split; [done|]. split; [done|]. split; [lia|]. split; [done|]. split; [|by split].
      intros _. split_and!; [by apply HTr|done|done].
    - apply bool_decide_eq_false in Eb. destruct (HF eq_refl) as (-> & -> & -> & Hg).
      cbn [op_can_insert s3d_ops]. unfold s3d_can_insert. rewrite Hq1. cbn [rbind].
      assert (Hi : r_id r ∉ ids lf) by tauto.
      assert (Hm : m !! r_id r = None) by (apply eq_None_not_Some; tauto).
      destruct (bool_decide (r_size r <= z)) eqn:Es.
      + apply bool_decide_eq_true in Es.
        assert (Ho : r_id r ∉ ids (l_del (r_id r) lg)) by (rewrite elem_ids_del; tauto).
        assert (Hzc : z <= cap) by (rewrite <- Hq1; apply H1).
        destruct (xok_loop H r _ s1 lf _ t1 m fuel ltac:(lia) (le_n _) Hfu H1)
          as (s2 & lf2 & lg2 & t2 & m2 & -> & H2 & Hg2 & Hq2 & Hc & (d & Hd) & Hm2 & Hlg2 & Hl2 & Hroom).
        cbn [rbind op_insert s3d_ops].
        assert (Hsub : forall id, id ∈ ids lf2 -> id ∈ ids lf).
        { intros id Hid. rewrite Hd, ids_app. apply elem_of_app. by left. }
        assert (Hi2 : r_id r ∉ ids lf2) by (intros ?; by apply Hi, Hsub).
        assert (Hm2' : m2 !! r_id r = None).
        { apply eq_None_not_Some. intros [Hx|[? ?]]%Hm2; [|done]. rewrite Hm in Hx. by apply is_Some_None in Hx. }
        assert (Ho2 : r_id r ∉ ids lg2) by (intros [?|[? ?]]%Hlg2; done).
        destruct (xok_insert H s2 lf2 lg2 t2 m2 r H2 Hr HGr Hi2 Ho2 Hm2' Hc) as (s3 & lf3 & t3 & m3 & -> & H3 & Hq3 & Hcase).
        cbn [rbind]. rewrite Hg2, Hg in Hcase.
        exists s3, lf3, lg2, t3, m3. split; [done|]. split; [done|].
        assert (Hlg : forall id, id ∈ ids lg2 -> id ∈ ids lg \/ (id ∈ ids lf /\ H id < thr)).
        { intros id Hid. apply Hlg2 in Hid as [Hid|?]; [|by right]. left. by apply elem_ids_del in Hid as [? _]. }
        destruct (decide (r_id r ∈ ids lg)) as [Hgh|Hgh].
        * rewrite bool_decide_eq_true_2 in Hcase by done. destruct Hcase as [-> (mx & Hmx & Hsx & -> & Hroom2)].
          assert (Hnx : mx !! r_id r = None) by (by eapply lookup_weaken_None).
          rewrite map_size_insert_None by done.
          split; [lia|]. split; [congruence|]. split; [done|]. split; [intros _ ?; lia|].
          intros _ _. split; [done|]. split; [intros id Hid; right; by apply Hsub|]. split.
          { intros id. rewrite lookup_insert_is_Some'. intros [<-|[x Hx]]; [right; right; by split|].
            destruct (Hm2 id) as [?|?]; [exists x; by eapply lookup_weaken|by left|right; by left]. }
          split; [done|]. split; [intros _; rewrite lookup_insert; eauto|]. split; [done|].
          intros Hr'. destruct (Hroom Hr') as (-> & -> & _). split; [done|].
          intros [?|Hr2']; [done|]. assert (x_msz s2 = cap - z) as E by (rewrite <- Hq1, <- Hq2; apply H2).
          rewrite Hroom2 by lia. intros id Hid. rewrite lookup_insert_is_Some'. by right.
        * rewrite bool_decide_eq_false_2 in Hcase by done. destruct Hcase as [-> (o' & ->)].
          split; [cbn [length]; lia|]. split; [congruence|]. split; [done|]. split; [intros _ ?; lia|].
          intros _ _. split; [done|]. split; [intros id [->|Hid]%elem_of_cons; [by left|]; right; by apply Hsub|]. split.
          { intros id Hid. apply Hm2 in Hid as [?|?]; [by left|right; by left]. }
          split; [done|]. split; [done|]. split; [intros _; left|].
          intros Hr'. destruct (Hroom Hr') as (-> & -> & _). split; [|done].
          intros id Hid. by right.
      + apply bool_decide_eq_false in Es. exists s1, lf, (l_del (r_id r) lg), t1, m. split; [done|].
        split; [|split; [lia|split; [done|split; [done|split; [done|]]]]].
        * destruct H1. split; try done. by apply allF_notin_zero.
        * intros _ ?. lia.
  Qed.

  Lemma xok_init main0 : R main0 (abs_init AdmNone) -> xok (fun _ => 0) (s3d_init cap fsz thr main0) [] [] 0 ∅.
  Proof using All.
    intros HR. assert (0 <= cap / 100 / 1000 /\ 0 <= cap / 100).
    { assert (0 <= cap / 100) by (apply Z.div_pos; lia). split; [by apply Z.div_pos|done]. }
    split; cbn; try done; try lia; try (intros ? ? ?; by eapply elem_of_nil); try (by apply Forall_nil_2).
    - apply qok_init.
    - apply qok_init.
    - eexists. apply qok_init.
    - eexists. apply qok_init.
    - apply (abs_init_ok _ _ AdmNone); lia.
    - rewrite msum_empty. lia.
  Qed.
End X3.
