(** What every operation of the S3LRU model does to its queues and to the main
    cache, and the invariant that all client programs preserve. *)
From stdpp Require Import gmap list numbers fin_maps.
From Verif Require Import Base Driver Abs AbsFacts Sim ModelQueue QueueFacts SimQueue ClockFacts SimClock QList CompFacts
  ModelTwoQ ModelS3FIFO S3Facts ModelQDLP QDLPFacts ModelS3LRU.
Open Scope Z_scope.

(** ** A cache run past its own size limit.  The main cache is filled without
    regard to its cache_size; only the limit [cap] of the whole cache holds.  The
    operations used do not read cache_size, so that the main cache behaves as one
    of size [cap]. *)
Definition sized {M} (O : ops M) (cap : Z) : ops M :=
  mkOps (op_find O) (fun s r => Ok (s, bool_decide (r_size r + op_md O s <= cap))) (op_insert O) (op_evict O)
        (op_to_evict O) (op_remove O) (op_occupied O) (op_nobj O) (fun _ => cap) (op_md O) (op_tick O).

(** [z] sets the size to [cap]; all operations commute with it. *)
Record resizes {M} (O : ops M) (cap : Z) (z : M -> M) : Prop := mkRz {
  rz_pure s r : exists b, op_find O s r false = Ok (s, b);
  rz_find s r u : op_find O (z s) r u = (let! (s, b) := op_find O s r u in Ok (z s, b));
  rz_ins s r : op_insert O (z s) r = (let! s := op_insert O s r in Ok (z s));
  rz_evict s r : op_evict O (z s) r = (let! s := op_evict O s r in Ok (z s));
  rz_to s r : op_to_evict O (z s) r = (let! (s, v) := op_to_evict O s r in Ok (z s, v));
  rz_rem s id : op_remove O (z s) id = (let! (s, b) := op_remove O s id in Ok (z s, b));
  rz_occ s : op_occupied O (z s) = op_occupied O s;
  rz_nobj s : op_nobj O (z s) = op_nobj O s;
  rz_md s : op_md O (z s) = op_md O s;
  rz_tick s : op_tick O (z s) = z (op_tick O s)
}.

Definition sized_rel {M} (z : M -> M) (R : M -> abs -> Prop) (s : M) (a : abs) : Prop := R (z s) a /\ a_adm a = AdmNone.

Lemma sized_sim {M} pol (O : ops M) cap z (R : M -> abs -> Prop) : resizes O cap z ->
  simulation pol O cap 0 (req_ok 0) R -> simulation pol (sized O cap) cap 0 (req_ok 0) (sized_rel z R).
Proof.
  intros Z HS. constructor; unfold sized_rel; cbn.
  - done.
  - done.
  - intros s a [HR _]. rewrite <- (rz_md _ _ _ Z). by apply (sim_md _ _ _ _ _ _ HS _ _ HR).
  - intros s a [HR _]. rewrite <- (rz_occ _ _ _ Z). by apply (sim_occ _ _ _ _ _ _ HS _ _ HR).
  - intros s a [HR _]. rewrite <- (rz_nobj _ _ _ Z). by apply (sim_nobj _ _ _ _ _ _ HS _ _ HR).
  - intros s a [HR Ha]. rewrite <- (rz_tick _ _ _ Z). split; [|done]. by apply (sim_tick _ _ _ _ _ _ HS).
  - intros s t m a [HR Ha]. split; [|done]. by apply (sim_clock _ _ _ _ _ _ HS).
  - intros s a r [HR Ha]. pose proof (sim_find_false _ _ _ _ _ _ HS _ _ r HR) as Hf.
    rewrite (rz_find _ _ _ Z) in Hf. destruct (rz_pure _ _ _ Z s r) as (b & Hb). rewrite Hb in *. cbn [rbind] in Hf.
    by injection Hf as ->.
  - intros s t m a r e Hok [HR Ha] He. destruct (sim_find_hit _ _ _ _ _ _ HS _ _ _ _ r e Hok HR He) as (s' & Hf & HR').
    rewrite (rz_find _ _ _ Z) in Hf. destruct (op_find O s r true) as [[s1 b]|]; [|done]. cbn [rbind] in Hf.
    injection Hf as <- ->. by exists s1.
  - intros s a r [HR Ha] He. destruct (sim_find_miss _ _ _ _ _ _ HS _ _ r HR He) as (s' & Hf & HR').
    rewrite (rz_find _ _ _ Z) in Hf. destruct (op_find O s r true) as [[s1 b]|]; [|done]. cbn [rbind] in Hf.
    injection Hf as <- ->. by exists s1.
  - intros s t m a r [HR Ha]. cbn in Ha. subst a. exists s. split; [|done]. cbn.
    rewrite <- (rz_md _ _ _ Z), (sim_md _ _ _ _ _ _ HS _ _ HR). done.
  - intros s t m a r Hok [HR Ha] Hn Hr Hfit. destruct (sim_insert _ _ _ _ _ _ HS _ _ _ _ r Hok HR Hn Hr Hfit) as (s' & Hf & HR').
    rewrite (rz_ins _ _ _ Z) in Hf. destruct (op_insert O s r) as [s1|]; [|done]. cbn [rbind] in Hf.
    injection Hf as <-. by exists s1.
  - intros s t m a r Hok [HR Ha] Hne.
    destruct (sim_evict _ _ _ _ _ _ HS _ _ _ _ r Hok HR Hne) as (s1 & v & s2 & H1 & H2 & H3 & H4 & H5 & H6 & H7).
    rewrite (rz_to _ _ _ Z) in H1. destruct (op_to_evict O s r) as [[t1 v1]|]; [|done]. cbn [rbind] in H1.
    injection H1 as <- ->. rewrite (rz_evict _ _ _ Z) in H5. destruct (op_evict O s r) as [t2|]; [|done]. cbn [rbind] in H5.
    injection H5 as <-. exists t1, v, t2. split_and!; try done.
    intros r'. destruct (H7 r') as (s3 & H8 & H9). rewrite (rz_evict _ _ _ Z) in H8.
    destruct (op_evict O t1 r') as [t3|]; [|done]. cbn [rbind] in H8. injection H8 as <-. by exists t3.
  - intros s t m a id Hok [HR Ha]. destruct (sim_remove _ _ _ _ _ _ HS _ _ _ _ id Hok HR) as (s' & Hf & HR').
    rewrite (rz_rem _ _ _ Z) in Hf. destruct (op_remove O s id) as [[s1 b]|]; [|done]. cbn [rbind] in Hf.
    injection Hf as <- ->. by exists s1.
Qed.

(** LRU and Clock do not read their size. *)
Definition c_resize (z : Z) (c : cache) : cache :=
  mkCache z (c_md c) (c_nreq c) (c_nobj c) (c_occ c) (c_tbl c) (c_adm c).
Definition q_resize (z : Z) (s : qstate) : qstate := mkQ (c_resize z (q_c s)) (q_q s).

Lemma lru_resizes cap : resizes lru_ops cap (q_resize cap).
Proof.
  constructor; try done; cbn.
  - intros s r. unfold lru_find, cache_find_base. destruct (c_tbl (q_c s) !! r_id r); cbn; destruct s; eauto.
  - intros s r u. unfold lru_find, cache_find_base. cbn. destruct (c_tbl (q_c s) !! r_id r); [|done]. by destruct u.
  - intros s r. unfold q_insert, cache_insert_base. cbn. by destruct (c_tbl (q_c s) !! r_id r).
  - intros s r. unfold q_evict_tail, cache_evict_base, cache_remove_obj_base. cbn. destruct (last (q_q s)); [|done].
    by destruct (c_tbl (q_c s) !! z).
  - intros s id. unfold q_remove, cache_remove_obj_base. cbn. by destruct (c_tbl (q_c s) !! id).
Qed.

Lemma clock_scan_resize z fuel : forall c q, clock_scan fuel (c_resize z c) q =
  (let! (c, q, v) := clock_scan fuel c q in Ok (c_resize z c, q, v)).
Proof.
  induction fuel as [|fuel IH]; intros c q; cbn [clock_scan]; (destruct (last q) as [v|]; [|done]); cbn [c_resize c_tbl].
  - destruct (c_tbl c !! v); [|done]. by destruct (decide _).
  - destruct (c_tbl c !! v); [|done]. destruct (decide _); [|done].
    rewrite <- IH. done.
Qed.
Lemma clock_scan_pure_resize z fuel : forall c rq cur n,
  clock_scan_pure fuel (c_resize z c) rq cur n = clock_scan_pure fuel c rq cur n.
Proof.
  induction fuel as [|fuel IH]; intros c rq cur n; [done|]. cbn [clock_scan_pure]. destruct cur as [|x cur].
  - destruct rq; [done|]. apply IH.
  - cbn [c_resize c_tbl]. destruct (c_tbl c !! x); [|done]. destruct (decide _); [apply IH|done].
Qed.

Lemma clock_resizes mf cap : resizes (clock_ops mf) cap (q_resize cap).
Proof.
  constructor; try done; cbn.
  - intros s r. unfold clock_find, cache_find_base. destruct (c_tbl (q_c s) !! r_id r); cbn; destruct s; eauto.
  - intros s r u. unfold clock_find, cache_find_base. cbn. destruct (c_tbl (q_c s) !! r_id r); [|done]. by destruct u.
  - intros s r. unfold clock_insert, cache_insert_base. cbn. by destruct (c_tbl (q_c s) !! r_id r).
  - intros s r. unfold clock_evict. cbn [q_c q_q q_resize]. change (clock_bound (c_resize cap (q_c s))) with (clock_bound (q_c s)).
    rewrite clock_scan_resize. destruct (clock_scan _ _ _) as [[[c q] v]|]; [|done]. cbn [rbind].
    unfold cache_evict_base, cache_remove_obj_base. cbn. by destruct (c_tbl c !! v).
  - intros s r. unfold clock_to_evict. cbn [q_c q_q q_resize]. change (clock_bound (c_resize cap (q_c s))) with (clock_bound (q_c s)).
    rewrite clock_scan_pure_resize. destruct (rev (q_q s)); [done|]. by destruct (clock_scan_pure _ _ _ _ _).
  - intros s id. unfold q_remove, cache_remove_obj_base. cbn. by destruct (c_tbl (q_c s) !! id).
Qed.

(** ** The ghost, an LRU. *)
Lemma lghost_get_spec G gsz g lg r : gok gsz g lg -> req_ok 0 r -> r_id r ∉ ids lg -> allG G lg ->
  G (r_id r) (r_size r) ->
  exists g' lg', lghost_get g r = Ok g' /\ gok gsz g' lg' /\ allG G lg' /\ (is_Some g' <-> is_Some g) /\
    (forall id, id ∈ ids lg' -> id = r_id r \/ id ∈ ids lg) /\
    (r_size r <= gsz -> is_Some g -> r_id r ∈ ids lg').
Proof.
  intros Hg Hr Hn HG HGr. unfold lghost_get. destruct g as [q|].
  - destruct Hg as [HQ Hb]. unfold sub_get. cbn [op_nobj lru_ops].
    destruct (lru_get_miss _ _ _ _ r _ (Z.le_refl 0) HQ Hr Hn (subget_fuel _ _ _ _ HQ)) as (q' & l' & -> & HQ' & Hcase).
    cbn [rbind]. eexists _, l'. split; [done|]. pose proof Hr as [? ?].
    destruct (decide (r_size r + 0 <= gsz)) as [Hfit|Hfit].
    + destruct Hcase as (l1 & Hf & ->). split_and!.
      * split; [done|]. rewrite bytes_cons. cbn [snd]. rewrite (o_size_of_req _ _ Hr (Z.le_refl 0)).
        destruct Hf as (l2 & _ & Hb2 & _). lia.
      * apply allG_cons; [|by eapply allG_fits]. cbn [fst snd]. by rewrite (o_size_of_req _ _ Hr (Z.le_refl 0)).
      * split; eauto.
      * intros id [->|Hid]%elem_of_cons; [by left|]. right. by apply (fits_ids _ _ _ _ _ Hf).
      * intros _ _. left.
    + subst l'. split; [by split|]. split; [done|]. split; [split; eauto|]. split; [by right|lia].
  - cbn in Hg. subst. eexists _, []. split; [done|]. split; [done|]. split; [done|]. split; [done|]. split; [by right|by intros _ [? ?]].
Qed.

Section L3.
  Context {M : Type} (pol : policy) (O : ops M) (R : M -> abs -> Prop).
  Context (G : Z -> Z -> Prop) (cap fsz gsz thr : Z) (pr : bool).
  Context (Hfsz : 0 <= fsz <= cap) (Hthr : 0 < thr).
  (** One size per id. *)
  Context (HGf : forall id z z', G id z -> G id z' -> z = z').
  Notation msz := (cap - fsz).
  Context (HS : simulation pol (sized O cap) cap 0 (req_ok 0) R).

  Record lok (H : Z -> Z) (s : l3 M) (lf lg : qlist) (t : Z) (m : gmap Z entry) : Prop := mkLok {
    lok_f   : qok fsz 0 (l_fifo s) lf;
    lok_g   : gok gsz (l_gq s) lg;
    lok_gs  : is_Some (l_gq s) <-> 0 < gsz;
    lok_m   : R (l_main s) (mkAbs t m AdmNone);
    lok_ok  : abs_ok cap 0 (mkAbs t m AdmNone);
    lok_sz  : l_size s = cap;
    lok_ms  : l_msz s = msz;
    lok_thr : l_thr s = thr;
    lok_pr  : l_pr s = pr;
    lok_fg  : disj lf lg;
    lok_fm  : apart lf m;
    lok_gm  : apart lg m;
    lok_cap : bytes 0 lf + msum 0 m <= cap;
    lok_Gf  : allG G lf;
    lok_Gg  : allG G lg;
    lok_Gm  : forall id e, m !! id = Some e -> G id (e_size e);
    lok_H   : allH H lf;
    lok_lt  : pr = true -> forall id, id ∈ ids lf -> H id < thr
  }.

  Lemma lok_bytes H s lf lg t m : lok H s lf lg t m -> 0 <= bytes 0 lf /\ 0 <= msum 0 m.
  Proof using All. intros []. split; [apply bytes_nonneg; [lia|apply lok_f0]|]. apply lok_ok0. Qed.

  (** An insertion in the main cache within the limit of the whole. *)
  Lemma main_insert ms t m r : R ms (mkAbs t m AdmNone) -> abs_ok cap 0 (mkAbs t m AdmNone) -> req_ok 0 r ->
    m !! r_id r = None -> msum 0 m + r_size r <= cap ->
    exists ms', op_insert O ms r = Ok ms' /\ R ms' (mkAbs (t + 1) (<[r_id r := fresh t r]> m) AdmNone) /\
      abs_ok cap 0 (mkAbs (t + 1) (<[r_id r := fresh t r]> m) AdmNone) /\
      msum 0 (<[r_id r := fresh t r]> m) = msum 0 m + r_size r /\ size (<[r_id r := fresh t r]> m) = S (size m).
  Proof using All.
    intros HR Hok Hr Hn Hfit.
    destruct (sim_insert _ _ _ _ _ _ HS _ _ _ _ r Hok HR Hn Hr ltac:(lia)) as (s' & He & HR').
    exists s'. split; [exact He|]. split; [done|].
    assert (Hm : msum 0 (<[r_id r := fresh t r]> m) = msum 0 m + r_size r) by (rewrite msum_insert by done; cbn; lia).
    split_and!; [|done|by apply map_size_insert_None].
    eapply abs_ok_fresh; try done. lia.
  Qed.

  Lemma lok_find_false H s lf lg t m r : lok H s lf lg t m ->
    l3_find O s r false = Ok (s, bool_decide (r_id r ∈ ids lf \/ is_Some (m !! r_id r))).
  Proof using All.
    intros []. unfold l3_find. rewrite (qok_find_false _ _ _ _ lok_f0). cbn [rbind].
    destruct (bool_decide (r_id r ∈ ids lf)) eqn:E.
    - apply bool_decide_eq_true in E. rewrite bool_decide_eq_true_2 by (by left). by destruct s.
    - apply bool_decide_eq_false in E. cbn [l3_set_fifo l_main].
      pose proof (sim_find_false _ _ _ _ _ _ HS _ _ r lok_m0) as Hx. cbn [op_find sized] in Hx. rewrite Hx. cbn [rbind a_m].
      destruct s. unfold l3_set_main. cbn. do 2 f_equal. apply bool_decide_ext. tauto.
  Qed.

  (** What a lookup with update does. *)
  Lemma lok_find_true H s lf lg t m r : lok H s lf lg t m -> req_ok 0 r -> G (r_id r) (r_size r) ->
    exists s' b lf' lg' t' m', l3_find O s r true = Ok (s', b) /\
      b = bool_decide (r_id r ∈ ids lf \/ is_Some (m !! r_id r)) /\
      lok (if b then bump H (r_id r) else H) s' lf' lg' t' m' /\
      (length lf' + size m' = length lf + size m)%nat /\
      (b = false -> lf' = lf /\ m' = m /\ lg' = l_del (r_id r) lg /\ l_hg s' = bool_decide (r_id r ∈ ids lg)) /\
      (b = true -> lg' = lg /\
         if decide (r_id r ∈ ids lf /\ pr = true /\ H (r_id r) + 1 >= thr) then
           (forall id, id ∈ ids lf' <-> id ∈ ids lf /\ id <> r_id r) /\
           (forall id, is_Some (m' !! id) <-> id = r_id r \/ is_Some (m !! id))
         else ids lf' = ids lf /\ forall id, is_Some (m' !! id) <-> is_Some (m !! id)).
  Proof using All.
    intros HD Hr HGr. pose proof (lok_bytes _ _ _ _ _ _ HD) as [Hb1 Hb2]. pose proof HD as []. unfold l3_find.
    cbn [l3_set_hg l_fifo].
    destruct (decide (r_id r ∈ ids lf)) as [Hf|Hf].
    - destruct (qok_find_hit _ _ _ _ lok_f0 r Hf) as (f' & -> & Hf'). cbn [rbind].
      pose proof (qok_q_upd _ _ _ _ (fun o => o_set_p1 o (o_p1 o + 1)) (r_id r) Hf' ltac:(done)) as Hf2.
      rewrite l_upd_upd in Hf2.
      set (fu := fun o => o_set_p1 (o_hit r o) (o_p1 (o_hit r o) + 1)) in *.
      assert (Hb : bytes 0 (l_upd fu (r_id r) lf) = bytes 0 lf) by (by apply bytes_upd).
      assert (Hi : ids (l_upd fu (r_id r) lf) = ids lf) by apply ids_upd.
      assert (HH : allH (bump H (r_id r)) (l_upd fu (r_id r) lf)) by (by apply allH_upd).
      assert (HG : allG G (l_upd fu (r_id r) lf)) by (by apply allG_upd).
      assert (Hl : length (l_upd fu (r_id r) lf) = length lf) by (unfold l_upd; by rewrite fmap_length).
      set (lf2 := l_upd fu (r_id r) lf) in *. clearbody lf2.
      assert (Hf3 : r_id r ∈ ids lf2) by (by rewrite Hi).
      apply ids_elem in Hf3 as (o & Ho). rewrite (proj2 (qok_lookup _ _ _ _ Hf2 _ _) Ho).
      assert (Hp : o_p1 o = H (r_id r) + 1).
      { unfold allH in HH. rewrite Forall_forall in HH. specialize (HH _ Ho). cbn in HH. rewrite HH.
        unfold bump. by rewrite decide_True. }
      assert (Hosz : o_size o = r_size r) by (eapply HGf; [exact (allG_elem _ _ _ _ HG Ho)|done]).
      rewrite Hp. cbn [l3_set_hg l_pr l_thr l_main]. rewrite lok_pr0, lok_thr0.
      destruct (decide (r_id r ∈ ids lf /\ pr = true /\ H (r_id r) + 1 >= thr)) as [(_ & Hpr & Hge)|Hno].
      + rewrite Hpr, bool_decide_eq_true_2 by done. cbn [andb].
        destruct (qok_remove_hit _ _ _ _ Hf2 (r_id r) (Z.le_refl 0)) as (f3 & -> & Hf3); [by rewrite Hi|]. cbn [rbind].
        assert (Hbd : bytes 0 (l_del (r_id r) lf2) = bytes 0 lf - r_size r).
        { rewrite (bytes_del 0 (r_id r) o) by (done || apply Hf2). lia. }
        assert (Hld : S (length (l_del (r_id r) lf2)) = length lf2) by (eapply length_del; [apply Hf2|done]).
        assert (Hnm : m !! r_id r = None) by (by apply lok_fm0).
        assert (0 <= bytes 0 (l_del (r_id r) lf2)) by (apply bytes_nonneg; [lia|apply Hf3]).
        destruct (main_insert _ _ _ r lok_m0 lok_ok0 Hr Hnm ltac:(lia)) as (ms & -> & HR' & Hok' & Hms & Hsz). cbn [rbind].
        eexists _, true, (l_del (r_id r) lf2), lg, _, (<[r_id r := fresh t r]> m). split; [done|]. rewrite bool_decide_eq_true_2 by (by left).
        split; [done|]. split; [|split; [lia|split; [done|]]].
        * split; cbn; try done.
          -- intros id. rewrite elem_ids_del, Hi. intros [? _]. by apply lok_fg0.
          -- intros id. rewrite elem_ids_del, Hi. intros [? ?]. rewrite lookup_insert_ne by done. by apply lok_fm0.
          -- intros id Hid. rewrite lookup_insert_ne; [by apply lok_gm0|]. intros <-. by apply (lok_fg0 (r_id r)).
          -- lia.
          -- by apply allG_del.
          -- intros id e. rewrite lookup_insert_Some. intros [[<- <-]|[_ ?]]; [done|eauto].
          -- by apply Forall_del.
          -- intros _ id. rewrite elem_ids_del, Hi. intros [? ?]. unfold bump. rewrite decide_False by done. by apply lok_lt0.
        * intros _. split; [done|]. rewrite <- Hi. split; intros id; [by rewrite elem_ids_del|].
          rewrite lookup_insert_is_Some'. naive_solver.
      + assert ((pr && bool_decide (H (r_id r) + 1 >= thr))%bool = false) as ->.
        { destruct pr; [|done]. cbn. apply bool_decide_eq_false_2. intros ?. by apply Hno. }
        eexists _, true, lf2, lg, t, m. split; [done|]. rewrite bool_decide_eq_true_2 by (by left).
        split; [done|]. split; [|split; [lia|split; [done|done]]].
        split; cbn; try done.
        * intros id. rewrite Hi. apply lok_fg0.
        * intros id. rewrite Hi. apply lok_fm0.
        * lia.
        * intros Hpr id. rewrite Hi. intros Hid. unfold bump. destruct (decide (id = r_id r)) as [->|]; [|by apply lok_lt0].
          destruct (decide (H (r_id r) + 1 >= thr)); [|lia]. exfalso. by apply Hno.
    - rewrite (qok_find_miss _ _ _ _ lok_f0 r true Hf). cbn [rbind l3_set_fifo l3_set_hg l_gq].
      destruct (ghost_remove_spec gsz (l_gq s) lg (r_id r) lok_g0) as (g' & -> & Hg' & Hgs'). cbn [rbind].
      set (s2 := if bool_decide (r_id r ∈ ids lg) then _ else _).
      assert (Hs2 : l_main s2 = l_main s /\ l_fifo s2 = l_fifo s /\ l_gq s2 = g' /\ l_size s2 = l_size s /\
        l_thr s2 = l_thr s /\ l_hg s2 = bool_decide (r_id r ∈ ids lg) /\ l_msz s2 = l_msz s /\ l_pr s2 = l_pr s).
      { unfold s2. by destruct (bool_decide _). }
      destruct Hs2 as (E1 & E2 & E3 & E4 & E5 & E6 & E7 & E8). clearbody s2. rewrite E1.
      destruct (m !! r_id r) as [e|] eqn:Em.
      + assert (Hng : r_id r ∉ ids lg). { intros Hx. by rewrite (lok_gm0 _ Hx) in Em. }
        destruct (sim_find_hit _ _ _ _ _ _ HS _ _ _ _ r e lok_ok0 lok_m0 Em) as (m' & Hx & HR').
        cbn [op_find sized] in Hx. rewrite Hx. cbn [rbind].
        rewrite bool_decide_eq_true_2 by (right; eauto).
        assert (Hsub : forall id, is_Some (<[r_id r:=touch t r e]> m !! id) <-> is_Some (m !! id)).
        { intros id. rewrite lookup_insert_is_Some'. naive_solver. }
        assert (Hsz : size (<[r_id r:=touch t r e]> m) = size m) by (apply map_size_insert_Some; eauto).
        assert (Hb : msum 0 (<[r_id r:=touch t r e]> m) = msum 0 m) by (by eapply msum_update).
        rewrite (l_del_notin _ _ Hng) in Hg'.
        eexists _, true, lf, lg, _, (<[r_id r:=touch t r e]> m). split; [done|]. split; [done|]. split; [|split; [lia|split; [done|]]].
        * split; cbn; rewrite ?E2, ?E3, ?E4, ?E5, ?E7, ?E8, ?Hgs'; try done.
          -- by apply abs_ok_touch.
          -- eapply apart_map; [|done]. intros id. by rewrite Hsub.
          -- eapply apart_map; [|done]. intros id. by rewrite Hsub.
          -- by rewrite Hb.
          -- intros id e'. rewrite lookup_insert_Some. intros [[<- <-]|[_ ?]]; [|eauto]. cbn. eauto.
          -- by apply allH_notin_bump.
          -- intros Hpr id Hid. unfold bump. rewrite decide_False by (by intros ->). by apply lok_lt0.
        * intros _. split; [done|]. rewrite decide_False by (by intros (? & _)). done.
      + destruct (sim_find_miss _ _ _ _ _ _ HS _ _ r lok_m0 Em) as (m' & Hx & HR').
        cbn [op_find sized] in Hx. rewrite Hx. cbn [rbind].
        rewrite bool_decide_eq_false_2 by (intros [?|[? ?]]; congruence).
        eexists _, false, lf, (l_del (r_id r) lg), t, m. split; [done|]. split; [done|]. split; [|split_and!; done].
        split; cbn; rewrite ?E2, ?E3, ?E4, ?E5, ?E7, ?E8, ?Hgs'; try done.
        * eapply disj_sub; [| |exact lok_fg0]; [done|apply del_sub].
        * eapply apart_sub; [|done]. apply del_sub.
        * by apply allG_del.
  Qed.

  (** The scan of the small queue: [K] moves to the main cache, then [E] leaves. *)
  Lemma l3_loop_spec H : forall lf f g lg ms t m fuel, (length lf <= fuel)%nat ->
    qok fsz 0 f lf -> gok gsz g lg -> R ms (mkAbs t m AdmNone) -> abs_ok cap 0 (mkAbs t m AdmNone) ->
    disj lf lg -> apart lf m -> apart lg m -> allG G lf -> allG G lg ->
    (forall id e, m !! id = Some e -> G id (e_size e)) -> allH H lf ->
    (pr = true -> forall id, id ∈ ids lf -> H id < thr) -> bytes 0 lf + msum 0 m <= cap ->
    exists f' g' ms' lf' lg' t' m' E K, l3_fifo_loop O fuel pr thr f g ms = Ok (f', g', ms') /\
      lf = lf' ++ E ++ K /\
      qok fsz 0 f' lf' /\ gok gsz g' lg' /\ (is_Some g' <-> is_Some g) /\ R ms' (mkAbs t' m' AdmNone) /\
      abs_ok cap 0 (mkAbs t' m' AdmNone) /\ disj lf' lg' /\ apart lf' m' /\ apart lg' m' /\ allG G lg' /\
      (forall id e, m' !! id = Some e -> G id (e_size e)) /\
      (forall id, id ∈ ids K -> pr = false /\ H id >= thr) /\
      (forall id, is_Some (m' !! id) <-> is_Some (m !! id) \/ id ∈ ids K) /\
      msum 0 m' = msum 0 m + bytes 0 K /\ size m' = (size m + length K)%nat /\
      match E with
      | [] => lg' = lg /\ bytes 0 lf' <= 0
      | [(v, o)] => H v < thr /\ (forall id, id ∈ ids lg' -> id = v \/ id ∈ ids lg) /\
                    (o_size o <= gsz -> is_Some g -> v ∈ ids lg')
      | _ => False
      end.
  Proof using All.
    intros lf. induction lf as [|[v o] lf IH] using rev_ind;
      intros f g lg ms t m fuel Hfu Hf Hg Hm Hok Dfg Dfm Dgm Gf Gg Gm HH Hlt Hcap.
    - assert (He : l3_fifo_loop O fuel pr thr f g ms = Ok (f, g, ms)).
      { destruct fuel; cbn [l3_fifo_loop]; unfold q_occ; rewrite (qok_occ _ _ _ _ Hf); done. }
      exists f, g, ms, [], lg, t, m, [], []. split; [done|]. split; [done|]. split; [done|]. split; [done|]. split; [done|].
      split_and!; try done; cbn; try lia; intros id; rewrite elem_of_nil; tauto.
    - rewrite app_length in Hfu. cbn in Hfu. destruct fuel as [|fuel]; [lia|]. cbn [l3_fifo_loop].
      unfold q_occ. rewrite (qok_occ _ _ _ _ Hf).
      destruct (decide (bytes 0 (lf ++ [(v, o)]) > 0)) as [Hpos|Hz].
      2:{ exists f, g, ms, (lf ++ [(v, o)]), lg, t, m, [], []. rewrite app_nil_r. split; [done|]. split; [done|].
          split; [done|]. split; [done|]. split; [done|].
          split_and!; try done; cbn; try lia; intros id; rewrite elem_of_nil; tauto. }
      destruct (qok_snoc_lookup _ _ _ _ _ _ Hf) as [-> ->].
      destruct (qok_snoc_remove _ _ _ _ _ _ (Z.le_refl 0) Hf) as (f1 & Hrm & Hf1).
      assert (Hin : (v, o) ∈ lf ++ [(v, o)]) by (apply elem_of_app; right; left).
      assert (Hvin : v ∈ ids (lf ++ [(v, o)])) by (apply ids_elem; eauto).
      pose proof (osz_elem _ _ _ _ _ Hf Hin) as Hosz.
      pose proof (NoDup_ids_mid lf v o [] (qok_nd _ _ _ _ Hf)) as (Hv & _).
      assert (Hvg : v ∉ ids lg) by (intros ?; by apply (Dfg v)).
      assert (Hvm : m !! v = None) by (by apply Dfm).
      assert (Hsub : forall id, id ∈ ids lf -> id ∈ ids (lf ++ [(v, o)])).
      { intros id ?. rewrite ids_app. apply elem_of_app. by left. }
      apply allG_app in Gf as [Gf Gv]. apply Forall_app in HH as [HH HHv].
      assert (Hp1 : o_p1 o = H v) by (by apply Forall_cons in HHv as [? _]).
      assert (HGv : G v (o_size o)) by (apply (allG_elem _ _ _ _ Gv); left).
      pose proof (req_of_obj_ok _ _ _ _ _ Hf Hin) as Hrok.
      assert (Hbb : bytes 0 (lf ++ [(v, o)]) = bytes 0 lf + o_size o).
      { rewrite bytes_app, bytes_cons. cbn. lia. }
      assert (0 <= bytes 0 lf) by (apply bytes_nonneg; [lia|apply Hf1]).
      rewrite Hp1. destruct (decide (pr = false /\ H v >= thr)) as [[Hpr Hge]|Hno].
      + rewrite Hpr, bool_decide_eq_true_2 by done. cbn [negb andb].
        destruct (main_insert _ _ _ (req_of_obj v o) Hm Hok Hrok Hvm) as (ms1 & -> & HR1 & Hok1 & Hms1 & Hsz1).
        { cbn. lia. }
        cbn [rbind]. rewrite Hrm. cbn [rbind].
        cbn [r_id r_size req_of_obj] in *.
        set (m1 := <[v:=fresh t (req_of_obj v o)]> m) in *.
        assert (Hm1 : forall id, is_Some (m1 !! id) <-> id = v \/ is_Some (m !! id)).
        { intros id. unfold m1. rewrite lookup_insert_is_Some'. naive_solver. }
        assert (Gm1 : forall id e, m1 !! id = Some e -> G id (e_size e)).
        { intros id e. unfold m1. rewrite lookup_insert_Some. intros [[<- <-]|[_ ?]]; [done|eauto]. }
        rewrite Hpr in IH.
        destruct (IH f1 g lg ms1 (t + 1) m1 fuel) as
          (f' & g' & ms' & lf' & lg' & t' & m' & E & K & He & Hd & H1 & H2 & H3 & H4 & H5 & H6 & H7 & H8 & H9 & H10 & H11 & H12 & H13 & H14 & H15);
          try done.
        * lia.
        * eapply disj_sub; [exact Hsub|done|exact Dfg].
        * intros id Hi1. apply eq_None_not_Some. rewrite Hm1. intros [->|Hx]; [done|].
          rewrite (Dfm id (Hsub _ Hi1)) in Hx. by apply is_Some_None in Hx.
        * intros id Hi1. apply eq_None_not_Some. rewrite Hm1. intros [->|Hx]; [done|].
          rewrite (Dgm id Hi1) in Hx. by apply is_Some_None in Hx.
        * lia.
        * exists f', g', ms', lf', lg', t', m', E, (K ++ [(v, o)]). split; [done|].
          split; [by rewrite Hd, <- !app_assoc|]. rewrite ids_app. cbn [ids fmap list_fmap fst].
          split; [done|]. split; [done|]. split; [done|]. split; [done|]. split; [done|]. split; [done|]. split; [done|].
          split; [done|]. split; [done|]. split; [done|]. split.
          { intros id [Hid|Hid]%elem_of_app; [by apply H11|]. apply elem_of_list_singleton in Hid as ->. by split. }
          split.
          { intros id. rewrite H12, Hm1, elem_of_app, elem_of_list_singleton. tauto. }
          split; [rewrite H13, Hms1, bytes_app, bytes_cons; cbn; lia|].
          split; [rewrite H14, Hsz1, app_length; cbn; lia|done].
      + assert ((negb pr && bool_decide (H v >= thr))%bool = false) as ->.
        { destruct pr; [done|]. cbn. apply bool_decide_eq_false_2. intros ?. by apply Hno. }
        destruct (lghost_get_spec G gsz g lg (req_of_obj v o) Hg Hrok Hvg Gg HGv) as (g' & lg' & -> & Hg' & Gg' & Hgs & Hlg & Hlg2).
        cbn [rbind]. rewrite Hrm. cbn [rbind]. cbn [r_id r_size req_of_obj] in *.
        exists f1, g', ms, lf, lg', t, m, [(v, o)], []. split; [done|]. split; [done|].
        split; [done|]. split; [done|]. split; [done|]. split; [done|]. split; [done|]. split.
        { intros id Hi1 [->|Hi2]%Hlg; [done|]. by apply (Dfg id); [apply Hsub|]. }
        split; [by eapply apart_sub|]. split.
        { intros id [->|Hi2]%Hlg; [done|]. by apply Dgm. }
        split; [done|]. split; [done|]. split; [intros id ?%elem_of_nil; done|].
        split; [intros id; cbn; rewrite elem_of_nil; tauto|]. split; [cbn; lia|]. split; [cbn; lia|].
        split; [|done]. destruct (decide (H v < thr)) as [|Hx]; [done|]. destruct pr; [by apply Hlt|].
        exfalso. apply Hno. split; [done|lia].
  Qed.

  (** One eviction. *)
  Lemma lok_evict H s lf lg t m r : lok H s lf lg t m -> bytes 0 lf + msum 0 m > 0 ->
    exists s' lf' lg' t' m', l3_evict O s r = Ok s' /\ lok H s' lf' lg' t' m' /\ l_hg s' = l_hg s /\
      bytes 0 lf' + msum 0 m' <= bytes 0 lf + msum 0 m /\
      if decide (msum 0 m > msz \/ bytes 0 lf = 0) then
        lf' = lf /\ lg' = lg /\ exists v, is_Some (m !! v) /\ pol m v /\ m' = delete v m
      else exists E K, lf = lf' ++ E ++ K /\ E ++ K <> [] /\
        (forall id, id ∈ ids K -> pr = false /\ H id >= thr) /\
        (forall id, is_Some (m' !! id) <-> is_Some (m !! id) \/ id ∈ ids K) /\
        size m' = (size m + length K)%nat /\
        match E with
        | [] => lg' = lg /\ bytes 0 lf' = 0
        | [(v, o)] => H v < thr /\ (forall id, id ∈ ids lg' -> id = v \/ id ∈ ids lg) /\
                      (0 < gsz -> o_size o <= gsz -> v ∈ ids lg')
        | _ => False
        end.
  Proof using All.
    intros HD Hpos. pose proof (lok_bytes _ _ _ _ _ _ HD) as [Hb1 Hb2]. pose proof HD as [].
    unfold l3_evict. assert (q_occ (l_fifo s) = bytes 0 lf) as -> by apply lok_f0.
    pose proof (sim_occ _ _ _ _ _ _ HS _ _ lok_m0) as Hocc. cbn [op_occupied sized a_m] in Hocc. rewrite Hocc, lok_ms0.
    destruct (decide (msum 0 m > msz \/ bytes 0 lf = 0)) as [Hz|Hnz].
    - assert (m <> ∅) as Hne. { intros ->. rewrite msum_empty in *. lia. }
      destruct (sim_evict _ _ _ _ _ _ HS _ _ _ _ r lok_ok0 lok_m0 Hne) as (_ & v & s2 & _ & _ & Hv & Hp & Hx & HR2 & _).
      cbn [op_evict sized] in Hx. rewrite Hx.
      cbn [rbind]. destruct Hv as [e Hv].
      pose proof (msum_delete 0 m v e Hv) as Hm.
      assert (0 <= e_size e) by (destruct lok_ok0 as (_ & Hy & _); specialize (Hy _ _ Hv); lia).
      assert (Hsub : forall id, is_Some (delete v m !! id) -> is_Some (m !! id)).
      { intros id. rewrite lookup_delete_is_Some. tauto. }
      eexists _, lf, lg, t, (delete v m). split; [done|]. split; [|split; [done|split; [lia|]]].
      + split; cbn; try done.
        * by apply abs_ok_delete.
        * by eapply apart_map.
        * by eapply apart_map.
        * lia.
        * intros id e'. rewrite lookup_delete_Some. intros [_ ?]. eauto.
      + split; [done|]. split; [done|]. exists v. split; [eauto|done].
    - assert (length (q_q (l_fifo s)) = length lf) as ->.
      { rewrite (qok_q _ _ _ _ lok_f0). unfold ids. by rewrite fmap_length. }
      rewrite lok_pr0, lok_thr0.
      destruct (l3_loop_spec H lf (l_fifo s) (l_gq s) lg (l_main s) t m (length lf)) as
        (f' & g' & ms' & lf' & lg' & t' & m' & E & K & -> & Hd & H1 & H2 & H3 & H4 & H5 & H6 & H7 & H8 & H9 & H10 & H11 & H12 & H13 & H14 & H15);
        try done.
      cbn [rbind]. assert (HE : 0 <= bytes 0 E /\ 0 <= bytes 0 K).
      { pose proof (qok_osz _ _ _ _ lok_f0) as Hx. rewrite Hd in Hx. apply Forall_app in Hx as [_ Hx].
        apply Forall_app in Hx as [Hx1 Hx2]. split; apply bytes_nonneg; (done || lia). }
      assert (Hbs : bytes 0 lf = bytes 0 lf' + bytes 0 E + bytes 0 K) by (rewrite Hd, !bytes_app; lia).
      assert (0 <= bytes 0 lf') by (apply bytes_nonneg; [lia|apply H1]).
      exists (l3_set_main (l3_set_gq (l3_set_fifo s f') g') ms'), lf', lg', t', m'. split; [done|].
      split; [|split; [done|split; [lia|]]].
      + split; cbn; try done.
        * by rewrite H3.
        * lia.
        * rewrite Hd in lok_Gf0. by apply allG_app in lok_Gf0 as [? _].
        * rewrite Hd in lok_H0. by apply Forall_app in lok_H0 as [? _].
        * intros Hpr id Hid. apply lok_lt0; [done|]. rewrite Hd, ids_app. apply elem_of_app. by left.
      + exists E, K. split; [done|]. split; [|split; [done|split; [done|split; [done|]]]].
        * intros Hx. rewrite Hx, app_nil_r in Hd. apply app_eq_nil in Hx as [-> ->]. destruct H15 as [_ H15]. subst lf'. lia.
        * destruct E as [|[v o] [|? ?]]; [destruct H15; split; [done|lia]| |done].
          destruct H15 as (? & ? & Hx). split_and!; try done. intros ? ?. apply Hx; [done|]. by apply lok_gs0.
  Qed.

  (** What matters of an eviction for the loop of get. *)
  Lemma lok_evict_w H s lf lg t m r : lok H s lf lg t m -> bytes 0 lf + msum 0 m > 0 ->
    exists s' lf' lg' t' m', l3_evict O s r = Ok s' /\ lok H s' lf' lg' t' m' /\ l_hg s' = l_hg s /\
      (exists d, lf = lf' ++ d) /\
      (forall id, is_Some (m' !! id) -> is_Some (m !! id) \/ (id ∈ ids lf /\ pr = false /\ H id >= thr)) /\
      (forall id, id ∈ ids lg' -> id ∈ ids lg \/ (id ∈ ids lf /\ H id < thr)) /\
      bytes 0 lf' + msum 0 m' <= bytes 0 lf + msum 0 m /\
      (length lf' + size m' <= length lf + size m)%nat /\
      (2 * length lf' + size m' < 2 * length lf + size m)%nat.
  Proof using All.
    intros HD Hpos. destruct (lok_evict H s lf lg t m r HD Hpos) as (s' & lf' & lg' & t' & m' & He & HD' & Hg & Hb & Hc).
    exists s', lf', lg', t', m'. split; [done|]. split; [done|]. split; [done|].
    destruct (decide (msum 0 m > msz \/ bytes 0 lf = 0)).
    - destruct Hc as (-> & -> & v & Hv & _ & ->).
      assert (size m <> 0)%nat. { destruct Hv as [e0 Hv]. apply map_size_non_empty_iff. intros ->. by rewrite lookup_empty in Hv. }
      rewrite map_size_delete_Some by done.
      split_and!; try done; try lia.
      + exists []. by rewrite app_nil_r.
      + intros id. rewrite lookup_delete_is_Some. intros [_ ?]. by left.
      + intros; by left.
    - destruct Hc as (E & K & -> & Hne & HK & Hm & Hs & HE). rewrite !app_length.
      assert (length E + length K <> 0)%nat. { rewrite <- app_length. intros Hx%nil_length_inv. done. }
      split; [by eexists|]. split_and!; try lia; rewrite ?ids_app.
      + intros id [?|Hid]%Hm; [by left|]. right. split; [|by apply HK]. rewrite !elem_of_app. tauto.
      + intros id Hid. destruct E as [|[v o] [|? ?]]; [destruct HE as [-> _]; by left| |done].
        destruct HE as (H1 & H2 & _). apply H2 in Hid as [->|?]; [|by left]. right. split; [|done].
        rewrite elem_of_app. right. rewrite elem_of_app. left. left.
  Qed.

  Lemma lok_loop H r : 0 <= r_size r <= fsz -> forall n s lf lg t m fuel,
    (2 * length lf + size m <= n)%nat -> (n <= fuel)%nat -> lok H s lf lg t m ->
    exists s' lf' lg' t' m', evict_loop (l3_ops O) fuel s r = Ok s' /\ lok H s' lf' lg' t' m' /\ l_hg s' = l_hg s /\
      bytes 0 lf' + msum 0 m' + r_size r <= cap /\
      (exists d, lf = lf' ++ d) /\
      (forall id, is_Some (m' !! id) -> is_Some (m !! id) \/ (id ∈ ids lf /\ pr = false /\ H id >= thr)) /\
      (forall id, id ∈ ids lg' -> id ∈ ids lg \/ (id ∈ ids lf /\ H id < thr)) /\
      (length lf' + size m' <= length lf + size m)%nat /\
      (bytes 0 lf + msum 0 m + r_size r <= cap -> lf' = lf /\ m' = m /\ lg' = lg).
  Proof using All.
    intros Hr n. induction n as [|n IH]; intros s lf lg t m fuel Hn Hfu HD.
    all: assert (Hocc : op_occupied (l3_ops O) s + r_size r + op_md (l3_ops O) s = bytes 0 lf + msum 0 m + r_size r
                     /\ op_size (l3_ops O) s = cap).
    1,3: pose proof HD as []; pose proof (sim_occ _ _ _ _ _ _ HS _ _ lok_m0) as Hx; cbn [op_occupied sized a_m] in Hx; cbn;
         unfold q_occ; rewrite (qok_occ _ _ _ _ lok_f0), Hx; cbn; split; [lia|done].
    all: destruct Hocc as [Hocc Hsz].
    all: pose proof (lok_bytes _ _ _ _ _ _ HD) as [Hb1 Hb2].
    - assert (lf = [] /\ m = ∅) as [-> ->].
      { split; [destruct lf; [done|cbn in Hn; lia]|apply map_size_empty_inv; lia]. }
      exists s, [], lg, t, ∅. change (bytes 0 []) with 0 in *. rewrite msum_empty in *.
      assert (evict_loop (l3_ops O) fuel s r = Ok s) as -> by (destruct fuel; cbn [evict_loop]; by rewrite decide_False by lia).
      split; [done|]. split; [done|]. split; [done|]. split; [lia|]. split; [by exists []|]. split; [intros; by left|].
      split; [intros; by left|]. split; [lia|done].
    - destruct fuel as [|fuel]; [lia|]. cbn [evict_loop]. destruct (decide _) as [Hgt|Hnot].
      + cbn [op_evict l3_ops].
        destruct (lok_evict_w H s lf lg t m r HD ltac:(lia)) as
          (s1 & lf1 & lg1 & t1 & m1 & -> & HS1 & Hg1 & (d1 & Hd1) & Hm1 & Hlg1 & Hbb & Hl1 & Hdec).
        cbn [rbind].
        destruct (IH s1 lf1 lg1 t1 m1 fuel ltac:(lia) ltac:(lia) HS1) as
          (s' & lf' & lg' & t' & m' & -> & HS' & Hg' & Hc & (d & Hd) & Hm' & Hlg' & Hl' & _).
        assert (Hsub : forall id, id ∈ ids lf1 -> id ∈ ids lf).
        { intros id Hid. rewrite Hd1, ids_app. apply elem_of_app. by left. }
        exists s', lf', lg', t', m'. split; [done|]. split; [done|]. split; [congruence|]. split; [done|]. split.
        { exists (d ++ d1). by rewrite app_assoc, <- Hd. }
        split.
        { intros id Hid. apply Hm' in Hid as [Hid|[Hid ?]]; [by apply Hm1|]. right. split; [by apply Hsub|done]. }
        split.
        { intros id Hid. apply Hlg' in Hid as [Hid|[Hid ?]]; [by apply Hlg1|]. right. split; [by apply Hsub|done]. }
        split; lia.
      + exists s, lf, lg, t, m. split; [done|]. split; [done|]. split; [done|]. split; [lia|].
        split; [exists []; by rewrite app_nil_r|]. split; [intros; by left|]. split; [intros; by left|]. split; [lia|done].
  Qed.

  Lemma lok_insert H s lf lg t m r : lok H s lf lg t m -> req_ok 0 r -> G (r_id r) (r_size r) ->
    r_size r <= fsz -> r_id r ∉ ids lf -> r_id r ∉ ids lg -> m !! r_id r = None ->
    bytes 0 lf + msum 0 m + r_size r <= cap ->
    exists s' lf' t' m' o', l3_insert O s r = Ok s' /\ lok (zero_at H (r_id r)) s' lf' lg t' m' /\
      (if l_hg s then lf' = lf /\ m' = <[r_id r := fresh t r]> m
       else m' = m /\ lf' = (r_id r, o') :: lf).
  Proof using All.
    intros HD Hr HGr Hsz Hf Hg Hm Hc. pose proof (lok_bytes _ _ _ _ _ _ HD) as [Hb1 Hb2]. destruct HD.
    pose proof Hr as [Hr1 Hr2]. unfold l3_insert.
    pose proof (o_size_of_req _ _ Hr (Z.le_refl 0)) as Hos.
    assert (Hlt : pr = true -> forall id, id ∈ ids lf -> zero_at H (r_id r) id < thr).
    { intros Hpr id Hid. unfold zero_at. destruct (decide (id = r_id r)); [done|]. by apply lok_lt0. }
    destruct (l_hg s).
    - cbn [l3_set_hg l_main].
      destruct (main_insert _ _ _ r lok_m0 lok_ok0 Hr Hm ltac:(lia)) as (ms & -> & HR' & Hok' & Hms & Hs').
      cbn [rbind]. eexists _, lf, _, _, (obj_of_req r). split; [done|]. split; [|done].
      split; cbn; try done.
      + intros id Hid. rewrite lookup_insert_ne by (intros Hx; by rewrite Hx in *). by apply lok_fm0.
      + intros id Hid. rewrite lookup_insert_ne by (intros Hx; by rewrite Hx in *). by apply lok_gm0.
      + lia.
      + intros id e. rewrite lookup_insert_Some. intros [[<- <-]|[_ He]]; [done|eauto].
      + by apply allH_notin_zero.
    - unfold q_size. rewrite (qok_size _ _ _ _ lok_f0). rewrite decide_False by lia.
      destruct (qok_insert _ _ _ _ lok_f0 r Hf Hr (Z.le_refl 0)) as (f & -> & Hf'). cbn [rbind].
      pose proof (qok_q_upd _ _ _ _ (fun o => o_set_p1 o 0) (r_id r) Hf' ltac:(done)) as Hf2.
      rewrite l_upd_head in Hf2 by done. set (o' := o_set_p1 (obj_of_req r) 0) in *.
      assert (Ho' : o_size o' = r_size r) by exact Hos.
      assert (Hp : o_p1 o' = 0) by done. clearbody o'.
      eexists _, _, _, m, o'. split; [done|]. split; [|by split].
      split; cbn [l3_set_fifo l_fifo l_gq l_main l_size l_thr l_pr l_msz]; try done.
      * intros id [->|H2]%elem_of_cons H1; [done|]. by apply (lok_fg0 id).
      * intros id [->|H2]%elem_of_cons; [done|]. by apply (lok_fm0 id).
      * rewrite bytes_cons. cbn [snd]. lia.
      * apply allG_cons; [|done]. cbn [fst snd]. by rewrite Ho'.
      * apply Forall_cons. split; [|by apply allH_notin_zero]. cbn. unfold zero_at. by rewrite decide_True.
      * intros Hpr id [->|H2]%elem_of_cons; [|by apply Hlt]. cbn. unfold zero_at. rewrite decide_True by done. lia.
  Qed.

  Lemma lok_remove H s lf lg t m id : lok H s lf lg t m ->
    exists s', l3_remove O s id = Ok (s', bool_decide (id ∈ ids lf \/ id ∈ ids lg \/ is_Some (m !! id))) /\
      lok H s' (l_del id lf) (l_del id lg) t (delete id m).
  Proof using All.
    intros HD. pose proof (lok_bytes _ _ _ _ _ _ HD) as [Hb1 Hb2]. destruct HD. unfold l3_remove.
    assert (HC : forall s', qok fsz 0 (l_fifo s') (l_del id lf) -> gok gsz (l_gq s') (l_del id lg) ->
       (is_Some (l_gq s') <-> is_Some (l_gq s)) ->
       R (l_main s') (mkAbs t (delete id m) AdmNone) -> l_size s' = cap -> l_thr s' = thr -> l_msz s' = msz -> l_pr s' = pr ->
       lok H s' (l_del id lf) (l_del id lg) t (delete id m)).
    { intros s' H1 H2 H2' H3 H4 H5 H6 H7.
      pose proof (bytes_del_le _ _ _ _ id (Z.le_refl 0) lok_f0).
      assert (msum 0 (delete id m) <= msum 0 m).
      { destruct (m !! id) as [e|] eqn:E; [|by rewrite delete_notin]. rewrite (msum_delete _ _ _ _ E).
        destruct lok_ok0 as (_ & Hx & _). specialize (Hx _ _ E). lia. }
      split; try done; try lia; try (by apply allG_del); try (by apply Forall_del).
      - by rewrite H2'.
      - by apply abs_ok_delete.
      - eapply disj_sub; [apply del_sub|apply del_sub|done].
      - eapply apart_sub; [apply del_sub|]. eapply apart_map; [|done]. intros j. rewrite lookup_delete_is_Some. tauto.
      - eapply apart_sub; [apply del_sub|]. eapply apart_map; [|done]. intros j. rewrite lookup_delete_is_Some. tauto.
      - intros j e. rewrite lookup_delete_Some. intros [_ ?]. eauto.
      - intros Hpr j. rewrite elem_ids_del. intros [? _]. by apply lok_lt0. }
    destruct (decide (id ∈ ids lf)) as [Hi|Hi].
    { destruct (qok_remove_hit _ _ _ _ lok_f0 id ltac:(lia) Hi) as (i & -> & Hi'). cbn [rbind].
      rewrite bool_decide_eq_true_2 by (by left). eexists. split; [done|].
      apply HC; cbn; try done.
      - rewrite l_del_notin; [done|]. intros ?. by apply (lok_fg0 id).
      - rewrite delete_notin; [done|]. by apply lok_fm0. }
    rewrite (qok_remove_miss _ _ _ _ lok_f0 _ Hi). cbn [rbind l3_set_fifo l_gq].
    destruct (ghost_remove_spec _ _ _ id lok_g0) as (g' & -> & Hg' & Hgs). cbn [rbind].
    destruct (decide (id ∈ ids lg)) as [Ho|Ho].
    { rewrite bool_decide_eq_true_2 by done.
      rewrite bool_decide_eq_true_2 by (by right; left). eexists. split; [done|].
      apply HC; cbn; try done.
      - by rewrite l_del_notin.
      - rewrite delete_notin; [done|]. by apply lok_gm0. }
    rewrite bool_decide_eq_false_2 by done. cbn [l3_set_fifo l3_set_gq l_main].
    destruct (sim_remove _ _ _ _ _ _ HS _ _ _ _ id lok_ok0 lok_m0) as (ms & Hx & HR').
    cbn [op_remove sized] in Hx. rewrite Hx. cbn [rbind].
    assert (bool_decide (is_Some (m !! id)) = bool_decide (id ∈ ids lf \/ id ∈ ids lg \/ is_Some (m !! id))) as ->
      by (apply bool_decide_ext; tauto).
    eexists. split; [done|]. apply HC; cbn; try done; by rewrite l_del_notin.
  Qed.

  Lemma lok_get H s lf lg t m r fuel : lok H s lf lg t m -> req_ok 0 r -> G (r_id r) (r_size r) ->
    (2 * length lf + size m <= fuel)%nat ->
    let h := bool_decide (r_id r ∈ ids lf \/ is_Some (m !! r_id r)) in
    exists s' lf' lg' t' m', cache_get_base (l3_ops O) fuel s r = Ok (s', h) /\
      lok (if h then bump H (r_id r) else zero_at H (r_id r)) s' lf' lg' t' m' /\
      (length lf' + size m' <= length lf + size m + 1)%nat /\
      (h = true -> lg' = lg /\
         if decide (r_id r ∈ ids lf /\ pr = true /\ H (r_id r) + 1 >= thr) then
           (forall id, id ∈ ids lf' <-> id ∈ ids lf /\ id <> r_id r) /\
           (forall id, is_Some (m' !! id) <-> id = r_id r \/ is_Some (m !! id))
         else ids lf' = ids lf /\ forall id, is_Some (m' !! id) <-> is_Some (m !! id)) /\
      (h = false -> fsz < r_size r -> lf' = lf /\ m' = m /\ lg' = l_del (r_id r) lg) /\
      (h = false -> r_size r <= fsz ->
         r_id r ∉ ids lg' /\
         (forall id, id ∈ ids lf' -> id = r_id r \/ id ∈ ids lf) /\
         (forall id, is_Some (m' !! id) -> is_Some (m !! id) \/ (id ∈ ids lf /\ pr = false /\ H id >= thr) \/ (id = r_id r /\ id ∈ ids lg)) /\
         (forall id, id ∈ ids lg' -> id ∈ ids lg \/ (id ∈ ids lf /\ H id < thr)) /\
         (r_id r ∈ ids lg -> is_Some (m' !! r_id r)) /\
         (r_id r ∉ ids lg -> r_id r ∈ ids lf') /\
         (bytes 0 lf + msum 0 m + r_size r <= cap ->
            (forall id, id ∈ ids lf -> id ∈ ids lf') /\ (forall id, is_Some (m !! id) -> is_Some (m' !! id)))).
  Proof using All.
    intros HD Hr HGr Hfu h. subst h. unfold cache_get_base. pose proof Hr as [Hr1 Hr2].
    assert (HT : lok H (op_tick (l3_ops O) s) lf lg t m) by (destruct HD; by split).
    cbn [op_find l3_ops].
    destruct (lok_find_true _ _ _ _ _ _ r HT Hr HGr) as (s1 & b & lf1 & lg1 & t1 & m1 & -> & -> & H1 & Hlen & HF & HTr).
    cbn [rbind]. destruct (bool_decide (r_id r ∈ ids lf \/ is_Some (m !! r_id r))) eqn:Eb.
    - exists s1, lf1, lg1, t1, m1. split; [done|]. split; [done|]. split; [lia|]. split; [done|]. by split.
    - apply bool_decide_eq_false in Eb. destruct (HF eq_refl) as (-> & -> & -> & Hg).
      cbn [op_can_insert l3_ops]. unfold l3_can_insert.
      assert (Hq : q_size (l_fifo s1) = fsz) by (apply H1). rewrite Hq.
      cbn [rbind].
      assert (Hi : r_id r ∉ ids lf) by tauto.
      assert (Hm : m !! r_id r = None) by (apply eq_None_not_Some; tauto).
      destruct (bool_decide (r_size r <= fsz)) eqn:Es.
      + apply bool_decide_eq_true in Es.
        assert (Ho : r_id r ∉ ids (l_del (r_id r) lg)) by (rewrite elem_ids_del; tauto).
        destruct (lok_loop H r ltac:(lia) _ s1 lf _ t1 m fuel (le_n _) Hfu H1)
          as (s2 & lf2 & lg2 & t2 & m2 & -> & H2 & Hg2 & Hc & (d & Hd) & Hm2 & Hlg2 & Hl2 & Hroom).
        cbn [rbind op_insert l3_ops].
        assert (Hsub : forall id, id ∈ ids lf2 -> id ∈ ids lf).
        { intros id Hid. rewrite Hd, ids_app. apply elem_of_app. by left. }
        assert (Hi2 : r_id r ∉ ids lf2) by (intros ?; by apply Hi, Hsub).
        assert (Hm2' : m2 !! r_id r = None).
        { apply eq_None_not_Some. intros [Hx|[? ?]]%Hm2; [|done]. rewrite Hm in Hx. by apply is_Some_None in Hx. }
        assert (Ho2 : r_id r ∉ ids lg2) by (intros [?|[? ?]]%Hlg2; done).
        destruct (lok_insert H s2 lf2 lg2 t2 m2 r H2 Hr HGr Es Hi2 Ho2 Hm2' Hc) as (s3 & lf3 & t3 & m3 & o' & -> & H3 & Hcase).
        cbn [rbind]. rewrite Hg2, Hg in Hcase.
        exists s3, lf3, lg2, t3, m3. split; [done|]. split; [done|].
        assert (Hlg : forall id, id ∈ ids lg2 -> id ∈ ids lg \/ (id ∈ ids lf /\ H id < thr)).
        { intros id Hid. apply Hlg2 in Hid as [Hid|?]; [|by right]. left. by apply elem_ids_del in Hid as [? _]. }
        destruct (decide (r_id r ∈ ids lg)) as [Hgh|Hgh].
        * rewrite bool_decide_eq_true_2 in Hcase by done. destruct Hcase as [-> ->].
          rewrite map_size_insert_None by done.
          split; [lia|]. split; [done|]. split; [intros _ ?; lia|].
          intros _ _. split; [done|]. split; [intros id Hid; right; by apply Hsub|]. split.
          { intros id. rewrite lookup_insert_is_Some'. intros [<-|Hx]; [right; right; by split|].
            destruct (Hm2 id Hx) as [?|?]; [by left|right; by left]. }
          split; [done|]. split; [intros _; rewrite lookup_insert; eauto|]. split; [done|].
          intros Hr'. destruct (Hroom Hr') as (-> & -> & _). split; [done|].
          intros id Hid. rewrite lookup_insert_is_Some'. by right.
        * rewrite bool_decide_eq_false_2 in Hcase by done. destruct Hcase as [-> ->].
          split; [cbn [length]; lia|]. split; [done|]. split; [intros _ ?; lia|].
          intros _ _. split; [done|]. split; [intros id [->|Hid]%elem_of_cons; [by left|]; right; by apply Hsub|]. split.
          { intros id Hid. apply Hm2 in Hid as [?|?]; [by left|right; by left]. }
          split; [done|]. split; [done|]. split; [intros _; left|].
          intros Hr'. destruct (Hroom Hr') as (-> & -> & _). split; [|done].
          intros id Hid. by right.
      + apply bool_decide_eq_false in Es. exists s1, lf, (l_del (r_id r) lg), t1, m. split; [done|].
        split; [|split; [lia|split; [done|split; [done|]]]].
        * destruct H1. split; try done; [by apply allH_notin_zero|].
          intros Hpr id Hid. unfold zero_at. destruct (decide (id = r_id r)); [done|]. by apply lok_lt0.
        * intros _ ?. lia.
  Qed.

  Lemma lok_init main0 : R main0 (abs_init AdmNone) -> lok (fun _ => 0) (l3_init cap fsz gsz 0 thr pr main0) [] [] 0 ∅.
  Proof using All.
    intros HR. split; cbn; try done; try lia; try (intros ? ? ?; by eapply elem_of_nil); try (by apply Forall_nil_2).
    - apply qok_init.
    - unfold gok. destruct (decide _); [|done]. split; [apply qok_init|cbn; lia].
    - destruct (decide _); split; try lia; try eauto. by intros ?%is_Some_None.
    - apply (abs_init_ok _ _ AdmNone); lia.
    - rewrite msum_empty. lia.
  Qed.
End L3.
