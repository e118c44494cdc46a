(** FIFO_Belady and LRU_Belady against the abstract cache. *)
From stdpp Require Import gmap list numbers fin_maps.
From Verif Require Import Base Driver Abs AbsFacts Sim SpecApi ModelQueue QueueFacts PSim SimMoreQ ModelBeladyX SpecBeladyX.
Open Scope Z_scope.

Lemma msum_filter_le md (P : Z * entry -> Prop) `{forall x, Decision (P x)} (m : gmap Z entry) :
  0 <= md -> (forall i e, m !! i = Some e -> 0 <= e_size e) -> msum md (filter P m) <= msum md m.
Proof.
  intros Hmd. induction m as [|i e m Hi IH] using map_ind; intros Hs.
  - rewrite map_filter_empty. lia.
  - assert (IH' : msum md (filter P m) <= msum md m).
    { apply IH. intros j e' Hj. apply (Hs j). rewrite lookup_insert_ne; [done|]. intros ->. congruence. }
    pose proof (Hs i e) as He. rewrite lookup_insert in He. specialize (He eq_refl).
    rewrite msum_insert by done.
    destruct (decide (P (i, e))) as [Hp|Hp].
    + rewrite map_filter_insert_True by done. rewrite msum_insert; [lia|].
      apply map_filter_lookup_None. by left.
    + rewrite map_filter_insert_not' ; [lia|done|]. intros y Hy. congruence.
Qed.

Section XB.
  Context (thresh : Z -> Z -> Z -> Z) (lru : bool) (cap md : Z).
  Local Notation O := (xb_ops thresh lru).

  Definition xbrel (n nm : Z) (s : xbstate) (a : abs) : Prop :=
    brel cap md (xb_c s) a /\ qdom (xb_q s) (a_m a) /\ c_nreq (xb_c s) = n /\ xb_miss s = nm.

  Lemma xb_keep_spec n nm s a id o e : xbrel n nm s a -> c_tbl (xb_c s) !! id = Some o ->
    a_m a !! id = Some e -> xb_keep thresh (xb_c s) (xb_miss s) (o_next o) = bool_decide (stays thresh cap n nm e).
  Proof.
    intros (H1 & _ & <- & <-) Ho He. destruct (brel_some _ _ _ _ _ _ H1 He) as (o' & Ho' & _ & Hn & _).
    rewrite Ho in Ho'. injection Ho' as <-. unfold xb_keep, stays. rewrite Hn, (br_size _ _ _ _ H1).
    by apply bool_decide_ext.
  Qed.

  (** One call of evict. *)
  Lemma xbrel_evict n nm s t m a r v q : abs_ok cap md (mkAbs t m a) -> xbrel n nm s (mkAbs t m a) ->
    xb_q s = q ++ [v] ->
    exists e s', m !! v = Some e /\ xb_evict thresh s r = Ok s' /\
      if decide (stays thresh cap n nm e)
      then xbrel n nm s' (mkAbs t m a) /\ xb_q s' = v :: q
      else xbrel n nm s' (mkAbs t (delete v m) a) /\ xb_q s' = q.
  Proof.
    intros Hok HR Hq. pose proof HR as (H1 & H2 & H3 & H4). cbn [a_m] in *.
    assert (v ∈ xb_q s) as Hv by (rewrite Hq; set_solver). apply H2 in Hv as [e He].
    destruct (brel_some _ _ _ _ _ _ H1 He) as (o & Ho & _).
    unfold xb_evict. rewrite Hq, last_snoc, Ho, (xb_keep_spec _ _ _ _ _ _ _ HR Ho He), removelast_last.
    exists e. destruct (decide (stays thresh cap n nm e)) as [Hs|Hs].
    - rewrite bool_decide_true by done. eexists. split_and!; [done|done| |done].
      split_and!; cbn; [done| |done|done].
      eapply qdom_perm; [|exact H2]. rewrite Hq. by rewrite Permutation_app_comm.
    - rewrite bool_decide_false by done. unfold cache_evict_base.
      destruct (brel_remove _ _ _ _ _ _ _ _ Hok H1 He) as (c' & Hc & Hb & _). rewrite Hc. cbn [rbind].
      eexists. split_and!; [done|done| |done]. split_and!; cbn; [done| | |done].
      + rewrite Hq in H2. by apply qdom_snoc_del.
      + unfold cache_remove_obj_base in Hc. rewrite Ho in Hc. injection Hc as <-. done.
  Qed.

  Lemma xb_size_pos t m a : abs_ok cap md (mkAbs t m a) -> forall i e, m !! i = Some e -> 0 <= e_size e.
  Proof. intros Hok i e Hi. destruct Hok as (_ & Hok & _). specialize (Hok _ _ Hi). cbn in Hok. lia. Qed.

  Lemma staying_le n nm t m a : abs_ok cap md (mkAbs t m a) -> staying thresh cap md n nm m <= msum md m.
  Proof.
    intros Hok. apply msum_filter_le; [apply Hok|]. eapply xb_size_pos; eauto.
  Qed.

  Lemma staying_delete n nm m v e : m !! v = Some e -> ~ stays thresh cap n nm e ->
    staying thresh cap md n nm (delete v m) = staying thresh cap md n nm m.
  Proof.
    intros He Hs. unfold staying. rewrite map_filter_delete_not; [done|].
    intros y Hy. rewrite He in Hy. injection Hy as <-. done.
  Qed.

  (** The loop never ends when the objects that should stay leave no room. *)
  Lemma xb_loop_forever n nm r fuel : forall s t m a, abs_ok cap md (mkAbs t m a) ->
    xbrel n nm s (mkAbs t m a) -> r_size r + md <= cap ->
    staying thresh cap md n nm m + (r_size r + md) > cap ->
    evict_loop O fuel s r = Err OutOfFuel.
  Proof.
    induction fuel as [|fuel IH]; intros s t m a Hok HR Hfit Hst; cbn.
    all: pose proof HR as (H1 & H2 & _); cbn [a_m] in *.
    all: rewrite (br_size _ _ _ _ H1), (br_md _ _ _ _ H1), (br_occ _ _ _ _ H1); cbn [a_m].
    all: pose proof (staying_le n nm t m a Hok); rewrite decide_True by lia.
    { done. }
    destruct (xb_q s) as [|v q _] eqn:Hq using rev_ind.
    { assert (m = ∅) as ->.
      { apply map_empty. intros i. destruct (m !! i) eqn:E; [|done]. exfalso.
        assert (i ∈ @nil Z) as Hi by (apply H2; eauto). by inversion Hi. }
      unfold staying in *. rewrite map_filter_empty, msum_empty in Hst. lia. }
    destruct (xbrel_evict n nm s t m a r v q Hok HR Hq) as (e & s' & He & -> & Hcase). cbn [rbind].
    destruct (decide (stays thresh cap n nm e)) as [Hs|Hs].
    - destruct Hcase as [HR' _]. by eapply IH.
    - destruct Hcase as [HR' _]. eapply IH; [|exact HR'|done|].
      + by apply abs_ok_delete.
      + by rewrite (staying_delete _ _ _ _ _ He Hs).
  Qed.

  (** Whenever the loop ends, it only evicted objects that need not stay. *)
  Lemma xb_loop_ok n nm r fuel : forall s t m a s', abs_ok cap md (mkAbs t m a) ->
    xbrel n nm s (mkAbs t m a) -> r_size r + md <= cap ->
    evict_loop O fuel s r = Ok s' ->
    exists m', evict_to (pol_future thresh cap n nm) cap md (r_size r + md) m m' /\
      xbrel n nm s' (mkAbs t m' a).
  Proof.
    induction fuel as [|fuel IH]; intros s t m a s' Hok HR Hfit; cbn.
    all: pose proof HR as (H1 & H2 & _); cbn [a_m] in *.
    all: rewrite (br_size _ _ _ _ H1), (br_md _ _ _ _ H1), (br_occ _ _ _ _ H1); cbn [a_m].
    all: destruct (decide (msum md m + r_size r + md > cap)) as [Hgt|Hle]; intros He.
    - done.
    - injection He as <-. exists m. split; [|done]. constructor. lia.
    - destruct (xb_q s) as [|v q _] eqn:Hq using rev_ind.
      { assert (m = ∅) as ->.
        { apply map_empty. intros i. destruct (m !! i) eqn:E; [|done]. exfalso.
          assert (i ∈ @nil Z) as Hi by (apply H2; eauto). by inversion Hi. }
        rewrite msum_empty in Hgt. lia. }
      destruct (xbrel_evict n nm s t m a r v q Hok HR Hq) as (e & s1 & Hv & Hev & Hcase).
      rewrite Hev in He. cbn [rbind] in He.
      destruct (decide (stays thresh cap n nm e)) as [Hs|Hs].
      + destruct Hcase as [HR' _]. by eapply IH.
      + destruct Hcase as [HR' _].
        destruct (IH s1 t (delete v m) a s') as (m' & Hm' & HR2); auto; [by apply abs_ok_delete|].
        exists m'. split; [|done]. eapply ev_more; [lia|eauto| |done].
        intros e' He'. rewrite Hv in He'. injection He' as <-. done.
    - injection He as <-. exists m. split; [|done]. constructor. lia.
  Qed.

  (** ... and it ends within one round of the queue when they do leave room. *)
  Lemma xb_loop_ends n nm r : r_size r + md <= cap -> forall u fuel s t m a p,
    abs_ok cap md (mkAbs t m a) -> xbrel n nm s (mkAbs t m a) ->
    rev (xb_q s) = u ++ p -> (forall x e, x ∈ p -> m !! x = Some e -> stays thresh cap n nm e) ->
    staying thresh cap md n nm m + (r_size r + md) <= cap -> (length u <= fuel)%nat ->
    exists s', evict_loop O fuel s r = Ok s'.
  Proof.
    intros Hfit. induction u as [|v u IH]; intros fuel s t m a p Hok HR Hrq Hp Hst Hf.
    - pose proof HR as (H1 & H2 & _). cbn [a_m] in *.
      assert (Hall : staying thresh cap md n nm m = msum md m).
      { unfold staying. f_equal. apply map_filter_id. intros i e Hi. cbn. apply (Hp i); [|done].
        cbn in Hrq. rewrite <- Hrq. rewrite elem_of_list_In, <- in_rev, <- elem_of_list_In. apply H2. eauto. }
      exists s. destruct fuel; cbn;
        rewrite (br_size _ _ _ _ H1), (br_md _ _ _ _ H1), (br_occ _ _ _ _ H1); cbn [a_m];
        rewrite decide_False by lia; done.
    - pose proof HR as (H1 & H2 & _). cbn [a_m] in *. cbn in Hf. destruct fuel as [|fuel]; [lia|]. cbn.
      rewrite (br_size _ _ _ _ H1), (br_md _ _ _ _ H1), (br_occ _ _ _ _ H1); cbn [a_m].
      destruct (decide (msum md m + r_size r + md > cap)) as [Hgt|Hle]; [|eauto].
      assert (Hq : xb_q s = rev (u ++ p) ++ [v]).
      { rewrite <- (rev_involutive (xb_q s)), Hrq. done. }
      destruct (xbrel_evict n nm s t m a r v _ Hok HR Hq) as (e & s1 & Hv & -> & Hcase). cbn [rbind].
      destruct (decide (stays thresh cap n nm e)) as [Hs|Hs].
      + destruct Hcase as [HR' Hq']. eapply (IH fuel s1 t m a (p ++ [v])); [done|done| | |done|lia].
        * rewrite Hq'. cbn. rewrite rev_involutive. by rewrite app_assoc.
        * intros x e' Hx Hx'. apply elem_of_app in Hx as [Hx| ->%elem_of_list_singleton]; [eauto|].
          rewrite Hv in Hx'. by injection Hx' as <-.
      + destruct Hcase as [HR' Hq']. eapply (IH fuel s1 t (delete v m) a p); [|done| | | |lia].
        * by apply abs_ok_delete.
        * rewrite Hq'. by rewrite rev_involutive.
        * intros x e' Hx Hx'. apply lookup_delete_Some in Hx' as [_ Hx']. eauto.
        * by rewrite (staying_delete _ _ _ _ _ Hv Hs).
  Qed.

  Lemma find_base_nreq c r u c' b : cache_find_base c r u = (c', b) -> c_nreq c' = c_nreq c.
  Proof.
    unfold cache_find_base. destruct (c_tbl c !! r_id r); [destruct u|]; intros [= <- _]; done.
  Qed.
  Lemma insert_base_nreq c r c' : cache_insert_base c r = Ok c' -> c_nreq c' = c_nreq c.
  Proof.
    unfold cache_insert_base. destruct (c_tbl c !! r_id r); [done|]. by intros [= <-].
  Qed.
  Lemma remove_base_nreq c id c' : cache_remove_obj_base c id = Ok c' -> c_nreq c' = c_nreq c.
  Proof. unfold cache_remove_obj_base. destruct (c_tbl c !! id); [|done]. by intros [= <-]. Qed.

  Lemma xbrel_clock n nm s t m a : xbrel n nm s (mkAbs t m a) -> xbrel n nm s (mkAbs (t + 1) m a).
  Proof. intros (H1 & H2 & H3). split_and!; [by eapply brel_clock|done|apply H3|apply H3]. Qed.

  Lemma xbrel_find_false n nm s a r : xbrel n nm s a ->
    xb_find lru s r false = Ok (s, bool_decide (is_Some (a_m a !! r_id r))).
  Proof.
    intros (H & _). unfold xb_find. rewrite (brel_find_false _ _ _ _ _ H), !andb_false_r. by destruct s.
  Qed.
  Lemma xbrel_find_miss n nm s a r u : xbrel n nm s a -> a_m a !! r_id r = None ->
    xb_find lru s r u = Ok (s, false).
  Proof.
    intros (H & _) Hn. unfold xb_find. rewrite (brel_find_miss _ _ _ _ _ _ H Hn), andb_false_r. by destruct s.
  Qed.
  Lemma xbrel_find_hit n nm s t m a r e : xbrel n nm s (mkAbs t m a) -> m !! r_id r = Some e ->
    exists s', xb_find lru s r true = Ok (s', true) /\
      xbrel n nm s' (mkAbs (t + 1) (<[r_id r := touch t r e]> m) a).
  Proof.
    intros (H1 & H2 & H3 & H4) He. unfold xb_find.
    destruct (brel_find_hit _ _ _ _ _ _ _ _ H1 He) as (c' & Hc & Hb & _). rewrite Hc.
    eexists. split; [done|]. cbn in *. split_and!; cbn; [done| | |done].
    - apply qdom_upd; [eauto|]. destruct lru; cbn; [|done]. apply qdom_to_head; eauto.
    - by rewrite (find_base_nreq _ _ _ _ _ Hc).
  Qed.
  Lemma xbrel_can n nm s t m a r : xbrel n nm s (mkAbs t m a) ->
    exists s', xb_can_insert s r = Ok (s', (admit a r).2 && bool_decide (r_size r + md <= cap)) /\
      xbrel n nm s' (mkAbs t m (admit a r).1) /\ xb_q s' = xb_q s.
  Proof.
    intros (H1 & H2 & H3 & H4). unfold xb_can_insert.
    destruct (brel_can _ _ _ _ _ _ r H1) as (c' & -> & Hb & ->).
    eexists. split; [done|]. split; [|done]. split_and!; cbn; [done|done|done|done].
  Qed.
  Lemma xbrel_insert n nm s t m a r : 0 <= md -> xbrel n nm s (mkAbs t m a) -> m !! r_id r = None -> req_ok md r ->
    exists s', xb_insert s r = Ok s' /\ xbrel n nm s' (mkAbs (t + 1) (<[r_id r := fresh t r]> m) a).
  Proof.
    intros Hmd (H1 & H2 & H3 & H4) Hn Hr. unfold xb_insert.
    destruct (brel_insert _ _ _ _ _ _ r H1 Hn Hr Hmd) as (c' & Hc & Hb & _). rewrite Hc. cbn [rbind].
    eexists. split; [done|]. cbn in *. split_and!; cbn; [done|by apply qdom_cons| |done].
    by rewrite (insert_base_nreq _ _ _ Hc).
  Qed.
  Lemma xbrel_remove n nm s t m a id : abs_ok cap md (mkAbs t m a) -> xbrel n nm s (mkAbs t m a) ->
    exists s', xb_remove s id = Ok (s', bool_decide (is_Some (m !! id))) /\
      xbrel n nm s' (mkAbs t (delete id m) a).
  Proof.
    intros Hok (H1 & H2 & H3 & H4). unfold xb_remove. cbn in *.
    destruct (m !! id) as [e|] eqn:E.
    - destruct (brel_some _ _ _ _ _ _ H1 E) as (o & -> & _).
      destruct (brel_remove _ _ _ _ _ _ _ _ Hok H1 E) as (c' & Hc & Hb & _). rewrite Hc. cbn [rbind].
      rewrite bool_decide_true by eauto.
      eexists. split; [done|]. split_and!; cbn; [done|by apply qdom_del| |done].
      by rewrite (remove_base_nreq _ _ _ Hc).
    - rewrite (brel_none _ _ _ _ _ H1 E). rewrite bool_decide_false by (by intros []).
      eexists. split; [done|]. rewrite delete_notin by done. done.
  Qed.

  Lemma abs_ok_md t m a : abs_ok cap md (mkAbs t m a) -> 0 <= md.
  Proof. intros Hok. apply Hok. Qed.

  Lemma xb_step_ok n nm fuel s a c s' o :
    abs_ok cap md a -> xbrel n nm s a -> future_call md c -> xb_step thresh lru fuel s c = Ok (s', o) ->
    exists a', abs_step (pol_future thresh cap (n + is_get c) nm) cap md a c o a' /\
      xbrel (n + is_get c) (nm + is_missed c o) s' a'.
  Proof.
    intros Hok HR Hc Hst. destruct a as [t m ad]. pose proof (abs_ok_md _ _ _ Hok) as Hmd.
    destruct c as [r|r upd|r|id|r|r]; cbn [future_call] in Hc; try done; cbn [is_get is_missed];
      rewrite ?Z.add_0_r.
    - cbn [xb_step] in Hst. apply rbind_ok in Hst as ([s1 b] & Hg & [= <- <-]).
      unfold xb_get in Hg. apply rbind_ok in Hg as ([s2 b2] & Hg & [= <- <-]).
      unfold cache_get_base in Hg. cbn [op_tick op_find op_can_insert op_insert xb_ops] in Hg.
      set (s0 := xb_set_c s (c_incr_nreq (xb_c s))) in *.
      assert (HR0 : xbrel (n + 1) nm s0 (mkAbs t m ad)).
      { destruct HR as (H1 & H2 & H3 & H4). split_and!; cbn; [by apply brel_tick|done|by rewrite H3|done]. }
      apply rbind_ok in Hg as ([s3 hit] & Hfi & Hg).
      destruct (m !! r_id r) as [e|] eqn:E.
      + destruct (xbrel_find_hit _ _ _ _ _ _ _ _ HR0 E) as (s4 & Hf & HR4).
        rewrite Hf in Hfi. injection Hfi as <- <-. injection Hg as <- <-. cbn. rewrite Z.add_0_r.
        eexists. split; [|exact HR4]. by constructor.
      + rewrite (xbrel_find_miss _ _ _ _ _ true HR0 E) in Hfi. injection Hfi as <- <-.
        destruct (xbrel_can _ _ _ _ _ _ r HR0) as (s4 & Hca & HR4 & _). rewrite Hca in Hg. cbn [rbind] in Hg.
        assert (Hup : forall s a, xbrel (n + 1) nm s a ->
          xbrel (n + 1) (nm + 1) (mkXb (xb_c s) (xb_q s) (xb_miss s + 1)) a).
        { intros s5 a5 (G1 & G2 & G3 & G4). split_and!; cbn; [done|done|done|by rewrite G4]. }
        destruct (admit ad r) as [ad' ok'] eqn:Ead. cbn [fst snd] in *. destruct ok'; cbn [andb] in Hg.
        * destruct (decide (r_size r + md <= cap)) as [Hle|Hgt].
          -- rewrite bool_decide_true in Hg by done.
             assert (Hok3 : abs_ok cap md (mkAbs t m ad')) by (by eapply abs_ok_adm).
             apply rbind_ok in Hg as (s5 & Hl & Hg). apply rbind_ok in Hg as (s6 & Hi & [= <- <-]).
             destruct (xb_loop_ok _ _ _ _ _ _ _ _ _ Hok3 HR4 Hle Hl) as (m' & Hev & HR5).
             destruct (evict_to_ok _ _ _ _ _ _ _ ad' Hev Hok3) as (Hok4 & Hfit & Hsub & _).
             assert (Hn : m' !! r_id r = None).
             { destruct (m' !! r_id r) eqn:E'; [|done].
               rewrite (lookup_weaken _ _ _ _ E' Hsub) in E. done. }
             destruct (xbrel_insert _ _ _ _ _ _ r Hmd HR5 Hn Hc) as (s7 & Hi' & HR7).
             rewrite Hi' in Hi. injection Hi as <-.
             eexists. split; [|apply Hup; exact HR7]. eapply AGetMiss; eauto.
          -- rewrite bool_decide_false in Hg by done. injection Hg as <- <-.
             eexists. split; [eapply AGetTooBig; eauto; lia|]. apply Hup. by apply xbrel_clock.
        * injection Hg as <- <-. eexists. split; [eapply AGetRefused; eauto|]. apply Hup. by apply xbrel_clock.
    - cbn [xb_step step] in Hst. apply rbind_ok in Hst as ([s1 b] & Hf & [= <- <-]).
      cbn [op_find xb_ops] in Hf. destruct upd.
      + destruct (m !! r_id r) as [e|] eqn:E.
        * destruct (xbrel_find_hit _ _ _ _ _ _ _ _ HR E) as (s4 & Hf4 & HR4).
          rewrite Hf4 in Hf. injection Hf as <- <-. eexists. split; [|exact HR4]. by constructor.
        * rewrite (xbrel_find_miss _ _ _ _ _ true HR E) in Hf. injection Hf as <- <-.
          eexists. split; [by constructor|]. by apply xbrel_clock.
      + rewrite (xbrel_find_false _ _ _ _ _ HR) in Hf. injection Hf as <- <-.
        eexists. split; [apply AFind|]. by apply xbrel_clock.
    - cbn [xb_step step] in Hst. apply rbind_ok in Hst as ([s1 b] & Hf & Hst).
      cbn [op_find xb_ops op_occupied op_md op_size op_insert] in *.
      rewrite (xbrel_find_false _ _ _ _ _ HR) in Hf. injection Hf as <- <-. cbn [a_m] in *.
      destruct (m !! r_id r) as [e|] eqn:E.
      + rewrite bool_decide_true in Hst by eauto. injection Hst as <- <-.
        eexists. split; [apply AInsertSkip; left; rewrite E; eauto|]. by apply xbrel_clock.
      + rewrite bool_decide_false in Hst by (by intros []). pose proof HR as (H1 & _).
        rewrite (br_size _ _ _ _ H1), (br_md _ _ _ _ H1), (br_occ _ _ _ _ H1) in Hst; cbn [a_m] in Hst.
        destruct (decide _) as [Hgt|Hle].
        * injection Hst as <- <-. eexists. split; [apply AInsertSkip; right; lia|]. by apply xbrel_clock.
        * apply rbind_ok in Hst as (s2 & Hi & [= <- <-]).
          destruct (xbrel_insert _ _ _ _ _ _ r Hmd HR E Hc) as (s7 & Hi' & HR7).
          rewrite Hi' in Hi. injection Hi as <-. eexists. split; [apply AInsert; auto; lia|done].
    - cbn [xb_step step] in Hst. apply rbind_ok in Hst as ([s1 b] & Hr & [= <- <-]).
      cbn [op_remove xb_ops] in Hr.
      destruct (xbrel_remove _ _ _ _ _ _ id Hok HR) as (s4 & Hr4 & HR4).
      rewrite Hr4 in Hr. injection Hr as <- <-.
      eexists. split; [apply ARemove|]. by apply xbrel_clock.
  Qed.

  Lemma future_call_ok c : future_call md c -> call_ok (req_ok md) c.
  Proof. by destruct c. Qed.

  Lemma xb_run_ok fuel cs : forall n nm s a s' os,
    abs_ok cap md a -> xbrel n nm s a -> Forall (future_call md) cs ->
    xb_run thresh lru fuel s cs = Ok (s', os) ->
    exists a', future_run thresh cap md n nm a cs os a' /\
      xbrel (n + n_gets cs) (nm + n_missed cs os) s' a' /\ abs_ok cap md a'.
  Proof.
    induction cs as [|c cs IH]; intros n nm s a s' os Hok HR Hc Hr; cbn in Hr.
    - injection Hr as <- <-. eexists. cbn. rewrite !Z.add_0_r. split_and!; [constructor|done|done].
    - inversion Hc; subst.
      apply rbind_ok in Hr as ([s1 o] & Hs & Hr). apply rbind_ok in Hr as ([s2 os'] & Hr & [= <- <-]).
      destruct (xb_step_ok _ _ _ _ _ _ _ _ Hok HR H1 Hs) as (a1 & Ha & HR1).
      assert (Hok1 : abs_ok cap md a1).
      { eapply abs_step_ok; [exact Ha|by apply future_call_ok|done]. }
      destruct (IH _ _ _ _ _ _ Hok1 HR1 H2 Hr) as (a' & Hrun & HR' & Hok').
      exists a'. split_and!; [by econstructor| |done]. cbn [n_gets n_missed]. by rewrite !Z.add_assoc.
  Qed.

  (** A get on a miss that is to be admitted: the objects that should stay
      decide whether it returns. *)
  Lemma xb_get_decided n nm s t m a r :
    abs_ok cap md (mkAbs t m a) -> xbrel n nm s (mkAbs t m a) -> req_ok md r ->
    m !! r_id r = None -> (admit a r).2 = true -> r_size r + md <= cap ->
    (staying thresh cap md (n + 1) nm m + (r_size r + md) <= cap ->
       forall fuel, (size m <= fuel)%nat -> exists s', xb_get thresh lru fuel s r = Ok (s', false)) /\
    (staying thresh cap md (n + 1) nm m + (r_size r + md) > cap ->
       forall fuel, xb_get thresh lru fuel s r = Err OutOfFuel).
  Proof.
    intros Hok HR Hr Hn Had Hfit. pose proof (abs_ok_md _ _ _ Hok) as Hmd.
    set (s0 := xb_set_c s (c_incr_nreq (xb_c s))).
    assert (HR0 : xbrel (n + 1) nm s0 (mkAbs t m a)).
    { destruct HR as (H1 & H2 & H3 & H4). split_and!; cbn; [by apply brel_tick|done|by rewrite H3|done]. }
    destruct (xbrel_can _ _ _ _ _ _ r HR0) as (s4 & Hca & HR4 & Hq4).
    rewrite Had, bool_decide_true in Hca by done. cbn [andb] in Hca.
    assert (Hok3 : abs_ok cap md (mkAbs t m (admit a r).1)) by (by eapply abs_ok_adm).
    assert (Hget : forall fuel, xb_get thresh lru fuel s r =
      (let! (s, b) := (let! s := evict_loop O fuel s4 r in let! s := xb_insert s r in Ok (s, false)) in
       Ok (if b : bool then s else mkXb (xb_c s) (xb_q s) (xb_miss s + 1), b))).
    { intros fuel. unfold xb_get, cache_get_base. cbn [op_tick op_find op_can_insert op_insert xb_ops].
      fold s0. rewrite (xbrel_find_miss _ _ _ _ _ true HR0 Hn). cbn [rbind]. rewrite Hca. cbn [rbind]. done. }
    split.
    - intros Hst fuel Hf.
      destruct (xb_loop_ends (n + 1) nm r Hfit (rev (xb_q s4)) fuel s4 t m (admit a r).1 []) as (s5 & Hl);
        [done|done|by rewrite app_nil_r|intros x e Hx; by inversion Hx|done| |].
      { rewrite rev_length. destruct HR4 as (_ & Hq & _). cbn in Hq.
        pose proof (qdom_len _ _ Hq). lia. }
      destruct (xb_loop_ok _ _ _ _ _ _ _ _ _ Hok3 HR4 Hfit Hl) as (m' & Hev & HR5).
      destruct (evict_to_ok _ _ _ _ _ _ _ (admit a r).1 Hev Hok3) as (Hok4 & _ & Hsub & _).
      assert (Hn' : m' !! r_id r = None).
      { destruct (m' !! r_id r) eqn:E'; [|done]. rewrite (lookup_weaken _ _ _ _ E' Hsub) in Hn. done. }
      destruct (xbrel_insert _ _ _ _ _ _ r Hmd HR5 Hn' Hr) as (s7 & Hi' & HR7).
      eexists. rewrite Hget, Hl. cbn [rbind]. rewrite Hi'. cbn [rbind]. done.
    - intros Hst fuel. rewrite Hget.
      rewrite (xb_loop_forever _ _ _ _ _ _ _ _ Hok3 HR4 Hfit Hst). done.
  Qed.
End XB.
