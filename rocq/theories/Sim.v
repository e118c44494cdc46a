(** Simulation between an operation table and the abstract cache, and what it
    gives for arbitrary client programs. *)
From stdpp Require Import gmap list numbers fin_maps.
From Verif Require Import Base Driver Abs AbsFacts.
Open Scope Z_scope.

Record simulation {S} (pol : policy) (O : ops S) (cap md : Z) (P : req -> Prop) (R : S -> abs -> Prop) : Prop := {
  sim_req r : P r -> req_ok md r;
  sim_size s a : R s a -> op_size O s = cap;
  sim_md s a : R s a -> op_md O s = md;
  sim_occ s a : R s a -> op_occupied O s = msum md (a_m a);
  sim_nobj s a : R s a -> op_nobj O s = Z.of_nat (size (a_m a));
  sim_tick s a : R s a -> R (op_tick O s) a;
  sim_clock s t m a : R s (mkAbs t m a) -> R s (mkAbs (t + 1) m a);
  sim_find_false s a r : R s a ->
    op_find O s r false = Ok (s, bool_decide (is_Some (a_m a !! r_id r)));
  sim_find_hit s t m a r e : abs_ok cap md (mkAbs t m a) -> R s (mkAbs t m a) ->
    m !! r_id r = Some e ->
    exists s', op_find O s r true = Ok (s', true) /\
      R s' (mkAbs (t + 1) (<[r_id r := touch t r e]> m) a);
  sim_find_miss s a r : R s a -> a_m a !! r_id r = None ->
    exists s', op_find O s r true = Ok (s', false) /\ R s' a;
  sim_can s t m a r : R s (mkAbs t m a) ->
    exists s', op_can_insert O s r =
                 Ok (s', (admit a r).2 && bool_decide (r_size r + md <= cap)) /\
      R s' (mkAbs t m (admit a r).1);
  sim_insert s t m a r : abs_ok cap md (mkAbs t m a) -> R s (mkAbs t m a) ->
    m !! r_id r = None -> P r -> msum md m + (r_size r + md) <= cap ->
    exists s', op_insert O s r = Ok s' /\
      R s' (mkAbs (t + 1) (<[r_id r := fresh t r]> m) a);
  sim_evict s t m a r : abs_ok cap md (mkAbs t m a) -> R s (mkAbs t m a) -> m <> ∅ ->
    exists s1 v s2,
      op_to_evict O s r = Ok (s1, Some v) /\ R s1 (mkAbs t m a) /\
      is_Some (m !! v) /\ pol m v /\
      op_evict O s r = Ok s2 /\ R s2 (mkAbs t (delete v m) a) /\
      forall r', exists s3, op_evict O s1 r' = Ok s3 /\ R s3 (mkAbs t (delete v m) a);
  sim_remove s t m a id : abs_ok cap md (mkAbs t m a) -> R s (mkAbs t m a) ->
    exists s', op_remove O s id = Ok (s', bool_decide (is_Some (m !! id))) /\
      R s' (mkAbs t (delete id m) a)
}.

Section Sim.
  Context {S : Type} (pol : policy) (O : ops S) (cap md : Z) (P : req -> Prop) (R : S -> abs -> Prop).
  Context (HS : simulation pol O cap md P R).

  Lemma sim_call_ok c : call_ok P c -> call_ok (req_ok md) c.
  Proof. destruct c; cbn; auto; apply (sim_req _ _ _ _ _ _ HS). Qed.

  Lemma sim_evict_loop fuel s t m a r :
    abs_ok cap md (mkAbs t m a) -> R s (mkAbs t m a) -> r_size r + md <= cap ->
    (size m <= fuel)%nat ->
    exists s' m', evict_loop O fuel s r = Ok s' /\
      evict_to pol cap md (r_size r + md) m m' /\ R s' (mkAbs t m' a).
  Proof.
    revert s m. induction fuel as [|fuel IH]; intros s m Hok HR Hfit Hf; cbn;
      rewrite (sim_size _ _ _ _ _ _ HS _ _ HR), (sim_md _ _ _ _ _ _ HS _ _ HR),
        (sim_occ _ _ _ _ _ _ HS _ _ HR); cbn.
    - assert (m = ∅) as -> by (apply map_size_empty_inv; lia).
      rewrite msum_empty. rewrite decide_False by lia.
      exists s, ∅. split_and!; auto. constructor. rewrite msum_empty. lia.
    - destruct (decide _) as [Hgt|Hle].
      + assert (m <> ∅) as Hne.
        { intros ->. rewrite msum_empty in Hgt. lia. }
        destruct (sim_evict _ _ _ _ _ _ HS s t m a r Hok HR Hne)
          as (s1 & v & s2 & _ & _ & Hv & Hpol & Hev & HR2 & _).
        rewrite Hev. cbn.
        destruct (IH s2 (delete v m)) as (s' & m' & Hl & Het & HR').
        * by apply abs_ok_delete.
        * done.
        * done.
        * rewrite map_size_delete_Some by done. lia.
        * exists s', m'. split_and!; auto. eapply ev_more; eauto. lia.
      + exists s, m. split_and!; auto. constructor. lia.
  Qed.

  Lemma size_zero_empty (m : gmap Z entry) : Z.of_nat (size m) <= 0 -> m = ∅.
  Proof. intros. apply map_size_empty_inv. lia. Qed.

  Lemma sim_step fuel s a c :
    abs_ok cap md a -> R s a -> call_ok P c -> (size (a_m a) <= fuel)%nat ->
    exists s' o a', step O fuel s c = Ok (s', o) /\
      abs_step pol cap md a c o a' /\ R s' a'.
  Proof.
    intros Hok HR Hc Hf. destruct a as [t m ad]. cbn in Hf. destruct c; cbn in *.
    - (* get *)
      unfold cache_get_base.
      pose proof (sim_tick _ _ _ _ _ _ HS _ _ HR) as HR0.
      destruct (m !! r_id r) as [e|] eqn:E.
      + destruct (sim_find_hit _ _ _ _ _ _ HS _ _ _ _ r e Hok HR0 E) as (s' & -> & HR').
        cbn. eexists _, _, _. split_and!; [done| |exact HR']. by constructor.
      + destruct (sim_find_miss _ _ _ _ _ _ HS _ _ r HR0 E) as (s1 & -> & HR1). cbn.
        destruct (sim_can _ _ _ _ _ _ HS _ _ _ _ r HR1) as (s2 & -> & HR2). cbn.
        destruct (admit ad r) as [ad' ok] eqn:Ead. cbn in *.
        destruct ok; cbn.
        * destruct (decide (r_size r + md <= cap)) as [Hle|Hgt].
          -- rewrite bool_decide_true by done.
             assert (Hok2 : abs_ok cap md (mkAbs t m ad')).
             { by eapply abs_ok_adm. }
             destruct (sim_evict_loop fuel s2 t m ad' r Hok2 HR2 Hle Hf)
               as (s3 & m' & -> & Het & HR3). cbn.
             destruct (evict_to_ok _ _ _ _ _ _ _ ad' Het Hok2) as (Hok3 & Hfit & Hsub & _).
             destruct (sim_insert _ _ _ _ _ _ HS s3 t m' ad' r Hok3 HR3) as (s4 & -> & HR4); auto.
             { destruct (m' !! r_id r) eqn:E'; [|done].
               rewrite (lookup_weaken _ _ _ _ E' Hsub) in E. done. }
             cbn. eexists _, _, _. split_and!; [done| |exact HR4].
             eapply AGetMiss; eauto.
          -- rewrite bool_decide_false by done. cbn.
             eexists _, _, _. split_and!; [done| |].
             ++ eapply AGetTooBig; eauto; lia.
             ++ eapply sim_clock; eauto.
        * eexists _, _, _. split_and!; [done| |].
          -- eapply AGetRefused; eauto.
          -- eapply sim_clock; eauto.
    - (* find *)
      destruct upd.
      + destruct (m !! r_id r) as [e|] eqn:E.
        * destruct (sim_find_hit _ _ _ _ _ _ HS _ _ _ _ r e Hok HR E) as (s' & -> & HR').
          cbn. eexists _, _, _. split_and!; [done| |exact HR']. by constructor.
        * destruct (sim_find_miss _ _ _ _ _ _ HS _ _ r HR E) as (s1 & -> & HR1). cbn.
          eexists _, _, _. split_and!; [done|by constructor|]. eapply sim_clock; eauto.
      + rewrite (sim_find_false _ _ _ _ _ _ HS _ _ r HR). cbn.
        eexists _, _, _. split_and!; [done|by constructor|]. eapply sim_clock; eauto.
    - (* insert *)
      rewrite (sim_find_false _ _ _ _ _ _ HS _ _ r HR). cbn.
      destruct (m !! r_id r) as [e|] eqn:E; cbn.
      + eexists _, _, _. split_and!; [done|apply AInsertSkip; rewrite E; eauto|eapply sim_clock; eauto].
      + rewrite (sim_size _ _ _ _ _ _ HS _ _ HR), (sim_md _ _ _ _ _ _ HS _ _ HR),
          (sim_occ _ _ _ _ _ _ HS _ _ HR); cbn.
        destruct (decide _) as [Hgt|Hle].
        * eexists _, _, _. split_and!; [done|apply AInsertSkip; right; lia|eapply sim_clock; eauto].
        * destruct (sim_insert _ _ _ _ _ _ HS s t m ad r Hok HR) as (s4 & -> & HR4); auto; [lia|].
          cbn. eexists _, _, _. split_and!; [done| |exact HR4]. constructor; auto; lia.
    - (* remove *)
      destruct (sim_remove _ _ _ _ _ _ HS _ _ _ _ id Hok HR) as (s' & -> & HR'). cbn.
      eexists _, _, _. split_and!; [done|by constructor|]. eapply sim_clock; eauto.
    - (* evict *)
      rewrite (sim_nobj _ _ _ _ _ _ HS _ _ HR); cbn.
      destruct (decide _) as [Hz|Hnz].
      + assert (m = ∅) as -> by (by apply size_zero_empty).
        eexists _, _, _. split_and!; [done|apply AEvictEmpty|eapply sim_clock; eauto].
      + assert (m <> ∅) as Hne by (intros ->; rewrite map_size_empty in Hnz; lia).
        destruct (sim_evict _ _ _ _ _ _ HS s t m ad r Hok HR Hne)
          as (s1 & v & s2 & _ & _ & Hv & Hpol & Hev & HR2 & _).
        rewrite Hev. cbn.
        eexists _, _, _. split_and!; [done|by constructor|eapply sim_clock; eauto].
    - (* to_evict *)
      rewrite (sim_nobj _ _ _ _ _ _ HS _ _ HR); cbn.
      destruct (decide _) as [Hz|Hnz].
      + assert (m = ∅) as -> by (by apply size_zero_empty).
        eexists _, _, _. split_and!; [done|apply AToEvictEmpty|eapply sim_clock; eauto].
      + assert (m <> ∅) as Hne by (intros ->; rewrite map_size_empty in Hnz; lia).
        destruct (sim_evict _ _ _ _ _ _ HS s t m ad r Hok HR Hne)
          as (s1 & v & s2 & Hte & HR1 & Hv & Hpol & _).
        rewrite Hte. cbn.
        eexists _, _, _. split_and!; [done|by constructor|eapply sim_clock; eauto].
  Qed.

  Lemma sim_run fuel cs : forall s a,
    abs_ok cap md a -> R s a -> Forall (call_ok P) cs ->
    (size (a_m a) + length cs <= fuel)%nat ->
    exists s' os a', run O fuel s cs = Ok (s', os) /\
      abs_run pol cap md a cs os a' /\ R s' a' /\ abs_ok cap md a'.
  Proof.
    induction cs as [|c cs IH]; intros s a Hok HR Hc Hf; cbn.
    - eexists _, _, _. split_and!; [done|constructor|done|done].
    - inversion Hc; subst. cbn in Hf.
      destruct (sim_step fuel s a c) as (s1 & o & a1 & -> & Hs & HR1); auto; [lia|].
      cbn. pose proof (abs_step_size _ _ _ _ _ _ _ Hs).
      destruct (IH s1 a1) as (s2 & os & a2 & -> & Hr & HR2 & Hok2); auto; [|lia|].
      + eapply abs_step_ok; eauto. by apply sim_call_ok.
      + cbn. eexists _, _, _. split_and!; [done| |done|done]. econstructor; eauto.
  Qed.
End Sim.

(** Index and counters of the shared cache record against the abstract map. *)
Definition orel (o : cobj) (e : entry) : Prop :=
  o_size o = e_size e /\ o_next o = e_next e /\ o_freq o = e_cnt e - 1.

Record brel (cap md : Z) (c : cache) (a : abs) : Prop := {
  br_size : c_size c = cap;
  br_md : c_md c = md;
  br_occ : c_occ c = msum md (a_m a);
  br_nobj : c_nobj c = Z.of_nat (size (a_m a));
  br_adm : c_adm c = a_adm a;
  br_tbl : forall id, option_Forall2 orel (c_tbl c !! id) (a_m a !! id)
}.

Section Base.
  Context (cap md : Z).

  Lemma brel_tick c a : brel cap md c a -> brel cap md (c_incr_nreq c) a.
  Proof. intros []; constructor; done. Qed.

  Lemma brel_clock c t m a t' : brel cap md c (mkAbs t m a) -> brel cap md c (mkAbs t' m a).
  Proof. intros []; constructor; done. Qed.

  Lemma brel_some c a id e :
    brel cap md c a -> a_m a !! id = Some e -> exists o, c_tbl c !! id = Some o /\ orel o e.
  Proof.
    intros H He. pose proof (br_tbl _ _ _ _ H id) as Hb. rewrite He in Hb.
    inversion Hb; subst. eauto.
  Qed.

  Lemma brel_some_inv c a id o :
    brel cap md c a -> c_tbl c !! id = Some o -> exists e, a_m a !! id = Some e /\ orel o e.
  Proof.
    intros H He. pose proof (br_tbl _ _ _ _ H id) as Hb. rewrite He in Hb.
    inversion Hb; subst. eauto.
  Qed.

  Lemma brel_none c a id : brel cap md c a -> a_m a !! id = None -> c_tbl c !! id = None.
  Proof.
    intros H He. pose proof (br_tbl _ _ _ _ H id) as Hb. rewrite He in Hb. by inversion Hb.
  Qed.

  Lemma brel_none_inv c a id : brel cap md c a -> c_tbl c !! id = None -> a_m a !! id = None.
  Proof.
    intros H He. pose proof (br_tbl _ _ _ _ H id) as Hb. rewrite He in Hb. by inversion Hb.
  Qed.

  Lemma brel_is_Some c a id :
    brel cap md c a -> is_Some (c_tbl c !! id) <-> is_Some (a_m a !! id).
  Proof.
    intros H. pose proof (br_tbl _ _ _ _ H id) as Hb. inversion Hb.
    - split; intros; eauto.
    - split; intros []; done.
  Qed.

  Lemma brel_dom c a : brel cap md c a -> dom (c_tbl c) = dom (a_m a).
  Proof.
    intros H. apply set_eq. intros id. rewrite !elem_of_dom. by eapply brel_is_Some.
  Qed.

  Lemma brel_find_false c a r : brel cap md c a ->
    cache_find_base c r false = (c, bool_decide (is_Some (a_m a !! r_id r))).
  Proof.
    intros H. unfold cache_find_base. destruct (c_tbl c !! r_id r) eqn:E.
    - rewrite bool_decide_true; [done|]. eapply brel_is_Some; eauto.
    - rewrite bool_decide_false; [done|]. erewrite brel_none_inv by eauto. by intros [].
  Qed.

  Lemma brel_find_miss c a r u : brel cap md c a -> a_m a !! r_id r = None ->
    cache_find_base c r u = (c, false).
  Proof.
    intros H Hn. unfold cache_find_base. by erewrite brel_none by eauto.
  Qed.

  Lemma brel_find_hit c t m a r e : brel cap md c (mkAbs t m a) -> m !! r_id r = Some e ->
    exists c', cache_find_base c r true = (c', true) /\
      brel cap md c' (mkAbs (t + 1) (<[r_id r := touch t r e]> m) a) /\
      exists o, c_tbl c !! r_id r = Some o /\
        c' = c_set_tbl c (<[r_id r := o_set_freq (o_set_next o (r_next r)) (o_freq o + 1)]> (c_tbl c)).
  Proof.
    intros H He. destruct (brel_some _ _ _ _ H He) as (o & Ho & Hor).
    unfold cache_find_base. rewrite Ho. eexists. split; [done|]. split.
    - destruct H; constructor; cbn in *; auto.
      + by rewrite (msum_update _ _ _ e).
      + by rewrite map_size_insert_Some by eauto.
      + intros id. destruct (decide (id = r_id r)) as [->|Hne].
        * rewrite lookup_alter, lookup_insert, Ho. constructor.
          destruct Hor as (?&?&?). repeat split; cbn; auto. lia.
        * rewrite lookup_alter_ne, lookup_insert_ne by done. auto.
    - exists o. split; [done|]. unfold c_upd. f_equal.
      apply map_eq. intros i. destruct (decide (i = r_id r)) as [->|Hne].
      + by rewrite lookup_alter, lookup_insert, Ho.
      + by rewrite lookup_alter_ne, lookup_insert_ne.
  Qed.

  Lemma brel_can c t m a r : brel cap md c (mkAbs t m a) ->
    exists c', cache_can_insert_default c r =
       (c', (admit a r).2 && bool_decide (r_size r + md <= cap)) /\
      brel cap md c' (mkAbs t m (admit a r).1) /\ c' = c_set_adm c (admit a r).1.
  Proof.
    intros []; cbn in *. unfold cache_can_insert_default. rewrite br_adm0.
    destruct (admit a r) as [a' ok] eqn:E. cbn. exists (c_set_adm c a'). split_and!; auto.
    - destruct ok; cbn; [|done]. subst cap md.
      destruct (decide _); [rewrite bool_decide_false by lia|rewrite bool_decide_true by lia]; done.
    - constructor; auto.
  Qed.

  Lemma brel_insert c t m a r : brel cap md c (mkAbs t m a) -> m !! r_id r = None ->
    req_ok md r -> 0 <= md ->
    exists c', cache_insert_base c r = Ok c' /\
      brel cap md c' (mkAbs (t + 1) (<[r_id r := fresh t r]> m) a) /\
      c_tbl c' = <[r_id r := obj_of_req r]> (c_tbl c).
  Proof.
    intros H Hn [Hr1 Hr2] Hmd. unfold cache_insert_base.
    erewrite brel_none by eauto. eexists. split; [done|]. split; [|done].
    assert (Hu : u32 (r_size r) = r_size r) by (unfold u32; apply Z.mod_small; lia).
    destruct H; constructor; cbn in *; auto.
    - rewrite msum_insert by done. cbn. rewrite Hu. lia.
    - rewrite map_size_insert_None by done. lia.
    - intros id. destruct (decide (id = r_id r)) as [->|Hne].
      + rewrite !lookup_insert. constructor. repeat split; cbn; auto.
      + rewrite !lookup_insert_ne by done. auto.
  Qed.

  Lemma brel_remove c t m a id e : abs_ok cap md (mkAbs t m a) ->
    brel cap md c (mkAbs t m a) -> m !! id = Some e ->
    exists c', cache_remove_obj_base c id = Ok c' /\
      brel cap md c' (mkAbs t (delete id m) a) /\ c_tbl c' = delete id (c_tbl c).
  Proof.
    intros Hok H He. destruct (brel_some _ _ _ _ H He) as (o & Ho & Hor & _).
    unfold cache_remove_obj_base. rewrite Ho. eexists. split; [done|]. split; [|done].
    destruct Hok as (_ & Hok & _ & _ & Hmd). specialize (Hok _ _ He). cbn in *.
    assert (Hu : u32 (o_size o + c_md c) = e_size e + md).
    { unfold u32. rewrite Hor, (br_md _ _ _ _ H). apply Z.mod_small. lia. }
    destruct H; constructor; cbn in *; auto.
    - rewrite (msum_delete _ _ _ e) by done. lia.
    - assert (is_Some (m !! id)) as HS by eauto.
      rewrite map_size_delete_Some by done.
      assert (size m <> 0%nat) by (intros Hz%map_size_empty_inv; subst m; rewrite lookup_empty in He; done). lia.
    - intros i. destruct (decide (i = id)) as [->|Hne].
      + rewrite !lookup_delete. constructor.
      + rewrite !lookup_delete_ne by done. auto.
  Qed.

  Lemma brel_init adm : brel cap md (cache_init cap md adm) (abs_init adm).
  Proof.
    constructor; try done. intros id. cbn. rewrite !lookup_empty. constructor.
  Qed.
End Base.
