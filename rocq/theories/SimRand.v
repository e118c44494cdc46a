(** The sampling algorithms: weak simulations. *)
From stdpp Require Import gmap list numbers fin_maps.
From Verif Require Import Base Driver Abs AbsFacts Sim SimClock SpecApi SpecComp SpecWeak WSim SpecRand ModelRand.
Open Scope Z_scope.

(** ** One simulation for all four, with the part of the relation that differs
    left open: [X] between calls, [X1] inside a get (after n_req++). *)
Section Gen.
  Context (pol : policy) (O : ops rstate) (cap md : Z) (Q : call -> Prop).
  Context (X X1 : Z -> Z -> gmap Z cobj -> gmap Z entry -> Prop).
  Context (fu fi : Z -> cobj -> cobj).
  Context (Hmd : 0 <= md).
  Context (HQ : forall r, Q (CGet r) \/ Q (CInsert r) -> req_ok md r).
  Context (O_size : op_size O = rn_size) (O_md : op_md O = rn_md) (O_occ : op_occupied O = rn_occ)
          (O_nobj : op_nobj O = rn_nobj) (O_tick : op_tick O = rn_tick) (O_can : op_can_insert O = rn_can_insert)
          (O_rem : op_remove O = rn_remove).
  Context (O_find : forall s r u, op_find O s r u =
     let '(c, b) := cache_find_base (rn_c s) r u in
     if (b && u)%bool then Ok (rn_set_c s (c_upd c (r_id r) (fu (c_nreq c))), b) else Ok (rn_set_c s c, b)).
  Context (O_ins : forall s r, op_insert O s r =
     let! c := cache_insert_base (rn_c s) r in
     Ok (rn_set_c s (c_upd c (r_id r) (fi (c_nreq c))))).
  Context (Hfu : forall n o, o_size (fu n o) = o_size o /\ o_next (fu n o) = o_next o /\ o_freq (fu n o) = o_freq o).
  Context (Hfi : forall n o, o_size (fi n o) = o_size o /\ o_next (fi n o) = o_next o /\ o_freq (fi n o) = o_freq o).
  Context (X_tick : forall n t T m, X n t T m -> X1 (n + 1) t T m).
  Context (X_done : forall n t T m, X1 n t T m -> X n (t + 1) T m).
  Context (X_clock : (exists c, Q c /\ is_get c = false) -> forall n t T m, X n t T m -> X n (t + 1) T m).
  Context (X_hit : forall n t T m a r o e, abs_ok cap md (mkAbs t m a) -> Q (CGet r) ->
     X1 n t T m -> T !! r_id r = Some o -> m !! r_id r = Some e ->
     X n (t + 1) (<[r_id r := fu n (o_set_freq (o_set_next o (r_next r)) (o_freq o + 1))]> T)
                 (<[r_id r := touch t r e]> m)).
  Context (X_find : forall n t T m a r o e, abs_ok cap md (mkAbs t m a) -> Q (CFind r true) ->
     X n t T m -> T !! r_id r = Some o -> m !! r_id r = Some e ->
     X n (t + 1) (<[r_id r := fu n (o_set_freq (o_set_next o (r_next r)) (o_freq o + 1))]> T)
                 (<[r_id r := touch t r e]> m)).
  Context (X_get : forall n t T m a r, abs_ok cap md (mkAbs t m a) -> Q (CGet r) ->
     X1 n t T m -> T !! r_id r = None -> m !! r_id r = None ->
     X n (t + 1) (<[r_id r := fi n (obj_of_req r)]> T) (<[r_id r := fresh t r]> m)).
  Context (X_ins : forall n t T m a r, abs_ok cap md (mkAbs t m a) -> Q (CInsert r) ->
     X n t T m -> T !! r_id r = None -> m !! r_id r = None ->
     X n (t + 1) (<[r_id r := fi n (obj_of_req r)]> T) (<[r_id r := fresh t r]> m)).
  Context (X_del : forall n t T m v, X n t T m -> X n t (delete v T) (delete v m)).
  Context (X1_del : forall n t T m v, X1 n t T m -> X1 n t (delete v T) (delete v m)).

  Definition rrel (Y : Z -> Z -> gmap Z cobj -> gmap Z entry -> Prop) (s : rstate) (a : abs) : Prop :=
    brel cap md (rn_c s) a /\ rn_gen s = -1 /\ 0 <= c_nreq (rn_c s) /\
    Y (c_nreq (rn_c s)) (a_t a) (c_tbl (rn_c s)) (a_m a).

  Context (O_evict1 : forall s t m a r, abs_ok cap md (mkAbs t m a) -> rrel X1 s (mkAbs t m a) -> m <> ∅ ->
     Q (CGet r) -> exists v s2 c', is_Some (m !! v) /\ pol m v /\ op_evict O s r = Ok s2 /\
       cache_evict_base (rn_c s) v = Ok c' /\ rn_c s2 = c' /\ rn_gen s2 = -1).
  Context (O_evict : forall s t m a r, abs_ok cap md (mkAbs t m a) -> rrel X s (mkAbs t m a) -> m <> ∅ ->
     Q (CEvict r) -> exists v s2 c', is_Some (m !! v) /\ pol m v /\ op_evict O s r = Ok s2 /\
       cache_evict_base (rn_c s) v = Ok c' /\ rn_c s2 = c' /\ rn_gen s2 = -1).
  Context (O_toevict : forall s t m a r, abs_ok cap md (mkAbs t m a) -> rrel X s (mkAbs t m a) -> m <> ∅ ->
     Q (CToEvict r) -> exists v s2, is_Some (m !! v) /\ pol m v /\ op_to_evict O s r = Ok (s2, Some v) /\
       rn_c s2 = rn_c s /\ rn_gen s2 = -1).

  Lemma alter_insert_alt {A} (f g : A -> A) i (m : gmap Z A) x :
    m !! i = Some x -> alter f i m = <[i := f x]> m.
  Proof using.
    intros H. apply map_eq. intros j. destruct (decide (j = i)) as [->|Hne].
    - by rewrite lookup_alter, lookup_insert, H.
    - by rewrite lookup_alter_ne, lookup_insert_ne.
  Qed.

  Lemma gen_hit (Y : Z -> Z -> gmap Z cobj -> gmap Z entry -> Prop) s t m a r e : rrel Y s (mkAbs t m a) -> m !! r_id r = Some e ->
    (forall o, Y (c_nreq (rn_c s)) t (c_tbl (rn_c s)) m -> c_tbl (rn_c s) !! r_id r = Some o ->
      X (c_nreq (rn_c s)) (t + 1)
        (<[r_id r := fu (c_nreq (rn_c s)) (o_set_freq (o_set_next o (r_next r)) (o_freq o + 1))]> (c_tbl (rn_c s)))
        (<[r_id r := touch t r e]> m)) ->
    exists s', op_find O s r true = Ok (s', true) /\
      rrel X s' (mkAbs (t + 1) (<[r_id r := touch t r e]> m) a).
  Proof using Hfu O_find.
    intros (HB & Hg & Hn & HY) He HX. rewrite O_find.
    destruct (brel_find_hit _ _ _ _ _ _ r e HB He) as (c' & -> & HB' & o & Ho & Hc'). cbn [andb].
    eexists. split; [done|]. split_and!; cbn; [|done|by rewrite Hc'|].
    - apply brel_upd; [intros; apply Hfu|done].
    - rewrite Hc' at 1. cbn. rewrite Hc'. cbn.
      erewrite (alter_insert_alt _ (fun o => o)) by apply lookup_insert. rewrite insert_insert. by apply HX.
  Qed.

  Lemma gen_ins (Y : Z -> Z -> gmap Z cobj -> gmap Z entry -> Prop) s t m a r : rrel Y s (mkAbs t m a) -> m !! r_id r = None -> req_ok md r ->
    (Y (c_nreq (rn_c s)) t (c_tbl (rn_c s)) m -> c_tbl (rn_c s) !! r_id r = None ->
      X (c_nreq (rn_c s)) (t + 1)
        (<[r_id r := fi (c_nreq (rn_c s)) (obj_of_req r)]> (c_tbl (rn_c s))) (<[r_id r := fresh t r]> m)) ->
    exists s', op_insert O s r = Ok s' /\
      rrel X s' (mkAbs (t + 1) (<[r_id r := fresh t r]> m) a).
  Proof using Hfi O_ins Hmd.
    intros (HB & Hg & Hn & HY) He Hr HX. rewrite O_ins.
    pose proof (brel_none _ _ _ _ _ HB He) as Hno.
    destruct (brel_insert _ _ _ _ _ _ r HB He Hr Hmd) as (c' & Hc & HB' & Ht). rewrite Hc. cbn.
    unfold cache_insert_base in Hc. rewrite Hno in Hc. injection Hc as Hc.
    assert (Hnr : c_nreq c' = c_nreq (rn_c s)) by (by rewrite <- Hc).
    eexists. split; [done|]. split_and!; cbn; [|done|by rewrite Hnr|].
    - apply brel_upd; [intros; apply Hfi|done].
    - rewrite Hnr, Ht. erewrite (alter_insert_alt _ (fun o => o)) by apply lookup_insert.
      rewrite insert_insert. by apply HX.
  Qed.

  Lemma gen_evict (Y : Z -> Z -> gmap Z cobj -> gmap Z entry -> Prop) s t m a v c' s2 : (forall n t T m v, Y n t T m -> Y n t (delete v T) (delete v m)) ->
    abs_ok cap md (mkAbs t m a) -> rrel Y s (mkAbs t m a) ->
    is_Some (m !! v) -> cache_remove_obj_base (rn_c s) v = Ok c' -> rn_c s2 = c' -> rn_gen s2 = -1 ->
    rrel Y s2 (mkAbs t (delete v m) a).
  Proof using.
    intros HY Hok (HB & Hg & Hn & HYs) [e He] Hc H2 Hg2.
    destruct (brel_remove _ _ _ _ _ _ v e Hok HB He) as (c1 & Hc1 & HB1 & Ht).
    rewrite Hc in Hc1. injection Hc1 as <-.
    assert (Hnr : c_nreq c' = c_nreq (rn_c s)).
    { unfold cache_remove_obj_base in Hc. destruct (c_tbl (rn_c s) !! v); [|done]. by injection Hc as <-. }
    split_and!; [by rewrite H2|done|by rewrite H2, Hnr|]. rewrite H2, Hnr, Ht. cbn. by apply HY.
  Qed.

  Lemma rn_wsim : wsimulation pol O cap md Q (rrel X).
  Proof using All.
    constructor.
    - exact HQ.
    - intros s a (HB & _). rewrite O_size. apply HB.
    - intros s a (HB & _). rewrite O_md. apply HB.
    - intros s a (HB & _). rewrite O_occ. apply HB.
    - intros s a (HB & _). rewrite O_nobj. apply HB.
    - intros s t m a Hc (HB & Hg & Hn & HX). split_and!; auto.
      + eapply brel_clock; eauto.
      + by apply X_clock.
    - intros s a r (HB & _). rewrite O_find. erewrite brel_find_false by eauto.
      rewrite andb_false_r. by destruct s.
    - intros s t m a r e Hok (HB & Hg & Hn & HX) Hq He. rewrite O_tick.
      apply (gen_hit X1 (rn_tick s)); [|done|].
      + split_and!; cbn; [by apply brel_tick|done|lia|by apply X_tick].
      + intros o HX1 Ho. eapply X_hit; eauto.
    - intros s t m a r e Hok HR Hq He. apply (gen_hit X s); [done|done|].
      intros o HX Ho. eapply X_find; eauto.
    - intros s a r HR He Hq. exists s. split; [|done]. destruct HR as (HB & _). rewrite O_find.
      erewrite brel_find_miss by eauto. cbn. by destruct s.
    - intros s t m a r fuel Hok HR Hq Hm Hf.
      apply (get_miss_of pol O cap md (rrel X) (rrel X1) (fun r => Q (CGet r))); auto.
      + intros s1 a1 (HB & _). rewrite O_size. apply HB.
      + intros s1 a1 (HB & _). rewrite O_md. apply HB.
      + intros s1 a1 (HB & _). rewrite O_occ. apply HB.
      + intros s1 a1 (HB & Hg & Hn & HX). rewrite O_tick.
        split_and!; cbn; [by apply brel_tick|done|lia|by apply X_tick].
      + intros s1 t1 m1 a1 (HB & Hg & Hn & HX). split_and!; auto.
        * eapply brel_clock; eauto.
        * by apply X_done.
      + intros s1 a1 r1 HR1 _ Hn. exists s1. split; [|done]. destruct HR1 as (HB & _). rewrite O_find.
        erewrite brel_find_miss by eauto. cbn. by destruct s1.
      + intros s1 t1 m1 a1 r1 (HB & Hg & Hn & HX) _. rewrite O_can. unfold rn_can_insert.
        destruct (brel_can _ _ _ _ _ _ r1 HB) as (c' & Hc & HB' & Heq). rewrite Hc.
        eexists. split; [done|]. rewrite Heq in *. split_and!; done.
      + intros s1 t1 m1 a1 r1 Hok1 HR1 Hn1 Hq1 _. apply (gen_ins X1); [done|done|auto|].
        intros HX1 Hno. eapply X_get; eauto.
      + intros s1 t1 m1 a1 r1 Hok1 HR1 Hne Hq1.
        destruct (O_evict1 _ _ _ _ r1 Hok1 HR1 Hne Hq1) as (v & s2 & c' & Hv & Hp & He & Hc & H2 & Hg).
        exists v, s2. split_and!; auto. eapply gen_evict; eauto.
    - intros s t m a r Hok HR Hn Hq _. apply (gen_ins X); [done|done|auto|].
      intros HX Hno. eapply X_ins; eauto.
    - intros s t m a r Hok HR Hne Hq.
      destruct (O_evict _ _ _ _ r Hok HR Hne Hq) as (v & s2 & c' & Hv & Hp & He & Hc & H2 & Hg).
      exists v, s2. split_and!; auto. eapply gen_evict; eauto.
    - intros s t m a r Hok HR Hne Hq.
      destruct (O_toevict _ _ _ _ r Hok HR Hne Hq) as (v & s2 & Hv & Hp & He & Hc & Hg).
      exists v, s2. split_and!; auto. destruct HR as (HB & _ & Hn & HX). split_and!; by rewrite ?Hc.
    - intros s t m a id Hok HR Hq. rewrite O_rem. unfold rn_remove.
      pose proof HR as (HB & Hg & Hn & HX).
      destruct (m !! id) as [e|] eqn:E.
      + destruct (brel_some _ _ _ _ id e HB E) as (o & Ho & _). rewrite Ho.
        destruct (brel_remove _ _ _ _ _ _ id e Hok HB E) as (c' & Hc & HB' & Ht). rewrite Hc. cbn.
        eexists. split; [done|].
        eapply (gen_evict X s _ _ _ _ c'); eauto.
      + rewrite (brel_none _ _ _ _ _ HB E). rewrite bool_decide_false by (by intros []).
        exists s. split; [done|]. by rewrite delete_notin.
  Qed.

  Lemma rn_init_rel adm seed : X 0 0 ∅ ∅ -> rrel X (rn_init cap md adm seed) (abs_init adm).
  Proof using. intros H. split_and!; [apply brel_init|done|done|done]. Qed.
End Gen.

Lemma tbl_ne cap md c t m a : brel cap md c (mkAbs t m a) -> m <> ∅ -> c_tbl c <> ∅.
Proof.
  intros HB Hne Hc. apply Hne, map_eq. intros i. rewrite lookup_empty.
  eapply brel_none_inv in HB; [exact HB|]. rewrite Hc. apply lookup_empty.
Qed.

Section Inst.
  Context (draw : Z -> gmap Z cobj -> Z * Z) (Hd : draws_residents draw).

  Lemma samples_resident n seed T u : T <> ∅ -> u ∈ (samples draw n seed T).1 -> is_Some (T !! u).
  Proof using Hd.
    intros Hne. revert seed. induction n as [|n IH]; intros seed; cbn; [by intros ?%elem_of_nil|].
    pose proof (Hd seed T Hne) as H. destruct (draw seed T) as [x s1]. cbn in H.
    specialize (IH s1). destruct (samples draw n s1 T) as [l s2]. cbn in *.
    intros [->|Hu]%elem_of_cons; auto.
  Qed.

  Lemma rand_obj_ok s : c_tbl (rn_c s) <> ∅ ->
    rand_obj draw s = Ok ((draw (rn_seed s) (c_tbl (rn_c s))).1,
                          rn_set_seed s (draw (rn_seed s) (c_tbl (rn_c s))).2) /\
    is_Some (c_tbl (rn_c s) !! (draw (rn_seed s) (c_tbl (rn_c s))).1).
  Proof using Hd.
    intros Hne. unfold rand_obj. rewrite decide_False by done.
    pose proof (Hd (rn_seed s) _ Hne) as H. destruct (draw (rn_seed s) (c_tbl (rn_c s))). done.
  Qed.

  (** [v] is one of the [n] samples, and has the least [o_p1] of them *)
  Definition oldest_of (n : nat) (s : rstate) (v : Z) : Prop :=
    v ∈ (samples draw n (rn_seed s) (c_tbl (rn_c s))).1 /\
    forall u ov ou, u ∈ (samples draw n (rn_seed s) (c_tbl (rn_c s))).1 ->
      c_tbl (rn_c s) !! v = Some ov -> c_tbl (rn_c s) !! u = Some ou -> o_p1 ov <= o_p1 ou.

  Lemma two_pick_ok s : c_tbl (rn_c s) <> ∅ ->
    exists v seed, two_pick draw s = Ok (v, rn_set_seed s seed) /\ is_Some (c_tbl (rn_c s) !! v) /\ oldest_of 2 s v.
  Proof using Hd.
    intros Hne. unfold two_pick, oldest_of. cbn [samples].
    destruct (rand_obj_ok s Hne) as (-> & Ha). cbn.
    destruct (draw (rn_seed s) (c_tbl (rn_c s))) as [a s1]. cbn in *.
    destruct (rand_obj_ok (rn_set_seed s s1) Hne) as (-> & Hb). cbn in *.
    destruct (draw s1 (c_tbl (rn_c s))) as [b s2]. cbn in *.
    destruct Ha as [oa Ha], Hb as [ob Hb]. unfold rn_obj. cbn. rewrite Ha. cbn. rewrite Hb. cbn.
    destruct (decide _) as [Hlt|Hge].
    - exists a, s2. split_and!; [done|eauto|set_solver|].
      intros u ov ou [->|[->|?%elem_of_nil]%elem_of_cons]%elem_of_cons Hv Hu; try done.
      + assert (ov = ou) by congruence. subst. lia.
      + assert (ov = oa) by congruence. assert (ou = ob) by congruence. subst. lia.
    - exists b, s2. split_and!; [done|eauto|set_solver|].
      intros u ov ou [->|[->|?%elem_of_nil]%elem_of_cons]%elem_of_cons Hv Hu; try done.
      + assert (ov = ob) by congruence. assert (ou = oa) by congruence. subst. lia.
      + assert (ov = ou) by congruence. subst. lia.
  Qed.

  Lemma rand_objs_ok n : forall s, c_tbl (rn_c s) <> ∅ ->
    rand_objs draw n s = Ok ((samples draw n (rn_seed s) (c_tbl (rn_c s))).1,
                             rn_set_seed s (samples draw n (rn_seed s) (c_tbl (rn_c s))).2).
  Proof using Hd.
    induction n as [|n IH]; intros s Hne; cbn.
    - by destruct s.
    - destruct (rand_obj_ok s Hne) as (-> & Ha). cbn.
      destruct (draw (rn_seed s) (c_tbl (rn_c s))) as [a s1]. cbn in *.
      rewrite (IH (rn_set_seed s s1) Hne). cbn.
      by destruct (samples draw n s1 (c_tbl (rn_c s))) as [l s2].
  Qed.

  Lemma oldest_ok s l : forall x, (forall u, u ∈ x :: l -> is_Some (c_tbl (rn_c s) !! u)) ->
    exists v, oldest s x l = Ok v /\ v ∈ x :: l /\
      forall u ov ou, u ∈ x :: l -> c_tbl (rn_c s) !! v = Some ov -> c_tbl (rn_c s) !! u = Some ou -> o_p1 ov <= o_p1 ou.
  Proof using Hd.
    induction l as [|y l IH]; intros x Hr; cbn; unfold rn_obj.
    - destruct (Hr x) as [o Ho]; [set_solver|]. rewrite Ho. cbn. exists x. split_and!; [done|set_solver|].
      intros u ov ou ->%elem_of_list_singleton Hv Hu. assert (ov = ou) by congruence. subst. lia.
    - destruct (Hr x) as [ox Hx]; [set_solver|]. destruct (Hr y) as [oy Hy]; [set_solver|].
      rewrite Hx. cbn. rewrite Hy. cbn.
      destruct (decide _) as [Hlt|Hge].
      + destruct (IH y) as (v & -> & Hv & Hmin); [set_solver|]. exists v. split_and!; [done|set_solver|].
        intros u ov ou [->|Hu]%elem_of_cons Hov Hou; [|by apply (Hmin u)].
        assert (ou = ox) by congruence. subst.
        assert (o_p1 ov <= o_p1 oy) by (apply (Hmin y); [set_solver|done|done]). lia.
      + destruct (IH x) as (v & -> & Hv & Hmin); [set_solver|]. exists v. split_and!; [done|set_solver|].
        intros u ov ou [->|[->|Hu]%elem_of_cons]%elem_of_cons Hov Hou.
        * apply (Hmin x); [set_solver|done|done].
        * assert (ou = oy) by congruence. subst.
          assert (o_p1 ov <= o_p1 ox) by (apply (Hmin x); [set_solver|done|done]). lia.
        * apply (Hmin u); [set_solver|done|done].
  Qed.

  Lemma evict_base_ok s v : is_Some (c_tbl (rn_c s) !! v) -> exists c', cache_evict_base (rn_c s) v = Ok c'.
  Proof using. intros [o Ho]. unfold cache_evict_base, cache_remove_obj_base. rewrite Ho. eauto. Qed.

  Definition two_ev_ok (s : rstate) (r : req) : c_tbl (rn_c s) <> ∅ ->
    exists v s2 c', is_Some (c_tbl (rn_c s) !! v) /\ oldest_of 2 s v /\ two_evict draw s r = Ok s2 /\
       cache_evict_base (rn_c s) v = Ok c' /\ rn_c s2 = c' /\ rn_gen s2 = rn_gen s.
  Proof using Hd.
    intros Hne. destruct (two_pick_ok s Hne) as (v & seed & Hp & Hv & Ho).
    unfold two_evict. rewrite Hp. cbn. destruct (evict_base_ok s v Hv) as (c' & Hc).
    rewrite Hc. cbn. exists v. eexists _, c'. split_and!; done.
  Qed.

  Definition rlru_ev_ok (s : rstate) (r : req) : c_tbl (rn_c s) <> ∅ ->
    exists v s2 c', is_Some (c_tbl (rn_c s) !! v) /\ oldest_of 64 s v /\ rlru_evict draw s r = Ok s2 /\
       cache_evict_base (rn_c s) v = Ok c' /\ rn_c s2 = c' /\ rn_gen s2 = rn_gen s.
  Proof using Hd.
    intros Hne. unfold rlru_evict, oldest_of. rewrite (rand_objs_ok 64 s Hne).
    pose proof (samples_resident 64 (rn_seed s) (c_tbl (rn_c s))) as Hr.
    assert (Hl : length (samples draw 64 (rn_seed s) (c_tbl (rn_c s))).1 = 64%nat).
    { generalize (rn_seed s). generalize 64%nat. clear. induction n as [|n IH]; intros seed; [done|]. cbn.
      destruct (draw seed _) as [x s1]. specialize (IH s1). destruct (samples draw n s1 _). cbn in *. lia. }
    destruct (samples draw 64 (rn_seed s) (c_tbl (rn_c s))) as [l seed]. cbn [fst snd] in *. cbn.
    destruct l as [|x l]; [done|].
    destruct (oldest_ok (rn_set_seed s seed) l x) as (v & Ho & Hv & Hmin).
    { intros u Hu. by apply Hr. }
    rewrite Ho. cbn. destruct (evict_base_ok s v) as (c' & Hc); [by apply Hr|].
    rewrite Hc. cbn. exists v. eexists _, c'. split_and!; try done. by apply Hr.
  Qed.

  (** ** The API properties *)
  Definition X_any (n t : Z) (T : gmap Z cobj) (m : gmap Z entry) : Prop := True.

  Lemma c_upd_id c id : c_upd c id (fun o => o) = c.
  Proof using.
    destruct c. unfold c_upd, c_set_tbl; cbn. f_equal. apply map_eq. intros i.
    destruct (decide (i = id)) as [->|Hne].
    - rewrite lookup_alter. by destruct (_ !! id).
    - by rewrite lookup_alter_ne.
  Qed.

  Lemma random_wsim cap md : 0 <= md ->
    wsimulation pol_any (random_ops draw) cap md (call_ok (req_ok md)) (rrel cap md X_any).
  Proof using Hd.
    intros Hmd. eapply (rn_wsim _ _ _ _ _ X_any X_any (fun _ o => o) (fun _ o => o)); try done.
    - by intros r [H|H].
    - intros s r u. cbn. unfold random_find. destruct (cache_find_base (rn_c s) r u) as [c b].
      by destruct (b && u)%bool; rewrite ?c_upd_id.
    - intros s r. cbn. unfold random_insert. destruct (cache_insert_base (rn_c s) r) as [c|]; cbn; [|done].
      by rewrite c_upd_id.
    - intros s t m a r Hok (HB & Hg & _) Hne _. pose proof (tbl_ne _ _ _ _ _ _ HB Hne) as Hne'.
      destruct (rand_obj_ok s Hne') as (Hr & Hs). destruct (evict_base_ok s _ Hs) as (c' & Hc).
      cbn. unfold random_evict. rewrite Hr. cbn. rewrite Hc. cbn. eexists _, _, _. split_and!; try done.
      by apply (brel_is_Some _ _ _ _ _ HB).
    - intros s t m a r Hok (HB & Hg & _) Hne _. pose proof (tbl_ne _ _ _ _ _ _ HB Hne) as Hne'.
      destruct (rand_obj_ok s Hne') as (Hr & Hs). destruct (evict_base_ok s _ Hs) as (c' & Hc).
      cbn. unfold random_evict. rewrite Hr. cbn. rewrite Hc. cbn. eexists _, _, _. split_and!; try done.
      by apply (brel_is_Some _ _ _ _ _ HB).
    - intros s t m a r Hok (HB & Hg & _) Hne _. pose proof (tbl_ne _ _ _ _ _ _ HB Hne) as Hne'.
      destruct (rand_obj_ok s Hne') as (Hr & Hs). cbn. unfold random_to_evict. rewrite Hr. cbn.
      eexists _, _. split_and!; try done. by apply (brel_is_Some _ _ _ _ _ HB).
  Qed.

  Lemma two_wsim cap md : 0 <= md ->
    wsimulation pol_any (two_ops draw) cap md (call_ok (req_ok md)) (rrel cap md X_any).
  Proof using Hd.
    intros Hmd.
    eapply (rn_wsim _ _ _ _ _ X_any X_any (fun n o => o_set_p1 o n) (fun n o => o_set_p1 o n)); try done.
    - by intros r [H|H].
    - intros s t m a r Hok (HB & Hg & _) Hne _. pose proof (tbl_ne _ _ _ _ _ _ HB Hne) as Hne'.
      destruct (two_ev_ok s r Hne') as (v & s2 & c' & Hv & _ & He & Hc & H2 & H3).
      exists v, s2, c'. split_and!; try done; [by apply (brel_is_Some _ _ _ _ _ HB)|congruence].
    - intros s t m a r Hok (HB & Hg & _) Hne _. pose proof (tbl_ne _ _ _ _ _ _ HB Hne) as Hne'.
      destruct (two_ev_ok s r Hne') as (v & s2 & c' & Hv & _ & He & Hc & H2 & H3).
      exists v, s2, c'. split_and!; try done; [by apply (brel_is_Some _ _ _ _ _ HB)|congruence].
    - intros s t m a r Hok (HB & Hg & _) Hne _. pose proof (tbl_ne _ _ _ _ _ _ HB Hne) as Hne'.
      destruct (two_pick_ok s Hne') as (v & seed & Hp & Hv & _). cbn. unfold two_to_evict. rewrite Hp. cbn.
      eexists _, _. split_and!; try done. by apply (brel_is_Some _ _ _ _ _ HB).
  Qed.

  Lemma rlru_wsim cap md : 0 <= md ->
    wsimulation pol_any (rlru_ops draw) cap md (no_to_evict md) (rrel cap md X_any).
  Proof using Hd.
    intros Hmd.
    eapply (rn_wsim _ _ _ _ _ X_any X_any (fun n o => o_set_p1 o n) (fun n o => o_set_p1 o n)); try done.
    - by intros r [H|H].
    - intros s t m a r Hok (HB & Hg & _) Hne _. pose proof (tbl_ne _ _ _ _ _ _ HB Hne) as Hne'.
      destruct (rlru_ev_ok s r Hne') as (v & s2 & c' & Hv & _ & He & Hc & H2 & H3).
      exists v, s2, c'. split_and!; try done; [by apply (brel_is_Some _ _ _ _ _ HB)|congruence].
    - intros s t m a r Hok (HB & Hg & _) Hne _. pose proof (tbl_ne _ _ _ _ _ _ HB Hne) as Hne'.
      destruct (rlru_ev_ok s r Hne') as (v & s2 & c' & Hv & _ & He & Hc & H2 & H3).
      exists v, s2, c'. split_and!; try done; [by apply (brel_is_Some _ _ _ _ _ HB)|congruence].
  Qed.

  (** ** The order of last_access_vtime is that of the last uses *)
  Definition X_ord (n t : Z) (T : gmap Z cobj) (m : gmap Z entry) : Prop :=
    (forall id o, T !! id = Some o -> o_p1 o <= n) /\
    (forall i j oi oj ei ej, T !! i = Some oi -> T !! j = Some oj -> m !! i = Some ei -> m !! j = Some ej ->
       e_last ei < e_last ej -> o_p1 oi < o_p1 oj).
  Definition X_ord1 (n t : Z) (T : gmap Z cobj) (m : gmap Z entry) : Prop :=
    (forall id o, T !! id = Some o -> o_p1 o < n) /\
    (forall i j oi oj ei ej, T !! i = Some oi -> T !! j = Some oj -> m !! i = Some ei -> m !! j = Some ej ->
       e_last ei < e_last ej -> o_p1 oi < o_p1 oj).

  Lemma X_ord_upd cap md n t T m a id o e :
    abs_ok cap md (mkAbs t m a) -> X_ord1 n t T m -> o_p1 o = n -> e_last e = t ->
    X_ord n (t + 1) (<[id := o]> T) (<[id := e]> m).
  Proof using.
    intros (_ & Hok & _) (H1 & H2) Ho He. cbn in Hok. split.
    - intros i oi. destruct (decide (i = id)) as [->|Hne].
      + rewrite lookup_insert. intros [= <-]. lia.
      + rewrite lookup_insert_ne by done. intros H%H1. lia.
    - intros i j oi oj ei ej.
      destruct (decide (i = id)) as [->|Hi]; destruct (decide (j = id)) as [->|Hj];
        rewrite ?lookup_insert, ?lookup_insert_ne by done.
      + intros [= <-] [= <-] [= <-] [= <-]. lia.
      + intros [= <-] Hoj [= <-] Hej Hlt. apply Hok in Hej. lia.
      + intros Hoi [= <-] Hei [= <-] Hlt. apply H1 in Hoi. lia.
      + eauto.
  Qed.

  Lemma X_ord_del n t T m v : X_ord n t T m -> X_ord n t (delete v T) (delete v m).
  Proof using.
    intros (H1 & H2). split.
    - intros i oi Hi%lookup_delete_Some. naive_solver.
    - intros i j oi oj ei ej Hoi%lookup_delete_Some Hoj%lookup_delete_Some Hei%lookup_delete_Some Hej%lookup_delete_Some.
      destruct Hoi, Hoj, Hei, Hej. eauto.
  Qed.
  Lemma X_ord1_del n t T m v : X_ord1 n t T m -> X_ord1 n t (delete v T) (delete v m).
  Proof using.
    intros (H1 & H2). split.
    - intros i oi Hi%lookup_delete_Some. naive_solver.
    - intros i j oi oj ei ej Hoi%lookup_delete_Some Hoj%lookup_delete_Some Hei%lookup_delete_Some Hej%lookup_delete_Some.
      destruct Hoi, Hoj, Hei, Hej. eauto.
  Qed.
  Lemma X_ord_tick n t T m : X_ord n t T m -> X_ord1 (n + 1) t T m.
  Proof using. intros (H1 & H2). split; [|done]. intros id o H%H1. lia. Qed.
  Lemma X_ord_done n t T m : X_ord1 n t T m -> X_ord n (t + 1) T m.
  Proof using. intros (H1 & H2). split; [|done]. intros id o H%H1. lia. Qed.

  Lemma two_wsim_ord cap md : 0 <= md ->
    wsimulation pol_any (two_ops draw) cap md (get_uses md) (rrel cap md X_ord).
  Proof using Hd.
    intros Hmd.
    eapply (rn_wsim _ _ _ _ _ X_ord X_ord1 (fun n o => o_set_p1 o n) (fun n o => o_set_p1 o n)); try done.
    - by intros r [H|H].
    - apply X_ord_tick.
    - apply X_ord_done.
    - intros n t T m a r o e Hok _ HX Ho He. by eapply X_ord_upd.
    - intros n t T m a r Hok _ HX Ho He. by eapply X_ord_upd.
    - intros n t T m v. apply X_ord_del.
    - intros n t T m v. apply X_ord1_del.
    - intros s t m a r Hok (HB & Hg & _) Hne _. pose proof (tbl_ne _ _ _ _ _ _ HB Hne) as Hne'.
      destruct (two_ev_ok s r Hne') as (v & s2 & c' & Hv & _ & He & Hc & H2 & H3).
      exists v, s2, c'. split_and!; try done; [by apply (brel_is_Some _ _ _ _ _ HB)|congruence].
    - intros s t m a r Hok (HB & Hg & _) Hne _. pose proof (tbl_ne _ _ _ _ _ _ HB Hne) as Hne'.
      destruct (two_ev_ok s r Hne') as (v & s2 & c' & Hv & _ & He & Hc & H2 & H3).
      exists v, s2, c'. split_and!; try done; [by apply (brel_is_Some _ _ _ _ _ HB)|congruence].
  Qed.

  Lemma rlru_wsim_ord cap md : 0 <= md ->
    wsimulation pol_any (rlru_ops draw) cap md (get_uses md) (rrel cap md X_ord).
  Proof using Hd.
    intros Hmd.
    eapply (rn_wsim _ _ _ _ _ X_ord X_ord1 (fun n o => o_set_p1 o n) (fun n o => o_set_p1 o n)); try done.
    - by intros r [H|H].
    - apply X_ord_tick.
    - apply X_ord_done.
    - intros n t T m a r o e Hok _ HX Ho He. by eapply X_ord_upd.
    - intros n t T m a r Hok _ HX Ho He. by eapply X_ord_upd.
    - intros n t T m v. apply X_ord_del.
    - intros n t T m v. apply X_ord1_del.
    - intros s t m a r Hok (HB & Hg & _) Hne _. pose proof (tbl_ne _ _ _ _ _ _ HB Hne) as Hne'.
      destruct (rlru_ev_ok s r Hne') as (v & s2 & c' & Hv & _ & He & Hc & H2 & H3).
      exists v, s2, c'. split_and!; try done; [by apply (brel_is_Some _ _ _ _ _ HB)|congruence].
    - intros s t m a r Hok (HB & Hg & _) Hne _. pose proof (tbl_ne _ _ _ _ _ _ HB Hne) as Hne'.
      destruct (rlru_ev_ok s r Hne') as (v & s2 & c' & Hv & _ & He & Hc & H2 & H3).
      exists v, s2, c'. split_and!; try done; [by apply (brel_is_Some _ _ _ _ _ HB)|congruence].
  Qed.

  Lemma oldest_last cap md n s t m a v : c_tbl (rn_c s) <> ∅ -> rrel cap md X_ord s (mkAbs t m a) -> oldest_of n s v ->
    forall ev, m !! v = Some ev ->
    forall u, u ∈ (samples draw n (rn_seed s) (c_tbl (rn_c s))).1 ->
      exists eu, m !! u = Some eu /\ e_last ev <= e_last eu.
  Proof using Hd.
    intros Hne (HB & _ & _ & HX1 & HX2) (Hv & Hmin) ev Hev u Hu.
    pose proof (samples_resident _ _ _ _ Hne Hu) as [ou Hou].
    destruct (brel_some_inv _ _ _ _ _ _ HB Hou) as (eu & Heu & _).
    destruct (brel_some _ _ _ _ _ _ HB Hev) as (ov & Hov & _).
    exists eu. split; [done|]. destruct (decide (e_last ev <= e_last eu)); [done|].
    assert (o_p1 ou < o_p1 ov) by (eapply (HX2 u v); eauto; lia).
    specialize (Hmin u ov ou Hu Hov Hou). lia.
  Qed.

  (** ** Hyperbolic *)
  Context (score : Z -> Z -> Z) (smax : Z) (n_sample : nat).
  Context (Hsc : forall f a, 1 <= f <= a -> score f a < smax) (Hns : (1 <= n_sample)%nat).

  (** every object has been used at most once per unit of age *)
  Definition X_hyp (n t : Z) (T : gmap Z cobj) (m : gmap Z entry) : Prop :=
    forall id o, T !! id = Some o -> 1 <= o_p1 o <= n - o_p2 o + 1.
  Definition X_hyp1 (n t : Z) (T : gmap Z cobj) (m : gmap Z entry) : Prop :=
    forall id o, T !! id = Some o -> 1 <= o_p1 o <= n - o_p2 o.

  (** [v] is one of the samples and no sample scores lower *)
  Definition least_of (s : rstate) (v : Z) : Prop :=
    v ∈ (samples draw n_sample (rn_seed s) (c_tbl (rn_c s))).1 /\
    forall u ov ou, u ∈ (samples draw n_sample (rn_seed s) (c_tbl (rn_c s))).1 ->
      c_tbl (rn_c s) !! v = Some ov -> c_tbl (rn_c s) !! u = Some ou ->
      score (o_p1 ov) (c_nreq (rn_c s) - o_p2 ov) <= score (o_p1 ou) (c_nreq (rn_c s) - o_p2 ou).

  Lemma hyp_loop_ok n : forall s best bs, c_tbl (rn_c s) <> ∅ ->
    let T := c_tbl (rn_c s) in let sc o := score (o_p1 o) (c_nreq (rn_c s) - o_p2 o) in
    exists v seed, hyp_loop draw score n s best bs = Ok (v, rn_set_seed s seed) /\
      (v = best /\ (forall u o, u ∈ (samples draw n (rn_seed s) T).1 -> T !! u = Some o -> bs <= sc o) \/
       exists x o, v = Some x /\ x ∈ (samples draw n (rn_seed s) T).1 /\ T !! x = Some o /\ sc o < bs /\
         forall u ou, u ∈ (samples draw n (rn_seed s) T).1 -> T !! u = Some ou -> sc o <= sc ou).
  Proof using Hd Hsc Hns.
    induction n as [|n IH]; intros s best bs Hne; cbn.
    - exists best, (rn_seed s). split; [by destruct s|]. left. split; [done|]. by intros u o ?%elem_of_nil.
    - destruct (rand_obj_ok s Hne) as (-> & Hx). cbn.
      destruct (draw (rn_seed s) (c_tbl (rn_c s))) as [x s1]. cbn in *.
      destruct Hx as [o Ho]. unfold rn_obj. cbn. rewrite Ho. cbn.
      destruct (decide _) as [Hgt|Hle].
      + destruct (IH (rn_set_seed s s1) (Some x) (score (o_p1 o) (c_nreq (rn_c s) - o_p2 o)) Hne)
          as (v & seed & Hl & H). cbn in H. exists v, seed.
        destruct (samples draw n s1 (c_tbl (rn_c s))) as [l s2]. cbn in *. split; [exact Hl|]. right.
        destruct H as [(-> & Hmin)|(y & oy & -> & Hy & Hoy & Hlt & Hmin)].
        * exists x, o. split_and!; [done|set_solver|done|lia|].
          intros u ou [->|Hu]%elem_of_cons Hou; [|by apply (Hmin u)].
          rewrite Ho in Hou. injection Hou as ->. lia.
        * exists y, oy. split_and!; [done|set_solver|done|lia|].
          intros u ou [->|Hu]%elem_of_cons Hou; [|by apply (Hmin u)].
          rewrite Ho in Hou. injection Hou as ->. lia.
      + destruct (IH (rn_set_seed s s1) best bs Hne) as (v & seed & Hl & H). cbn in H. exists v, seed.
        destruct (samples draw n s1 (c_tbl (rn_c s))) as [l s2]. cbn in *. split; [exact Hl|].
        destruct H as [(-> & Hmin)|(y & oy & -> & Hy & Hoy & Hlt & Hmin)].
        * left. split; [done|]. intros u ou [->|Hu]%elem_of_cons Hou; [|by apply (Hmin u)].
          rewrite Ho in Hou. injection Hou as ->. lia.
        * right. exists y, oy. split_and!; [done|set_solver|done|lia|].
          intros u ou [->|Hu]%elem_of_cons Hou; [|by apply (Hmin u)].
          rewrite Ho in Hou. injection Hou as ->. lia.
  Qed.

  Lemma hyp_ev_ok s r : c_tbl (rn_c s) <> ∅ -> rn_gen s = -1 -> 0 <= c_nreq (rn_c s) ->
    (forall id o, c_tbl (rn_c s) !! id = Some o -> 1 <= o_p1 o <= c_nreq (rn_c s) - o_p2 o) ->
    exists v s2 c', is_Some (c_tbl (rn_c s) !! v) /\ least_of s v /\
       hyp_evict draw score smax n_sample s r = Ok s2 /\
       cache_evict_base (rn_c s) v = Ok c' /\ rn_c s2 = c' /\ rn_gen s2 = -1.
  Proof using Hd Hsc Hns.
    intros Hne Hg Hn HX. unfold hyp_evict. rewrite decide_False by lia. unfold hyp_to_evict.
    destruct (hyp_loop_ok n_sample s None smax Hne) as (v & seed & -> & H). cbn.
    destruct H as [(-> & Hmin)|(x & o & -> & Hx & Ho & Hlt & Hmin)].
    - exfalso. destruct n_sample as [|k]; [lia|]. cbn in Hmin.
      destruct (rand_obj_ok s Hne) as (_ & [o Ho]).
      destruct (draw (rn_seed s) (c_tbl (rn_c s))) as [x s1]. cbn in Ho.
      destruct (samples draw k s1 (c_tbl (rn_c s))) as [l s2]. cbn in Hmin.
      specialize (Hmin x o). specialize (HX x o Ho).
      assert (score (o_p1 o) (c_nreq (rn_c s) - o_p2 o) < smax) by (apply Hsc; lia).
      assert (smax <= score (o_p1 o) (c_nreq (rn_c s) - o_p2 o)) by (apply Hmin; [set_solver|done]). lia.
    - destruct (evict_base_ok s x) as (c' & Hc); [eauto|]. rewrite Hc. cbn.
      exists x. eexists _, c'. split_and!; try done.
      split; [done|]. intros u ov ou Hu Hov Hou. rewrite Ho in Hov. injection Hov as <-. by apply (Hmin u).
  Qed.

  Lemma hyp_wsim cap md : 0 <= md ->
    wsimulation pol_any (hyp_ops draw score smax n_sample) cap md (get_evicts md) (rrel cap md X_hyp).
  Proof using Hd Hsc Hns.
    intros Hmd.
    eapply (rn_wsim _ _ _ _ _ X_hyp X_hyp1 (fun n o => o_set_p1 o (o_p1 o + 1))
      (fun n o => o_set_p2 (o_set_p1 o 1) n)); try done.
    - by intros r [H|H].
    - intros n t T m H id o Ho. specialize (H id o Ho). lia.
    - intros n t T m H id o Ho. specialize (H id o Ho). lia.
    - intros n t T m a r o e _ _ H Ho _ i oi. destruct (decide (i = r_id r)) as [->|Hi].
      + rewrite lookup_insert. intros [= <-]. cbn. specialize (H _ _ Ho). lia.
      + rewrite lookup_insert_ne by done. intros Hoi. specialize (H _ _ Hoi). lia.
    - intros n t T m a r _ _ H Ho _ i oi. destruct (decide (i = r_id r)) as [->|Hi].
      + rewrite lookup_insert. intros [= <-]. cbn. lia.
      + rewrite lookup_insert_ne by done. intros Hoi. specialize (H _ _ Hoi). lia.
    - intros n t T m a r _ _ H Ho _ i oi. destruct (decide (i = r_id r)) as [->|Hi].
      + rewrite lookup_insert. intros [= <-]. cbn. lia.
      + rewrite lookup_insert_ne by done. intros Hoi. specialize (H _ _ Hoi). lia.
    - intros n t T m v H i oi Hi%lookup_delete_Some. apply (H i). tauto.
    - intros n t T m v H i oi Hi%lookup_delete_Some. apply (H i). tauto.
    - intros s t m a r Hok (HB & Hg & Hn & HX) Hne _. pose proof (tbl_ne _ _ _ _ _ _ HB Hne) as Hne'.
      destruct (hyp_ev_ok s r Hne' Hg Hn HX) as (v & s2 & c' & Hv & _ & He & Hc & H2 & H3).
      exists v, s2, c'. split_and!; try done. by apply (brel_is_Some _ _ _ _ _ HB).
  Qed.

  (** For traces: frequency and age in terms of the abstract cache. *)
  Definition X_tr (n t : Z) (T : gmap Z cobj) (m : gmap Z entry) : Prop :=
    n = t /\ forall id o e, T !! id = Some o -> m !! id = Some e ->
      o_p1 o = e_cnt e /\ o_p2 o = e_ins e + 1 /\ 1 <= e_cnt e <= t - e_ins e.
  Definition X_tr1 (n t : Z) (T : gmap Z cobj) (m : gmap Z entry) : Prop :=
    n = t + 1 /\ forall id o e, T !! id = Some o -> m !! id = Some e ->
      o_p1 o = e_cnt e /\ o_p2 o = e_ins e + 1 /\ 1 <= e_cnt e <= t - e_ins e.

  Lemma hyp_ev_tr cap md s t m a r : rrel cap md X_tr1 s (mkAbs t m a) -> m <> ∅ ->
    exists v s2 c', is_Some (m !! v) /\ least_of s v /\
       hyp_evict draw score smax n_sample s r = Ok s2 /\
       cache_evict_base (rn_c s) v = Ok c' /\ rn_c s2 = c' /\ rn_gen s2 = -1.
  Proof using Hd Hsc Hns.
    intros (HB & Hg & Hn & Hnt & HX) Hne. pose proof (tbl_ne _ _ _ _ _ _ HB Hne) as Hne'.
    destruct (hyp_ev_ok s r Hne' Hg Hn) as (v & s2 & c' & Hv & Hl & He & Hc & H2 & H3).
    { intros id o Ho. destruct (brel_some_inv _ _ _ _ _ _ HB Ho) as (e & He & _).
      specialize (HX _ _ _ Ho He). cbn in *. lia. }
    exists v, s2, c'. split_and!; try done. by apply (brel_is_Some _ _ _ _ _ HB).
  Qed.

  Lemma hyp_wsim_tr cap md : 0 <= md ->
    wsimulation pol_any (hyp_ops draw score smax n_sample) cap md (gets_only md) (rrel cap md X_tr).
  Proof using Hd Hsc Hns.
    intros Hmd.
    eapply (rn_wsim _ _ _ _ _ X_tr X_tr1 (fun n o => o_set_p1 o (o_p1 o + 1))
      (fun n o => o_set_p2 (o_set_p1 o 1) n)); try done.
    - by intros r [H|H].
    - intros n t T m (-> & H). split; [done|]. exact H.
    - intros n t T m (-> & H). split; [done|]. intros id o e Ho He. specialize (H _ _ _ Ho He). lia.
    - intros ([] & Hc & Hg); done.
    - intros n t T m a r o e (_ & Hok & _) _ (-> & H) Ho He. split; [done|]. intros i oi ei.
      destruct (decide (i = r_id r)) as [->|Hi].
      + rewrite !lookup_insert. intros [= <-] [= <-]. cbn. specialize (H _ _ _ Ho He). lia.
      + rewrite !lookup_insert_ne by done. intros Hoi Hei. specialize (H _ _ _ Hoi Hei). lia.
    - intros n t T m a r (_ & Hok & _) _ (-> & H) Ho He. split; [done|]. intros i oi ei.
      destruct (decide (i = r_id r)) as [->|Hi].
      + rewrite !lookup_insert. intros [= <-] [= <-]. cbn. lia.
      + rewrite !lookup_insert_ne by done. intros Hoi Hei. specialize (H _ _ _ Hoi Hei). lia.
    - intros n t T m v (-> & H). split; [done|].
      intros i oi ei Hi%lookup_delete_Some He%lookup_delete_Some. apply (H i); tauto.
    - intros n t T m v (-> & H). split; [done|].
      intros i oi ei Hi%lookup_delete_Some He%lookup_delete_Some. apply (H i); tauto.
    - intros s t m a r Hok HR Hne _.
      destruct (hyp_ev_tr _ _ _ _ _ _ r HR Hne) as (v & s2 & c' & Hv & _ & He & Hc & H2 & H3).
      exists v, s2, c'. split_and!; done.
  Qed.
End Inst.
