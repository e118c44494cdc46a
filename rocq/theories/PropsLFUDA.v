(** C37: LFU with dynamic aging.  Full statement: no client program crashes,
    and every victim has the least aged frequency.  Both halves are false
    (refutations at the end); what holds is below. *)
From stdpp Require Import gmap list numbers fin_maps.
From Verif Require Import Base Driver Abs AbsFacts Sim PSim ModelQueue QueueFacts SimClock ModelLFU ModelLFUDA.
Open Scope Z_scope.

(** The aged frequency of each cached object. *)
Definition aged (s : lfu_state) : gmap Z Z := o_p1 <$> c_tbl (l_c s).

Definition nodes_ok (p : gmap Z Z) (fm : gmap Z fnode) : Prop :=
  (forall f nd, fm !! f = Some nd ->
     fn_n nd = Z.of_nat (length (fn_q nd)) /\ NoDup (fn_q nd) /\
     forall id, id ∈ fn_q nd <-> p !! id = Some f) /\
  (forall id f, p !! id = Some f -> is_Some (fm !! f)).

Lemma nodes_take p fm id f nd : nodes_ok p fm -> p !! id = Some f -> fm !! f = Some nd ->
  nodes_ok (delete id p) (<[f := mkNode (fn_n nd - 1) (q_del id (fn_q nd))]> fm).
Proof.
  intros [A B] Hp Hf. split.
  - intros g nd' Hg. apply lookup_insert_Some in Hg as [[<- <-]|[Hne Hg]].
    + destruct (A _ _ Hf) as (A1 & A2 & A3). cbn. split_and!.
      * assert (Hin : id ∈ fn_q nd) by (by apply A3).
        apply elem_of_list_split in Hin as (q1 & q2 & Hq). rewrite Hq in *.
        rewrite q_del_mid by done. rewrite A1, !app_length. cbn. lia.
      * by apply NoDup_q_del.
      * intros i. rewrite elem_q_del, A3, lookup_delete_Some. split; intros [? ?]; split; congruence.
    + destruct (A _ _ Hg) as (A1 & A2 & A3). split_and!; [done|done|].
      intros i. rewrite A3, lookup_delete_Some. split; [|tauto]. intros Hi. split; [|done].
      intros ->. congruence.
  - intros i g [_ Hg]%lookup_delete_Some. destruct (decide (g = f)) as [->|Hd].
    + rewrite lookup_insert. eauto.
    + rewrite lookup_insert_ne by done. by eapply B.
Qed.

Lemma nodes_add p fm id f : nodes_ok p fm -> p !! id = None ->
  nodes_ok (<[id := f]> p) (node_add fm f id).
Proof.
  intros [A B] Hp. unfold node_add. split.
  - intros g nd' Hg. apply lookup_insert_Some in Hg as [[<- <-]|[Hne Hg]].
    + assert (Hd : let nd := default (mkNode 0 []) (fm !! f) in
                fn_n nd = Z.of_nat (length (fn_q nd)) /\ NoDup (fn_q nd) /\
                forall i, i ∈ fn_q nd <-> p !! i = Some f).
      { destruct (fm !! f) as [nd|] eqn:E; cbn; [by apply A|]. split_and!; [done|constructor|].
        intros i. split; [intros H; inversion H|]. intros Hi. destruct (B _ _ Hi) as [? ?]. congruence. }
      cbn zeta in Hd. set (nd := default _ _) in *. destruct Hd as (A1 & A2 & A3). cbn. split_and!.
      * rewrite app_length. cbn. lia.
      * apply NoDup_app. split_and!; [done| |apply NoDup_singleton].
        intros i Hi Hi'. apply elem_of_list_singleton in Hi' as ->. apply A3 in Hi. congruence.
      * intros i. rewrite elem_of_app, elem_of_list_singleton, A3.
        destruct (decide (i = id)) as [->|Hd].
        -- rewrite lookup_insert. split; [done|]. by right.
        -- rewrite lookup_insert_ne by done. split; [by intros [?|?]|by left].
    + destruct (A _ _ Hg) as (A1 & A2 & A3). split_and!; [done|done|].
      intros i. rewrite A3. destruct (decide (i = id)) as [->|Hd].
      * rewrite lookup_insert. split; congruence.
      * by rewrite lookup_insert_ne.
  - intros i g Hg. destruct (decide (g = f)) as [->|Hd]; [rewrite lookup_insert; eauto|].
    rewrite lookup_insert_ne by done.
    apply lookup_insert_Some in Hg as [[_ ->]|[_ Hg]]; [done|]. by eapply B.
Qed.

Definition darel (cap md : Z) (s : lfu_state) (a : abs) : Prop :=
  brel cap md (l_c s) a /\ nodes_ok (aged s) (l_fm s) /\ is_Some (l_fm s !! 1).

Lemma node_add_one fm f id : is_Some (fm !! 1) -> is_Some (node_add fm f id !! 1).
Proof.
  intros H. unfold node_add. destruct (decide (f = 1)) as [->|Hd].
  - rewrite lookup_insert. eauto.
  - by rewrite lookup_insert_ne.
Qed.
Lemma insert_one (fm : gmap Z fnode) f nd : is_Some (fm !! 1) -> is_Some (<[f := nd]> fm !! 1).
Proof.
  intros H. destruct (decide (f = 1)) as [->|Hd].
  - rewrite lookup_insert. eauto.
  - by rewrite lookup_insert_ne.
Qed.

(** Every call but evict and to_evict. *)
Lemma lfuda_find_ok cap md s t m a r u : darel cap md s (mkAbs t m a) ->
  exists s', lfuda_find s r u = Ok (s', bool_decide (is_Some (m !! r_id r))) /\
    (u = false -> s' = s) /\
    (u = true -> forall e, m !! r_id r = Some e ->
       darel cap md s' (mkAbs (t + 1) (<[r_id r := touch t r e]> m) a)) /\
    (m !! r_id r = None -> darel cap md s' (mkAbs t m a)).
Proof.
  intros (H1 & H2 & H3). unfold lfuda_find. destruct u.
  2:{ rewrite (brel_find_false _ _ _ _ _ H1), andb_false_r. cbn. exists s. split; [by destruct s|].
      split_and!; [done|done|done]. }
  destruct (m !! r_id r) as [e|] eqn:E.
  2:{ rewrite (brel_find_miss _ _ _ _ _ true H1 E). cbn.
      exists s. split; [by destruct s|].
      split_and!; [done|done|done]. }
  destruct (brel_find_hit _ _ _ _ _ _ _ _ H1 E) as (c' & -> & Hb & o & Ho & Hc').
  rewrite bool_decide_true by eauto. cbn [andb].
  rewrite Hc'. cbn [c_tbl c_set_tbl]. rewrite lookup_insert. rewrite <- Hc'. cbn [o_p1 o_set_freq o_set_next].
  set (f := o_p1 o + l_min s). replace (f - l_min s) with (o_p1 o) by lia.
  assert (Hp : aged s !! r_id r = Some (o_p1 o)) by (unfold aged; by rewrite lookup_fmap, Ho).
  destruct (proj2 H2 _ _ Hp) as [old Hold]. rewrite Hold. eexists. split; [done|].
  split; [done|]. split; [|done]. intros _ e' [= <-]. split_and!.
  - by apply brel_upd.
  - cbn [l_c l_fm]. unfold aged. cbn [l_c].
    assert (Ea : o_p1 <$> c_tbl (c_upd c' (r_id r) (fun o0 => o_set_p1 o0 f))
                 = <[r_id r := f]> (delete (r_id r) (aged s))).
    { subst c'. unfold aged. cbn. apply map_eq. intros i. rewrite lookup_fmap.
      destruct (decide (i = r_id r)) as [->|Hd].
      - rewrite lookup_alter, !lookup_insert. done.
      - by rewrite lookup_alter_ne, !lookup_insert_ne, lookup_delete_ne, lookup_fmap. }
    rewrite Ea. apply nodes_add; [|apply lookup_delete]. by apply nodes_take.
  - cbn. by apply node_add_one, insert_one.
Qed.

Lemma lfuda_insert_ok cap md s t m a r : 0 <= md -> darel cap md s (mkAbs t m a) ->
  m !! r_id r = None -> req_ok md r ->
  exists s', lfuda_insert s r = Ok s' /\ darel cap md s' (mkAbs (t + 1) (<[r_id r := fresh t r]> m) a).
Proof.
  intros Hmd (H1 & H2 & H3) Hn Hr. unfold lfuda_insert.
  destruct (brel_insert _ _ _ _ _ _ r H1 Hn Hr Hmd) as (c' & -> & Hb & Ht). cbn [rbind].
  eexists. split; [done|]. split_and!.
  - by apply brel_upd.
  - cbn [l_fm]. unfold aged. cbn [l_c].
    assert (Ea : o_p1 <$> c_tbl (c_upd c' (r_id r) (fun o0 => o_set_p1 o0 (l_min s + 1)))
                 = <[r_id r := l_min s + 1]> (aged s)).
    { unfold aged. cbn. rewrite Ht. apply map_eq. intros i. rewrite lookup_fmap.
      destruct (decide (i = r_id r)) as [->|Hd].
      - rewrite lookup_alter, !lookup_insert. done.
      - by rewrite lookup_alter_ne, !lookup_insert_ne, lookup_fmap. }
    rewrite Ea. apply nodes_add; [done|]. unfold aged. rewrite lookup_fmap.
    by rewrite (brel_none _ _ _ _ (r_id r) H1 Hn).
  - cbn. by apply node_add_one.
Qed.

Lemma lfuda_remove_ok cap md s t m a id : abs_ok cap md (mkAbs t m a) -> darel cap md s (mkAbs t m a) ->
  exists s', lfuda_remove s id = Ok (s', bool_decide (is_Some (m !! id))) /\
    darel cap md s' (mkAbs t (delete id m) a).
Proof.
  intros Hok (H1 & H2 & H3). unfold lfuda_remove. destruct (m !! id) as [e|] eqn:E.
  - destruct (brel_some _ _ _ _ _ _ H1 E) as (o & Ho & _). rewrite Ho.
    assert (Hp : aged s !! id = Some (o_p1 o)) by (unfold aged; by rewrite lookup_fmap, Ho).
    destruct (proj2 H2 _ _ Hp) as [nd Hnd]. rewrite Hnd.
    destruct (brel_remove _ _ _ _ _ _ _ _ Hok H1 E) as (c' & -> & Hb & Ht). cbn [rbind].
    eexists. split; [by rewrite bool_decide_true by eauto|]. split_and!; [done| |].
    + cbn [l_fm]. unfold aged. cbn [l_c]. rewrite Ht, fmap_delete. by apply nodes_take.
    + cbn. by apply insert_one.
  - rewrite (brel_none _ _ _ _ _ H1 E). exists s. split; [by rewrite bool_decide_false by (by intros [])|].
    rewrite delete_notin by done. done.
Qed.

(** The frequency whose node get_min_freq_node looks at. *)
Definition believed_min (s : lfu_state) : Z := if decide (l_min s = 0 \/ l_min s = 1) then 1 else l_min s.

(** evict takes the oldest object of the believed minimum, and crashes when
    there is none. *)
Lemma lfuda_evict_ok cap md s t m a r : abs_ok cap md (mkAbs t m a) -> darel cap md s (mkAbs t m a) ->
  (exists v s', lfuda_evict s r = Ok s' /\ lfuda_to_evict s r = Ok (s, Some v) /\
     is_Some (m !! v) /\ aged s !! v = Some (believed_min s) /\
     aged s' = delete v (aged s) /\ darel cap md s' (mkAbs t (delete v m) a)) \/
  (lfuda_evict s r = Err NullDeref /\ forall id, aged s !! id <> Some (believed_min s)).
Proof.
  intros Hok (H1 & H2 & H3). unfold lfuda_evict, lfuda_to_evict, lfuda_min_node.
  fold (believed_min s). destruct (l_fm s !! believed_min s) as [nd|] eqn:E; cbn [rbind].
  2:{ right. split; [done|]. intros id Hid. destruct (proj2 H2 _ _ Hid) as [? ?]. congruence. }
  destruct (proj1 H2 _ _ E) as (A1 & A2 & A3). destruct (fn_q nd) as [|v q] eqn:Eq; cbn [rbind].
  { right. split; [done|]. intros id Hid. apply A3 in Hid. inversion Hid. }
  left. assert (Hv : aged s !! v = Some (believed_min s)) by (apply A3; left).
  assert (is_Some (m !! v)) as [e He].
  { eapply (brel_is_Some _ _ _ _ _ H1). unfold aged in Hv. rewrite lookup_fmap in Hv.
    destruct (c_tbl (l_c s) !! v); [eauto|done]. }
  destruct (brel_remove _ _ _ _ _ _ _ _ Hok H1 He) as (c' & Ec & Hb & Ht).
  unfold cache_evict_base. rewrite Ec. cbn [rbind]. exists v. eexists. split; [done|].
  split; [done|]. split; [eauto|]. split; [done|]. split.
  - unfold aged. cbn [l_c]. by rewrite Ht, fmap_delete.
  - split_and!; [done| |].
    + unfold aged. cbn [l_c l_fm]. rewrite Ht, fmap_delete. rewrite <- Eq. by apply nodes_take.
    + cbn. by apply insert_one.
Qed.

(** The same cache without its to_evict callback, for programs that do not
    call it. *)
Definition lfuda_ops' : ops lfu_state :=
  mkOps lfuda_find lfu_can_insert lfuda_insert lfuda_evict (fun _ _ => Err NullDeref) lfuda_remove
        (fun s => c_occ (l_c s)) (fun s => c_nobj (l_c s)) (fun s => c_size (l_c s))
        (fun s => c_md (l_c s))
        (fun s => mkLfu (c_incr_nreq (l_c s)) (l_fm s) (l_min s) (l_max s)).

Definition no_to_evict (c : call) : Prop := match c with CToEvict _ => False | _ => True end.

Lemma run_lfuda' fuel cs : forall s, Forall no_to_evict cs ->
  run lfuda_ops fuel s cs = run lfuda_ops' fuel s cs.
Proof.
  assert (Hl : forall n s r, evict_loop lfuda_ops n s r = evict_loop lfuda_ops' n s r).
  { induction n as [|n IH]; intros s r; cbn; [done|]. case_decide; [|done].
    destruct (lfuda_evict s r); cbn; [apply IH|done]. }
  assert (Hst : forall s c, no_to_evict c -> step lfuda_ops fuel s c = step lfuda_ops' fuel s c).
  { intros s c Hc. destruct c; try done. cbn [step]. unfold cache_get_base. cbn [op_tick op_find op_can_insert op_insert lfuda_ops lfuda_ops'].
    destruct (lfuda_find _ r true) as [[s1 [|]]|]; cbn [rbind]; [done| |done].
    destruct (lfu_can_insert s1 r) as [[s2 [|]]|]; cbn [rbind]; [|done|done].
    by rewrite Hl. }
  induction cs as [|c cs IH]; intros s Hc; [done|]. apply Forall_cons in Hc as [Hc Hcs].
  cbn [run]. rewrite (Hst s c Hc). destruct (step lfuda_ops' fuel s c) as [[s1 o]|]; cbn [rbind]; [|done].
  by rewrite IH.
Qed.

Lemma lfuda_psim cap md : 0 <= md -> psimulation pol_any lfuda_ops' cap md (darel cap md).
Proof.
  intros Hmd. constructor; cbn.
  - intros s a (H & _). apply H.
  - intros s a (H & _). apply H.
  - intros s a (H & _). apply H.
  - intros s a (H & _). apply H.
  - intros s a (H1 & H2 & H3). split_and!; [by apply brel_tick|done|done].
  - intros s t m a (H1 & H2). split; [by eapply brel_clock|done].
  - intros s [t m a] r s' b HR Hf. destruct (lfuda_find_ok _ _ _ _ _ _ r false HR) as (s1 & E & B & _).
    rewrite Hf in E. injection E as <- ->. cbn. by rewrite B.
  - intros s t m a r e s' b _ HR He Hf.
    destruct (lfuda_find_ok _ _ _ _ _ _ r true HR) as (s1 & E & _ & C & _).
    rewrite Hf in E. injection E as <- ->. rewrite bool_decide_true by eauto. split; [done|]. by apply C.
  - intros s [t m a] r s' b HR Hn Hf. destruct (lfuda_find_ok _ _ _ _ _ _ r true HR) as (s1 & E & _ & _ & D).
    rewrite Hf in E. injection E as <- ->. cbn in Hn. rewrite bool_decide_false by (rewrite Hn; by intros []).
    split; [done|]. by apply D.
  - intros s t m a r s' b (H1 & H2 & H3). unfold lfu_can_insert.
    destruct (brel_can _ _ _ _ _ _ r H1) as (c' & -> & Hb & Hc'). intros [= <- <-].
    split; [done|]. subst c'. split_and!; [done|done|done].
  - intros s t m a r s' _ HR Hn Hr _ Hi.
    destruct (lfuda_insert_ok _ _ _ _ _ _ r Hmd HR Hn Hr) as (s1 & E & H'). rewrite Hi in E.
    by injection E as <-.
  - intros s t m a r s' Hok HR Hne He.
    destruct (lfuda_evict_ok _ _ _ _ _ _ r Hok HR) as [(v & s1 & E & _ & A & _ & _ & B)|[E _]];
      rewrite He in E; [|done]. injection E as <-. exists v. done.
  - done.
  - intros s t m a id s' b Hok HR Hr. destruct (lfuda_remove_ok _ _ _ _ _ _ id Hok HR) as (s1 & E & B).
    rewrite Hr in E. by injection E as <- ->.
Qed.

Lemma lfuda_init_rel mdf cap adm :
  darel cap (if mdf : bool then 16 else 0) (lfuda_init mdf cap adm) (abs_init adm).
Proof.
  split_and!; [apply brel_init| |cbn; rewrite lookup_singleton; eauto].
  unfold aged. cbn. rewrite fmap_empty. split.
  - intros f nd Hf. apply lookup_singleton_Some in Hf as [<- <-]. cbn. split_and!; [done|constructor|].
    intros id. rewrite lookup_empty. split; [intros H; inversion H|done].
  - intros id f. by rewrite lookup_empty.
Qed.

Section Props.
  Context (mdf : bool) (cap : Z) (adm : admissioner) (Hcap : 0 <= cap).
  Notation md := (if mdf then 16 else 0).
  Notation s0 := (lfuda_init mdf cap adm).

  Definition da_reaches (s : lfu_state) : Prop :=
    exists cs fuel os, Forall (call_ok (req_ok md)) cs /\ Forall no_to_evict cs /\
      run lfuda_ops fuel s0 cs = Ok (s, os).

  Lemma md_nonneg : 0 <= md.
  Proof. by destruct mdf. Qed.

  (** Programs that complete have the answers of a cache of that capacity,
      with exact counters. *)
  Theorem C37_when_ok_partial cs fuel s os :
    Forall (call_ok (req_ok md)) cs -> Forall no_to_evict cs ->
    run lfuda_ops fuel s0 cs = Ok (s, os) ->
    exists a, abs_run pol_any cap md (abs_init adm) cs os a /\
      op_occupied lfuda_ops s = msum md (a_m a) /\ 0 <= op_occupied lfuda_ops s <= cap /\
      op_nobj lfuda_ops s = Z.of_nat (size (a_m a)) /\
      (forall id, is_Some (aged s !! id) <-> is_Some (a_m a !! id)).
  Proof.
    intros Hc Hne Hr. rewrite run_lfuda' in Hr by done.
    destruct (ps_run _ _ _ _ _ (lfuda_psim cap md md_nonneg) fuel cs _ _ s os
                (abs_init_ok cap md adm Hcap md_nonneg) (lfuda_init_rel mdf cap adm) Hc Hr)
      as (a & Ha & (H1 & H2) & Hok).
    exists a. split; [done|]. cbn. rewrite (br_occ _ _ _ _ H1), (br_nobj _ _ _ _ H1).
    split_and!; try done; try apply Hok. intros id. unfold aged. rewrite lookup_fmap, fmap_is_Some.
    by eapply brel_is_Some.
  Qed.

  Lemma da_reach s : da_reaches s -> exists a, darel cap md s a /\ abs_ok cap md a.
  Proof.
    intros (cs & fuel & os & Hc & Hne & Hr). rewrite run_lfuda' in Hr by done.
    destruct (ps_run _ _ _ _ _ (lfuda_psim cap md md_nonneg) fuel cs _ _ s os
                (abs_init_ok cap md adm Hcap md_nonneg) (lfuda_init_rel mdf cap adm) Hc Hr)
      as (a & Ha & H1 & H2).
    by exists a.
  Qed.

  (** find, can_insert, insert and remove never crash. *)
  Theorem C37_others_total_partial s r u id : da_reaches s ->
    (exists x, op_find lfuda_ops s r u = Ok x) /\
    (exists x, op_can_insert lfuda_ops s r = Ok x) /\
    (exists x, op_remove lfuda_ops s id = Ok x) /\
    (req_ok md r -> aged s !! r_id r = None -> exists x, op_insert lfuda_ops s r = Ok x).
  Proof.
    intros Hs. destruct (da_reach s Hs) as ([t m a] & HR & Hok). split_and!; cbn.
    - destruct (lfuda_find_ok _ _ _ _ _ _ r u HR) as (s1 & E & _). eauto.
    - unfold lfu_can_insert. destruct (cache_can_insert_default (l_c s) r). eauto.
    - destruct (lfuda_remove_ok _ _ _ _ _ _ id Hok HR) as (s1 & E & _). eauto.
    - intros Hr Hn. destruct (lfuda_insert_ok cap md s t m a r md_nonneg HR) as (s1 & E & _); [|done|eauto].
      destruct HR as (H1 & _). apply (brel_none_inv _ _ _ (mkAbs t m a) (r_id r) H1). unfold aged in Hn. rewrite lookup_fmap in Hn.
      by destruct (c_tbl (l_c s) !! r_id r).
  Qed.

  (** evict crashes exactly when no cached object has the frequency that the
      cache believes to be the least; otherwise it removes one that has, the
      one that to_evict names, and nothing else. *)
  Theorem C37_evict_partial s r : da_reaches s ->
    (exists v s', op_evict lfuda_ops s r = Ok s' /\ op_to_evict lfuda_ops s r = Ok (s, Some v) /\
       aged s !! v = Some (believed_min s) /\ aged s' = delete v (aged s)) \/
    (op_evict lfuda_ops s r = Err NullDeref /\ forall id, aged s !! id <> Some (believed_min s)).
  Proof.
    intros Hs. destruct (da_reach s Hs) as ([t m a] & HR & Hok).
    destruct (lfuda_evict_ok _ _ _ _ _ _ r Hok HR) as [(v & s1 & E1 & E2 & _ & A & B & _)|H]; [left|by right].
    by exists v, s1.
  Qed.

  (** The victim has the least aged frequency whenever no cached object is below
      the believed minimum. *)
  Theorem C37_victim_least_partial s r s' v : da_reaches s ->
    (forall id f, aged s !! id = Some f -> believed_min s <= f) ->
    op_evict lfuda_ops s r = Ok s' -> op_to_evict lfuda_ops s r = Ok (s, Some v) ->
    aged s' = delete v (aged s) /\
    exists fv, aged s !! v = Some fv /\ forall id f, aged s !! id = Some f -> fv <= f.
  Proof.
    intros Hs Hmin E1 E2. destruct (C37_evict_partial s r Hs) as [(v' & s1 & F1 & F2 & A & B)|[F _]].
    - rewrite E2 in F2. injection F2 as <-. rewrite E1 in F1. injection F1 as <-. eauto.
    - congruence.
  Qed.
End Props.

Definition gu (id : Z) : call := CGet (mkReq id 1 0 0 0).

(** A scan of five objects through a cache of two crashes. *)
Theorem C37_crash_refuted : exists cs, Forall (call_ok (req_ok 0)) cs /\
  run lfuda_ops 5 (lfuda_init false 2 AdmNone) cs = Err NullDeref.
Proof.
  exists [gu 1; gu 2; gu 3; gu 4; gu 5]. split; [|vm_compute; reflexivity].
  repeat (apply Forall_cons; split; [cbn; unfold req_ok; cbn; lia|]). constructor.
Qed.

(** A reachable state whose victim does not have the least aged frequency:
    object 3 (frequency 4) goes, object 2 (frequency 2) stays. *)
Theorem C37_victim_refuted : exists s os s',
  run lfuda_ops 5 (lfuda_init false 2 AdmNone) [gu 1; gu 2; gu 3; gu 3; gu 3; gu 2] = Ok (s, os) /\
  op_evict lfuda_ops s (mkReq 0 0 0 0 0) = Ok s' /\
  aged s !! 2 = Some 2 /\ aged s !! 3 = Some 4 /\ aged s' !! 2 = Some 2 /\ aged s' !! 3 = None.
Proof.
  eexists _, _, _. split; [vm_compute; reflexivity|]. split; [vm_compute; reflexivity|].
  split_and!; vm_compute; reflexivity.
Qed.

(** The hypotheses are met by states after evictions with ageing. *)
Example C37_ex : exists s os,
  run lfuda_ops 5 (lfuda_init false 3 AdmNone) [gu 1; gu 2; gu 3; gu 2; gu 4; gu 4] = Ok (s, os) /\
  os = [OBool false; OBool false; OBool false; OBool true; OBool false; OBool true] /\
  believed_min s = 1 /\ map_to_list (aged s) = [(2, 1); (4, 3); (3, 1)].
Proof. eexists _, _. split; [vm_compute; reflexivity|]. split_and!; vm_compute; reflexivity. Qed.
