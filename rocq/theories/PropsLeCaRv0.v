(** C75: LeCaRv0 is the two-expert machine of SpecLeCaR.v, and hence the same cache
    as LeCaR: two implementations that share no code answer alike. *)
From stdpp Require Import gmap list numbers fin_maps sorting.
From Verif Require Import Base Driver Abs AbsFacts Sim ModelQueue QueueFacts SimQueue ModelLFU SimLFU QList CompFacts
  ModelLeCaR SpecLeCaR LeCaRFacts LeCaRSim PropsLeCaR ModelLeCaRv0 LeCaRv0Facts.
Open Scope Z_scope.

Section Props.
  Context {W : Type} (upd : bool -> Z -> W -> W) (pick : W -> nat -> bool).
  Context (cap : Z) (Hcap : 0 <= cap) (adm : admissioner) (w0 : W).
  Notation O := (v0_ops upd pick).
  Notation s0 := (v0_init false cap adm w0).
  Notation a0 := (lspec0 w0 adm).

  (** Every program of allowed calls runs without fault, answers as the machine
      does, and leaves the four caches as the machine says: the LRU and the LFU
      with the same objects, the LRU in the order of the last accesses, the ghosts
      with the latest victims of each expert. *)
  Theorem C75_lecar0 cs fuel : v0_oks upd pick cap a0 cs -> (length cs <= fuel)%nat ->
    exists s os a, run O fuel s0 cs = Ok (s, os) /\ l_run upd pick cap 0 a0 cs = (a, os) /\
      q_q (v_lru s) = map lo_id (ls_l a) /\
      (forall id, is_Some (c_tbl (q_c (v_lru s)) !! id) <-> id ∈ map lo_id (ls_l a)) /\
      (forall id, is_Some (c_tbl (l_c (v_lfu s)) !! id) <-> id ∈ map lo_id (ls_l a)) /\
      q_q (v_gl s) = map lg_id (ls_gl a) /\ q_q (v_gf s) = map lg_id (ls_gf a) /\
      v_w s = ls_w a /\ v_draws s = ls_draws a /\
      op_occupied O s = l_bytes (ls_l a) /\ op_occupied lfu_ops (v_lfu s) = l_bytes (ls_l a) /\
      op_nobj O s = Z.of_nat (length (ls_l a)) /\ op_nobj lfu_ops (v_lfu s) = Z.of_nat (length (ls_l a)).
  Proof using Hcap.
    intros Hok Hf.
    destruct (v0_run_ok upd pick cap Hcap cs s0 a0 fuel) as (s & E & (t & m & ll & lf & H)).
    { exists 0, ∅, [], []. by apply v0_init_rel. }
    { done. }
    { cbn. lia. }
    destruct (l_run upd pick cap 0 a0 cs) as [a os]. cbn [fst snd] in *. exists s, os, a. split; [done|]. split; [done|].
    pose proof (vr_dom cap _ _ _ _ _ _ H) as [Hn Hd]. pose proof (vr_bytes cap _ _ _ _ _ _ H) as (B1 & B2 & B3 & B4).
    pose proof (vr_lru _ _ _ _ _ _ _ H) as HL. pose proof (vr_lfu _ _ _ _ _ _ _ H) as HF.
    assert (El : map lo_id (ls_l a) = q_q (v_lru s)) by (rewrite (vr_l _ _ _ _ _ _ _ H); apply lobj_ids).
    assert (Htbl : forall c, brel cap 0 c (mkAbs t m AdmNone) -> forall id, is_Some (c_tbl c !! id) <-> is_Some (m !! id)).
    { intros c HB id. split; intros [x Hx].
      - destruct (brel_some_inv _ _ _ _ _ _ HB Hx) as (e & He & _). cbn in He. eauto.
      - destruct (brel_some _ _ _ _ _ _ HB Hx) as (o & Ho & _). eauto. }
    destruct (vr_gl _ _ _ _ _ _ _ H) as (G1 & G2 & _). destruct (vr_gf _ _ _ _ _ _ _ H) as (F1 & F2 & _).
    rewrite El. split; [done|]. split; [intros id; rewrite (Htbl _ (proj1 HL)); symmetry; apply Hd|].
    split; [intros id; rewrite (Htbl _ (proj1 HF)); symmetry; apply Hd|].
    rewrite G2, F2. change (map lg_id) with (fmap (M := list) lg_id). rewrite !gobj_ids.
    split; [apply G1|]. split; [apply F1|]. split; [apply (vr_w _ _ _ _ _ _ _ H)|]. split; [apply (vr_w _ _ _ _ _ _ _ H)|].
    split; [done|]. split; [|split; [done|]].
    - rewrite (sim_occ _ _ _ _ _ _ (lfu_sim cap 0) _ _ HF). done.
    - rewrite (sim_nobj _ _ _ _ _ _ (lfu_sim cap 0) _ _ HF), B2. done.
  Qed.

  (** The machine and the cache after the same program of allowed calls. *)
  Definition v0_reach (s : lecar0 W) (a : lspec W) : Prop :=
    exists cs os fuel, v0_oks upd pick cap a0 cs /\ (length cs <= fuel)%nat /\
      run O fuel s0 cs = Ok (s, os) /\ l_run upd pick cap 0 a0 cs = (a, os).

  Lemma v0_reach_rel s a : v0_reach s a -> vrels cap s a.
  Proof using Hcap.
    intros (cs & os & fuel & Hok & Hf & E1 & E2).
    destruct (v0_run_ok upd pick cap Hcap cs s0 a0 fuel) as (s' & E & H).
    { exists 0, ∅, [], []. by apply v0_init_rel. }
    { done. }
    { cbn. lia. }
    rewrite E1 in E. injection E as <- _. by rewrite E2 in H.
  Qed.

  (** The cache stays within its size and each ghost within half of it; no object
      is cached and remembered, or remembered twice. *)
  Theorem C75_bounds s a : v0_reach s a ->
    op_occupied O s <= cap /\
    op_occupied lru_ops (v_gl s) <= cap / 2 /\ op_occupied lru_ops (v_gf s) <= cap / 2 /\
    NoDup (q_q (v_lru s) ++ q_q (v_gl s) ++ q_q (v_gf s)).
  Proof using Hcap.
    intros (t & m & ll & lf & H)%v0_reach_rel. pose proof (vr_dom cap _ _ _ _ _ _ H) as [Hn Hd].
    pose proof (vr_bytes cap _ _ _ _ _ _ H) as (B1 & B2 & B3 & B4).
    destruct (vr_gl _ _ _ _ _ _ _ H) as (G1 & G2 & G3). destruct (vr_gf _ _ _ _ _ _ _ H) as (F1 & F2 & F3).
    cbn [op_occupied v0_ops lru_ops]. split; [rewrite B3, B1; apply (vr_ok _ _ _ _ _ _ _ H)|].
    unfold q_occ. rewrite (qok_occ _ _ _ _ G1), (qok_occ _ _ _ _ F1). split; [done|]. split; [done|].
    rewrite (qok_q _ _ _ _ G1), (qok_q _ _ _ _ F1). apply NoDup_app. split; [done|]. split.
    - intros id [e He]%Hd [Hi|Hi]%elem_of_app.
      + by rewrite (vr_dl _ _ _ _ _ _ _ H _ Hi) in He.
      + by rewrite (vr_df _ _ _ _ _ _ _ H _ Hi) in He.
    - apply NoDup_app. split; [apply G1|]. split; [|apply F1]. intros id Hi Hx. by eapply (vr_dis _ _ _ _ _ _ _ H).
  Qed.

  (** Evict takes the least recently used object, or the least recently used of
      those accessed least often, as the random choice says when the two differ;
      then the object is remembered in the ghost of that expert, with the present
      request count. *)
  Theorem C75_victim s a r : v0_reach s a -> q_q (v_lru s) <> [] ->
    exists s' x y, op_evict O s r = Ok s' /\ lru_choice (ls_l a) = Some x /\ lfu_choice (ls_l a) = Some y /\
      (if decide (lo_id x = lo_id y) then
         q_q (v_lru s') = q_del (lo_id x) (q_q (v_lru s)) /\ q_q (v_gl s') = q_q (v_gl s) /\ q_q (v_gf s') = q_q (v_gf s)
       else if pick (v_w s) (v_draws s) then
         q_q (v_lru s') = q_del (lo_id x) (q_q (v_lru s)) /\ q_q (v_gf s') = q_q (v_gf s) /\
         head (q_q (v_gl s')) = Some (lo_id x) /\
         o_p3 <$> c_tbl (q_c (v_gl s')) !! lo_id x = Some (c_nreq (v_c s))
       else
         q_q (v_lru s') = q_del (lo_id y) (q_q (v_lru s)) /\ q_q (v_gl s') = q_q (v_gl s) /\
         head (q_q (v_gf s')) = Some (lo_id y) /\
         o_p3 <$> c_tbl (q_c (v_gf s')) !! lo_id y = Some (c_nreq (v_c s))).
  Proof using Hcap.
    intros (t & m & ll & lf & H)%v0_reach_rel Hq. pose proof (vr_dom cap _ _ _ _ _ _ H) as [Hn Hd].
    assert (Hne : m <> ∅).
    { intros ->. destruct (q_q (v_lru s)) as [|i q]; [done|]. destruct (proj1 (Hd i) ltac:(by left)) as [e He].
      by rewrite lookup_empty in He. }
    destruct (v0_evict_ok pick cap Hcap _ _ _ _ _ _ r H Hne) as (s' & E & (t' & m' & ll' & lf' & H') & _ & _).
    assert (exists x, lru_choice (ls_l a) = Some x) as [x Ex].
    { unfold lru_choice. rewrite (vr_l _ _ _ _ _ _ _ H). destruct (q_q (v_lru s)) as [|i q _] using rev_ind; [done|].
      rewrite fmap_app. eexists. apply last_snoc. }
    destruct (sim_evict _ _ _ _ _ _ (lfu_sim cap 0) _ _ _ _ r (vr_ok _ _ _ _ _ _ _ H) (vr_lfu _ _ _ _ _ _ _ H) Hne)
      as (_ & v & _ & _ & _ & Hv & Hpv & _).
    assert (Ey : lfu_choice (ls_l a) = Some (lobj_of m v)).
    { rewrite (vr_l _ _ _ _ _ _ _ H). apply lobj_lfu; try done. apply (vr_lru _ _ _ _ _ _ _ H). }
    exists s', x, (lobj_of m v). split; [exact E|]. split; [done|]. split; [done|].
    assert (El : q_q (v_lru s) = lo_id <$> ls_l a) by (rewrite (vr_l _ _ _ _ _ _ _ H), lobj_ids; done).
    assert (El' : q_q (v_lru s') = lo_id <$> ls_l (l_evict pick cap a)) by (rewrite (vr_l _ _ _ _ _ _ _ H'), lobj_ids; done).
    destruct (vr_gl _ _ _ _ _ _ _ H) as (G1 & G2 & _). destruct (vr_gf _ _ _ _ _ _ _ H) as (F1 & F2 & _).
    destruct (vr_gl _ _ _ _ _ _ _ H') as (G1' & G2' & _). destruct (vr_gf _ _ _ _ _ _ _ H') as (F1' & F2' & _).
    assert (Eg : q_q (v_gl s) = lg_id <$> ls_gl a) by (rewrite G2, gobj_ids; apply G1).
    assert (Ef : q_q (v_gf s) = lg_id <$> ls_gf a) by (rewrite F2, gobj_ids; apply F1).
    assert (Eg' : q_q (v_gl s') = lg_id <$> ls_gl (l_evict pick cap a)) by (rewrite G2', gobj_ids; apply G1').
    assert (Ef' : q_q (v_gf s') = lg_id <$> ls_gf (l_evict pick cap a)) by (rewrite F2', gobj_ids; apply F1').
    pose proof (vr_c _ _ _ _ _ _ _ H) as (_ & _ & C3 & _). pose proof (vr_w _ _ _ _ _ _ _ H) as [W1 W2].
    rewrite W1, W2, C3. unfold l_evict in *. rewrite Ex, Ey in *.
    assert (Hfit : forall x, x ∈ ls_l a -> lo_w x <= cap / 2).
    { intros z Hz. rewrite (vr_l _ _ _ _ _ _ _ H) in Hz. apply elem_of_list_fmap in Hz as (i & -> & Hi).
      apply Hd in Hi as [e He]. rewrite (lobj_of_some _ _ _ He). cbn. by eapply (vr_fit _ _ _ _ _ _ _ H). }
    assert (Hx : x ∈ ls_l a) by (by apply last_Some_elem_of).
    assert (Hy : lobj_of m v ∈ ls_l a).
    { unfold lfu_choice in Ey. apply last_Some_elem_of in Ey. by apply elem_of_list_filter in Ey as [_ ?]. }
    assert (Hnew : forall sz g l id w now gs, qok sz 0 g l ->
      mkLG id w now :: gs = gobj <$> l -> o_p3 <$> c_tbl (q_c g) !! id = Some now).
    { intros sz g l id w now gs HQ HE. destruct l as [|[j o] l]; [done|]. rewrite fmap_cons in HE.
      injection HE as -> _ -> _. rewrite (proj2 (qok_lookup _ _ _ _ HQ j o)) by (by left). done. }
    destruct (decide (lo_id x = lo_id (lobj_of m v))).
    - rewrite El', El, Eg', Eg, Ef', Ef. cbn. by rewrite map_l_drop.
    - destruct (pick (ls_w a) (ls_draws a)); cbn [ls_l ls_gl ls_gf] in *.
      + rewrite El', El, Ef', Ef, Eg'. rewrite map_l_drop. split; [done|]. split; [done|].
        cbn [keep lg_w] in *. rewrite decide_True in * by auto. split; [done|].
        eapply Hnew; [exact G1'|exact G2'].
      + rewrite El', El, Eg', Eg, Ef'. rewrite map_l_drop. split; [done|]. split; [done|].
        cbn [keep lg_w] in *. rewrite decide_True in * by auto. split; [done|].
        eapply Hnew; [exact F1'|exact F2'].
  Qed.
End Props.

(** LeCaR and LeCaRv0 give the same answers to every program that is allowed for
    both, and hold the same objects and weights afterwards, for every rule to
    update the weights and every random generator. *)
Theorem C75_same_as_lecar {W} (upd : bool -> Z -> W -> W) (pick : W -> nat -> bool) (cap : Z) (adm : admissioner) (w0 : W) cs fuel :
  0 <= cap -> l_oks upd pick cap 0 (lspec0 w0 adm) cs -> v0_oks upd pick cap (lspec0 w0 adm) cs -> (length cs <= fuel)%nat ->
  exists s s' os, run (lc_ops upd pick) fuel (lc_init cap 0 adm w0) cs = Ok (s, os) /\
    run (v0_ops upd pick) fuel (v0_init false cap adm w0) cs = Ok (s', os) /\
    lc_q s = q_q (v_lru s') /\ lc_gl s = q_q (v_gl s') /\ lc_gf s = q_q (v_gf s') /\
    lc_w s = v_w s' /\ lc_draws s = v_draws s' /\
    op_occupied (lc_ops upd pick) s = op_occupied (v0_ops upd pick) s' /\
    op_nobj (lc_ops upd pick) s = op_nobj (v0_ops upd pick) s'.
Proof.
  intros Hcap H1 H2 Hf.
  destruct (C61_lecar_partial upd pick cap 0 Hcap (Z.le_refl 0) adm w0 cs fuel H1 Hf) as (s & os & a & E1 & E2 & P1 & P2 & P3 & P4 & P5 & P6 & P7 & _).
  destruct (C75_lecar0 upd pick cap Hcap adm w0 cs fuel H2 Hf) as (s' & os' & a' & E3 & E4 & Q1 & _ & _ & Q2 & Q3 & Q4 & Q5 & Q6 & _ & Q7 & _).
  rewrite E2 in E4. injection E4 as <- <-. exists s, s', os. split_and!; congruence.
Qed.

(** * Cases *)

Section Allowed.
  Context {W : Type} (upd : bool -> Z -> W -> W) (pick : W -> nat -> bool) (cap : Z).
  Definition v0_okb (a : lspec W) (c : call) : bool :=
    match c with
    | CGet r => req_okb 0 r && (bool_decide (r_size r <= cap / 2) || bool_decide (cap < r_size r)) && bool_decide (ls_now a < 2 ^ 39 - 1)
    | CFind _ _ => true
    | CInsert r => req_okb 0 r && (bool_decide (r_size r <= cap / 2) || bool_decide (cap < r_size r)) &&
        (bool_decide (r_id r ∉ map lg_id (ls_gl a)) && bool_decide (r_id r ∉ map lg_id (ls_gf a)))
    | CRemove id => cached a id
    | CEvict _ => true
    | CToEvict _ => false
    end.
  Fixpoint v0_oksb (a : lspec W) (cs : list call) : bool :=
    match cs with
    | [] => true
    | c :: cs => v0_okb a c && v0_oksb (l_call upd pick cap 0 a c).1 cs
    end.
  Lemma v0_oksb_ok cs : forall a, v0_oksb a cs = true -> v0_oks upd pick cap a cs.
  Proof.
    induction cs as [|c cs IH]; intros a; [done|]. cbn [v0_oksb v0_oks]. rewrite andb_true_iff. intros [H1 H2].
    split; [|by apply IH]. destruct c as [r|r u|r|id|r|r]; cbn [v0_okb v0_ok] in *; try done.
    - apply andb_true_iff in H1 as [H1 H3]. apply andb_true_iff in H1 as [H1 H4]. split; [by apply req_okb_ok|].
      apply orb_true_iff in H4. rewrite !bool_decide_eq_true in H4. apply bool_decide_eq_true in H3. done.
    - apply andb_true_iff in H1 as [H1 H3]. apply andb_true_iff in H1 as [H1 H4]. split; [by apply req_okb_ok|].
      apply orb_true_iff in H4. rewrite !bool_decide_eq_true in H4. apply andb_true_iff in H3 as [H3 H5].
      apply bool_decide_eq_true in H3, H5. done.
  Qed.
End Allowed.

(** Ghost hits of both experts: 1 leaves by the choice of LRU and comes back, 4
    then leaves by the choice of LFU and comes back too. *)
Definition v_prog : list call :=
  [lg 1 1; lg 1 1; lg 2 1; lg 3 1; CFind (lrq 3 1) true; lg 4 1; lg 1 1; CEvict (lrq 0 0); lg 9 2; lg 4 1; CRemove 4; lg 7 9].
Example C75_ok_ex : l_oks xupd xpick 4 0 (lspec0 (0, 0) AdmNone) v_prog /\ v0_oks xupd xpick 4 (lspec0 (0, 0) AdmNone) v_prog.
Proof. split; [apply l_oksb_ok|apply v0_oksb_ok]; vm_compute; reflexivity. Qed.
Example C75_ex :
  (let! (s, os) := run (v0_ops xupd xpick) 12 (v0_init false 4 AdmNone (0, 0)) v_prog in
   Ok (q_q (v_lru s), q_q (v_gl s), q_q (v_gf s), v_w s, os)) =
  (let! (s, os) := run (lc_ops xupd xpick) 12 (lc_init 4 0 AdmNone (0, 0)) v_prog in
   Ok (lc_q s, lc_gl s, lc_gf s, lc_w s, os)).
Proof. vm_compute. reflexivity. Qed.

(** * Where LeCaRv0 fails *)

(** An object of more than half of the cache size is too large for a ghost.  When
    one expert evicts it the NULL pointer is written to; LeCaR just forgets it. *)
Theorem C75_large_refuted : exists cs, l_oks xupd xpick 4 0 (lspec0 (0, 0) AdmNone) cs /\
  run (v0_ops xupd xpick) 12 (v0_init false 4 AdmNone (0, 0)) cs = Err NullDeref.
Proof.
  exists [lg 1 3; CFind (lrq 1 1) true; lg 2 1; lg 3 1]. split; [apply l_oksb_ok|]; vm_compute; reflexivity.
Qed.

(** remove of an object that is not cached aborts, also before any other call. *)
Theorem C75_remove_refuted : forall W upd pick cm cap adm (w : W) id,
  op_remove (v0_ops upd pick) (v0_init cm cap adm w) id = Err AssertFail.
Proof. done. Qed.

(** to_evict answers NULL although an object is cached, whenever the random number
    is for LFU; and evict draws again, so that it need not take what to_evict
    announced. *)
Theorem C75_to_evict_refuted :
  (forall W upd (pick : W -> nat -> bool) s s' r v, pick (v_w s) (v_draws s) = false ->
     op_to_evict (v0_ops upd pick) s r = Ok (s', v) -> v = None) /\
  exists s os s1 s2,
    run (v0_ops xupd (fun _ n => Nat.even n)) 9 (v0_init false 2 AdmNone (0, 0)) [lg 1 1; lg 1 1; lg 2 1] = Ok (s, os) /\
    op_to_evict (v0_ops xupd (fun _ n => Nat.even n)) s (lrq 0 0) = Ok (s1, Some 1) /\
    op_evict (v0_ops xupd (fun _ n => Nat.even n)) s1 (lrq 0 0) = Ok s2 /\ q_q (v_lru s2) = [1].
Proof.
  split.
  - intros W upd pick s s' r v Hp. cbn [op_to_evict v0_ops]. unfold v0_to_evict. rewrite Hp.
    destruct (lfu_to_evict _ _) as [[f y]|]; [|done]. cbn. by intros [= _ <-].
  - eexists _, _, _, _. split; [vm_compute; reflexivity|]. split; [vm_compute; reflexivity|].
    split; vm_compute; reflexivity.
Qed.

(** With consider_obj_metadata the two differ: LeCaRv0 charges 40 bytes to the
    object that comes in and 16 to those that are there, LeCaR 40 to all. *)
Theorem C75_metadata_refuted : exists cs,
  (let! (s, os) := run (v0_ops xupd xpick) 9 (v0_init true 82 AdmNone (0, 0)) cs in Ok os) <>
  (let! (s, os) := run (lc_ops xupd xpick) 9 (lc_init 82 40 AdmNone (0, 0)) cs in Ok os).
Proof. exists [lg 1 1; lg 2 1; lg 3 1; lg 2 1; lg 1 1]. vm_compute. discriminate. Qed.

(** A direct insert of a remembered object leaves it remembered. *)
Theorem C75_insert_ghost_refuted : exists s os,
  run (v0_ops xupd xpick) 9 (v0_init false 4 AdmNone (0, 0)) [lg 1 1; lg 1 1; lg 2 2; lg 3 2; CRemove 3; CInsert (lrq 1 1)] = Ok (s, os) /\
  1 ∈ q_q (v_lru s) /\ 1 ∈ q_q (v_gl s).
Proof. eexists _, _. split; [vm_compute; reflexivity|]. split; vm_compute; repeat constructor. Qed.
