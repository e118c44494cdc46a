(** LP_ARC: what every operation does to the ledgers of T1 and T2 and to the two
    ghost lists. *)
From stdpp Require Import gmap list numbers fin_maps.
From Coq Require Import QArith.
From Verif Require Import Base Driver Abs AbsFacts Sim ModelQueue QueueFacts QList CompFacts ModelTwoQ ModelQDLP QDLPFacts ModelSLRU ModelARC ModelARCv0 ModelLPARC.
Open Scope Z_scope.

Section LPARC.
  Context (rnd : Q -> Q) (pol : policy) (O : ops qstate) (R : qstate -> abs -> Prop) (size_of : Z -> Z) (cap : Z).
  Context (HS : simulation pol O cap 0 (req_ok 0) R).
  Context (HT : forall q t m a v e, R q (mkAbs t m a) -> m !! v = Some e ->
                  exists o, c_tbl (q_c q) !! v = Some o /\ o_size o = e_size e).
  Context (HO : forall q, op_occupied O q = q_occ q).
  Notation OO := (lpa_ops rnd O).

  (** [m1], [m2]: the ledgers of T1 and T2 (clocks [t1], [t2]); [b1], [b2]: the
      ghosts *)
  Record pok (s : arc0) (t1 : Z) (m1 : gmap Z entry) (b1 : qlist) (t2 : Z) (m2 : gmap Z entry) (b2 : qlist) : Prop := mkPok {
    pk_t1 : R (z_t1 s) (mkAbs t1 m1 AdmNone);
    pk_o1 : abs_ok cap 0 (mkAbs t1 m1 AdmNone);
    pk_t2 : R (z_t2 s) (mkAbs t2 m2 AdmNone);
    pk_o2 : abs_ok cap 0 (mkAbs t2 m2 AdmNone);
    pk_b1 : qok cap 0 (z_b1 s) b1;
    pk_b2 : qok cap 0 (z_b2 s) b2;
    pk_sz : c_size (z_c s) = cap;
    pk_md : c_md (z_c s) = 0;
    pk_tt : forall id, is_Some (m1 !! id) -> m2 !! id = None;
    pk_11 : apart b1 m1;
    pk_12 : apart b1 m2;
    pk_21 : apart b2 m1;
    pk_22 : apart b2 m2;
    pk_bb : disj b1 b2;
    pk_cap : msum 0 m1 + msum 0 m2 <= cap;
    pk_s1 : forall id e, m1 !! id = Some e -> e_size e = size_of id;
    pk_s2 : forall id e, m2 !! id = Some e -> e_size e = size_of id;
    pk_vt : z_vt s <= c_nreq (z_c s)
  }.

  (** not in the cache in any form *)
  Definition nowhere (id : Z) (m1 : gmap Z entry) (b1 : qlist) (m2 : gmap Z entry) (b2 : qlist) : Prop :=
    m1 !! id = None /\ id ∉ ids b1 /\ m2 !! id = None /\ id ∉ ids b2.

  Definition pkeep (s s' : arc0) : Prop :=
    z_c s' = z_c s /\ z_f1 s' = z_f1 s /\ z_f2 s' = z_f2 s /\ z_vt s' = z_vt s /\ z_p s' = z_p s.

  Lemma occ1 s t1 m1 b1 t2 m2 b2 : pok s t1 m1 b1 t2 m2 b2 -> q_occ (z_t1 s) = msum 0 m1.
  Proof using HS HO. intros []. rewrite <- HO. by rewrite (sim_occ _ _ _ _ _ _ HS _ _ pk_t3). Qed.
  Lemma occ2 s t1 m1 b1 t2 m2 b2 : pok s t1 m1 b1 t2 m2 b2 -> q_occ (z_t2 s) = msum 0 m2.
  Proof using HS HO. intros []. rewrite <- HO. by rewrite (sim_occ _ _ _ _ _ _ HS _ _ pk_t4). Qed.
  Lemma occb1 s t1 m1 b1 t2 m2 b2 : pok s t1 m1 b1 t2 m2 b2 -> q_occ (z_b1 s) = bytes 0 b1 /\ 0 <= bytes 0 b1.
  Proof using size_of. intros []. split; [apply (qok_occ _ _ _ _ pk_b3)|]. apply bytes_nonneg; [lia|apply pk_b3]. Qed.
  Lemma occb2 s t1 m1 b1 t2 m2 b2 : pok s t1 m1 b1 t2 m2 b2 -> q_occ (z_b2 s) = bytes 0 b2 /\ 0 <= bytes 0 b2.
  Proof using size_of. intros []. split; [apply (qok_occ _ _ _ _ pk_b4)|]. apply bytes_nonneg; [lia|apply pk_b4]. Qed.
  Lemma mb s t1 m1 b1 t2 m2 b2 : pok s t1 m1 b1 t2 m2 b2 -> 0 <= msum 0 m1 /\ 0 <= msum 0 m2.
  Proof using size_of. intros []. destruct pk_o3 as (? & _), pk_o4 as (? & _). cbn in *. lia. Qed.
  Lemma msum_pos m : msum 0 m <> 0 -> m <> ∅.
  Proof using. intros H ->. by rewrite msum_empty in H. Qed.

  (** A victim of T1 or T2 enters its ghost list. *)
  Lemma ghost_in g b q t m a v e : qok cap 0 g b -> R q (mkAbs t m a) -> abs_ok cap 0 (mkAbs t m a) -> m !! v = Some e -> v ∉ ids b ->
    exists o g' b', deref q (Some v) = Ok (v, o) /\ sub_get lru_ops g (req_of_obj v o) = Ok (g', false) /\ qok cap 0 g' b' /\
      v ∈ ids b' /\ (forall id, id ∈ ids b' -> id = v \/ id ∈ ids b).
  Proof using HT.
    intros HQ HR Hok Hv Hn. destruct (HT _ _ _ _ _ _ HR Hv) as (o & Ho & Hs). unfold deref. rewrite Ho. exists o.
    pose proof Hok as (Hb & He & _). cbn in Hb, He. destruct (He _ _ Hv) as (He1 & He2 & _).
    assert (Hfit : e_size e <= cap).
    { pose proof (msum_delete 0 m v e Hv). pose proof (abs_ok_delete _ _ _ _ _ v Hok) as (? & _). cbn in *. lia. }
    unfold sub_get. cbn [op_nobj lru_ops].
    destruct (lru_get_miss _ _ _ _ (req_of_obj v o) _ (Z.le_refl 0) HQ ltac:(split; cbn; lia) Hn (subget_fuel _ _ _ _ HQ))
      as (g' & b' & -> & HQ' & Hl). cbn [r_size req_of_obj] in Hl. rewrite decide_True in Hl by lia.
    destruct Hl as (l1 & Hf & ->). eexists g', _. split; [done|]. split; [done|]. split; [exact HQ'|].
    change (ids ((r_id (req_of_obj v o), obj_of_req (req_of_obj v o)) :: l1)) with (v :: ids l1).
    split; [left|]. intros id [->|Hid]%elem_of_cons; [by left|]. right. by apply (fits_ids _ _ _ _ _ Hf).
  Qed.

  Definition gone (m1 m2 m1' m2' : gmap Z entry) (v : Z) : Prop :=
    (is_Some (m1 !! v) /\ m1' = delete v m1 /\ m2' = m2) \/ (is_Some (m2 !! v) /\ m1' = m1 /\ m2' = delete v m2).

  Lemma pok_del1 t1 m1 v : abs_ok cap 0 (mkAbs t1 m1 AdmNone) -> is_Some (m1 !! v) ->
    abs_ok cap 0 (mkAbs t1 (delete v m1) AdmNone) /\ msum 0 (delete v m1) <= msum 0 m1 /\
    forall id, is_Some (delete v m1 !! id) -> is_Some (m1 !! id).
  Proof using size_of.
    intros Hok [e Hv]. pose proof (abs_ok_delete _ _ _ _ _ v Hok) as Hok'. split; [done|].
    pose proof (msum_delete 0 m1 v e Hv) as Hd. destruct Hok as (_ & He & _). cbn in He. destruct (He _ _ Hv) as (? & _).
    split; [lia|]. intros id. rewrite lookup_delete_is_Some. tauto.
  Qed.

  (** _LP_ARC_replace takes the victim of T1 or of T2 into the ghost list of that
      side. *)
  Lemma replace_ok s t1 m1 b1 t2 m2 b2 r : pok s t1 m1 b1 t2 m2 b2 -> msum 0 m1 + msum 0 m2 > 0 ->
    exists s' v b1' b2' m1' m2', lpa_replace rnd O s r = Ok s' /\ pok s' t1 m1' b1' t2 m2' b2' /\ pkeep s s' /\
      gone m1 m2 m1' m2' v /\ (v ∈ ids b1' \/ v ∈ ids b2') /\
      (is_Some (m1 !! v) <-> z_over rnd s = true \/ msum 0 m2 = 0) /\
      (z_over rnd s = true \/ msum 0 m2 <> 0 -> forall s0, z_t1 s0 = z_t1 s -> z_t2 s0 = z_t2 s -> z_over rnd s0 = z_over rnd s ->
         exists s1, lpa_to_replace rnd O s0 r = Ok (s1, Some v)) /\
      (forall id, id ∈ ids b1' -> (id = v /\ is_Some (m1 !! v)) \/ id ∈ ids b1) /\
      (forall id, id ∈ ids b2' -> (id = v /\ is_Some (m2 !! v)) \/ id ∈ ids b2).
  Proof using HS HT HO.
    intros H Hpos. pose proof (occ1 _ _ _ _ _ _ _ H) as O1. pose proof (occ2 _ _ _ _ _ _ _ H) as O2.
    pose proof (mb _ _ _ _ _ _ _ H) as [B1 B2]. destruct H as [P1 Q1 P2 Q2 G1 G2 Hsz Hmd Htt H11 H12 H21 H22 Hbb Hcap S1 S2 Hvt].
    unfold lpa_replace. rewrite O2. destruct (z_over rnd s || bool_decide (msum 0 m2 = 0))%bool eqn:Eo.
    - assert (Hov : z_over rnd s = true \/ msum 0 m2 = 0).
      { apply orb_prop in Eo as [?|E]; [by left|right; by apply bool_decide_eq_true in E]. }
      assert (Hne : m1 <> ∅).
      { apply msum_pos. destruct Hov as [Ez|?]; [|lia]. unfold z_over in Ez. apply andb_prop in Ez as [Ez _].
        apply bool_decide_eq_true in Ez. lia. }
      destruct (sim_evict _ _ _ _ _ _ HS _ _ _ _ r Q1 P1 Hne) as (q1 & v & q2 & Ete & R1 & Hv & _ & _ & _ & HE). rewrite Ete. cbn [rbind].
      destruct (HE r) as (q3 & E3 & R3). pose proof Hv as [e Hve].
      assert (Hvb1 : v ∉ ids b1) by (intros F; specialize (H11 _ F); congruence).
      assert (Hvb2 : v ∉ ids b2) by (intros F; specialize (H21 _ F); congruence).
      destruct (ghost_in _ _ _ _ _ _ v e G1 R1 Q1 Hve Hvb1) as (o & g' & b' & -> & Eg & HQ' & Hin & Hsub). cbn [rbind].
      rewrite Eg. cbn [rbind]. rewrite E3. cbn [rbind].
      destruct (pok_del1 _ _ v Q1 Hv) as (Q1' & Hle & Hdel).
      eexists _, v, b', b2, (delete v m1), m2. split; [done|]. split; [|split; [done|]].
      + split; cbn; try done.
        * intros id Hid. apply Htt. by apply Hdel.
        * intros id [->|Hid]%Hsub; [apply lookup_delete|]. apply eq_None_not_Some. intros F%Hdel. rewrite (H11 _ Hid) in F. by destruct F.
        * intros id [->|Hid]%Hsub; [by apply Htt|by apply H12].
        * intros id Hid. apply eq_None_not_Some. intros F%Hdel. rewrite (H21 _ Hid) in F. by destruct F.
        * intros id [->|Hid]%Hsub Hid2; [done|]. by apply (Hbb id).
        * lia.
        * intros id e' [_ ?]%lookup_delete_Some. by apply S1.
      + split; [by left|]. split; [by left|]. split; [done|]. split.
        { intros Ho s0 E1 E2 E0. unfold lpa_to_replace. rewrite E0.
          destruct (z_over rnd s); [rewrite E1, Ete; by eexists|]. cbn in Eo. apply bool_decide_eq_true in Eo.
          by destruct Ho. }
        split.
        * intros id [->|?]%Hsub; [by left|by right].
        * intros id ?. by right.
    - apply orb_false_elim in Eo as [Ez E2]. apply bool_decide_eq_false in E2.
      assert (Hne : m2 <> ∅) by (by apply msum_pos).
      destruct (sim_evict _ _ _ _ _ _ HS _ _ _ _ r Q2 P2 Hne) as (q1 & v & q2 & Ete & R1 & Hv & _ & _ & _ & HE). rewrite Ete. cbn [rbind].
      destruct (HE r) as (q3 & E3 & R3). pose proof Hv as [e Hve].
      assert (Hvb1 : v ∉ ids b1) by (intros F; specialize (H12 _ F); congruence).
      assert (Hvb2 : v ∉ ids b2) by (intros F; specialize (H22 _ F); congruence).
      destruct (ghost_in _ _ _ _ _ _ v e G2 R1 Q2 Hve Hvb2) as (o & g' & b' & -> & Eg & HQ' & Hin & Hsub). cbn [rbind].
      rewrite Eg. cbn [rbind]. rewrite E3. cbn [rbind].
      destruct (pok_del1 _ _ v Q2 Hv) as (Q2' & Hle & Hdel).
      assert (Hv1 : m1 !! v = None).
      { apply eq_None_not_Some. intros F%Htt. congruence. }
      eexists _, v, b1, b', m1, (delete v m2). split; [done|]. split; [|split; [done|]].
      + split; cbn; try done.
        * intros id Hid. apply eq_None_not_Some. intros F%Hdel. rewrite (Htt _ Hid) in F. by destruct F.
        * intros id Hid. apply eq_None_not_Some. intros F%Hdel. rewrite (H12 _ Hid) in F. by destruct F.
        * intros id [->|Hid]%Hsub; [done|by apply H21].
        * intros id [->|Hid]%Hsub; [apply lookup_delete|]. apply eq_None_not_Some. intros F%Hdel. rewrite (H22 _ Hid) in F. by destruct F.
        * intros id Hid [->|Hid2]%Hsub; [done|]. by apply (Hbb id).
        * lia.
        * intros id e' [_ ?]%lookup_delete_Some. by apply S2.
      + split; [by right|]. split; [by right|]. split.
        { rewrite Hv1. split; [by intros [? ?]|]. intros [?|?]; [congruence|done]. }
        split; [intros Ho s0 X1 X2 X0; unfold lpa_to_replace; rewrite X0, Ez, X2, Ete; by eexists|].
        split; [intros id ?; by right|]. intros id [->|?]%Hsub; [by left|by right].
  Qed.

  Lemma pok_b1 s t1 m1 b1 t2 m2 b2 q b1' : pok s t1 m1 b1 t2 m2 b2 -> qok cap 0 q b1' ->
    (forall id, id ∈ ids b1' -> id ∈ ids b1) -> pok (z_set_b1 s q) t1 m1 b1' t2 m2 b2.
  Proof using R size_of.
    intros [] HQ Hs. split; cbn; try done.
    - by eapply apart_sub.
    - by eapply apart_sub.
    - intros id ? ?. by apply (pk_bb0 id); [apply Hs|].
  Qed.
  Lemma pok_b2 s t1 m1 b1 t2 m2 b2 q b2' : pok s t1 m1 b1 t2 m2 b2 -> qok cap 0 q b2' ->
    (forall id, id ∈ ids b2' -> id ∈ ids b2) -> pok (z_set_b2 s q) t1 m1 b1 t2 m2 b2'.
  Proof using R size_of.
    intros [] HQ Hs. split; cbn; try done.
    - by eapply apart_sub.
    - by eapply apart_sub.
    - intros id ? ?. by apply (pk_bb0 id); [|apply Hs].
  Qed.

  (** The loop of 461-466. *)
  Lemma cut_ok n r fuel : n < 2 * cap -> forall l q, (length l < fuel)%nat -> qok cap 0 q l ->
    exists q' l', while_ fuel (fun b2 => Ok (bool_decide (n + q_occ b2 >= cap * 2)))
                    (fun b2 => q_evict_tail b2 r) q = Ok q' /\ qok cap 0 q' l' /\ (exists d, l = l' ++ d) /\
                    n + bytes 0 l' < 2 * cap.
  Proof using.
    intros Hn. induction fuel as [|fuel IH]; intros l q Hf HQ; [lia|]. cbn [while_].
    assert (Eo : q_occ q = bytes 0 l) by apply (qok_occ _ _ _ _ HQ). rewrite Eo. cbn [rbind]. destruct (bool_decide _) eqn:E.
    - apply bool_decide_eq_true in E. destruct l as [|[v o] l' _] using rev_ind; [cbn in E; lia|].
      destruct (qok_evict _ _ _ _ _ _ r (Z.le_refl 0) HQ) as (q1 & -> & HQ1). cbn [rbind].
      destruct (IH l' q1) as (q' & l1 & -> & HQ' & (d & ->) & Hb); [rewrite app_length in Hf; cbn in Hf; lia|done|].
      exists q', l1. split; [done|]. split; [done|]. split; [|done]. exists (d ++ [(v, o)]). by rewrite app_assoc.
    - apply bool_decide_eq_false in E. exists q, l. split; [done|]. split; [done|]. split; [exists []; by rewrite app_nil_r|lia].
  Qed.

  (** One eviction for a request [r] that fits the cache but not beside what is
      held. *)
  Lemma evict_ok s t1 m1 b1 t2 m2 b2 r : pok s t1 m1 b1 t2 m2 b2 -> 0 <= r_size r <= cap ->
    msum 0 m1 + msum 0 m2 + r_size r > cap ->
    exists s' v b1' b2' m1' m2', lpa_evict rnd O s r = Ok s' /\ pok s' t1 m1' b1' t2 m2' b2' /\ pkeep s s' /\
      gone m1 m2 m1' m2' v /\
      (z_over rnd s = true \/ msum 0 m2 <> 0 -> exists s1, lpa_to_evict rnd O s r = Ok (s1, Some v)) /\
      (forall id, id ∈ ids b1' -> (id = v /\ is_Some (m1 !! v)) \/ id ∈ ids b1) /\
      (forall id, id ∈ ids b2' -> (id = v /\ is_Some (m2 !! v)) \/ id ∈ ids b2).
  Proof using HS HT HO.
    intros H Hr Hgt. pose proof (occ1 _ _ _ _ _ _ _ H) as O1. pose proof (occ2 _ _ _ _ _ _ _ H) as O2.
    pose proof (occb1 _ _ _ _ _ _ _ H) as [Ob1 Bb1]. pose proof (mb _ _ _ _ _ _ _ H) as [B1 B2].
    assert (Hsz := pk_sz _ _ _ _ _ _ _ H). assert (Hmd := pk_md _ _ _ _ _ _ _ H). assert (Hcap := pk_cap _ _ _ _ _ _ _ H).
    assert (HR : forall s1 b1x b2x, pok s1 t1 m1 b1x t2 m2 b2x -> pkeep s s1 ->
      z_t1 s1 = z_t1 s -> z_t2 s1 = z_t2 s -> z_over rnd s1 = z_over rnd s ->
      (forall id, id ∈ ids b1x -> id ∈ ids b1) -> (forall id, id ∈ ids b2x -> id ∈ ids b2) ->
      exists s' v b1' b2' m1' m2', lpa_replace rnd O s1 r = Ok s' /\ pok s' t1 m1' b1' t2 m2' b2' /\ pkeep s s' /\
      gone m1 m2 m1' m2' v /\
      (z_over rnd s = true \/ msum 0 m2 <> 0 -> exists s1, lpa_to_replace rnd O s r = Ok (s1, Some v)) /\
      (forall id, id ∈ ids b1' -> (id = v /\ is_Some (m1 !! v)) \/ id ∈ ids b1) /\
      (forall id, id ∈ ids b2' -> (id = v /\ is_Some (m2 !! v)) \/ id ∈ ids b2)).
    { intros s1 b1x b2x H1 Hk K1' K2' K3' Hs1 Hs2. destruct (replace_ok s1 _ _ _ _ _ _ r H1 ltac:(lia))
        as (s' & v & b1' & b2' & m1' & m2' & E & H' & Hk' & Hg & _ & _ & Hte & Hx & Hy).
      exists s', v, b1', b2', m1', m2'. split; [done|]. split; [done|]. split.
      { unfold pkeep in *. destruct Hk as (-> & -> & -> & -> & ->) || destruct Hk as (K1 & K2 & K3 & K4 & K5).
        destruct Hk' as (? & ? & ? & ? & ?). split_and!; congruence. }
      split; [done|]. split.
      { rewrite <- K3'. intros Ho. by apply Hte. }
      split.
      - intros id [?|?]%Hx; [by left|right; by apply Hs1].
      - intros id [?|?]%Hy; [by left|right; by apply Hs2]. }
    unfold lpa_evict, lpa_to_evict. destruct (z_in_ghost s).
    { by apply HR with (b1x := b1) (b2x := b2). }
    unfold lpa_evict_miss, lpa_to_evict_miss, z_full. rewrite O1, Ob1, Hsz, Hmd. destruct (bool_decide _) eqn:Ef.
    - apply bool_decide_eq_true in Ef. destruct (decide (bytes 0 b1 > 0)) as [Hb|Hb].
      + destruct b1 as [|[v o] l _] using rev_ind; [cbn in Hb; lia|].
        destruct (qok_evict _ _ _ _ _ _ r (Z.le_refl 0) (pk_b1 _ _ _ _ _ _ _ H)) as (q1 & -> & HQ1). cbn [rbind].
        assert (Hs : forall id, id ∈ ids l -> id ∈ ids (l ++ [(v, o)])).
        { intros id ?. rewrite ids_app. apply elem_of_app. by left. }
        apply HR with (b1x := l) (b2x := b2); [by eapply pok_b1|done..].
      + assert (Hne : m1 <> ∅) by (apply msum_pos; lia).
        pose proof H as [P1 Q1 P2 Q2 G1 G2 _ _ Htt H11 H12 H21 H22 Hbb _ S1 S2 Hvt].
        destruct (sim_evict _ _ _ _ _ _ HS _ _ _ _ r Q1 P1 Hne) as (q1 & v & q2 & Ete & _ & Hv & _ & -> & R2 & _). cbn [rbind].
        destruct (pok_del1 _ _ v Q1 Hv) as (Q1' & Hle & Hdel).
        eexists _, v, b1, b2, (delete v m1), m2. split; [done|]. split; [|split; [done|split; [by left|split; [intros _; rewrite Ete; by eexists|split; intros id ?; by right]]]].
        split; cbn; try done.
        * intros id Hid. apply Htt. by apply Hdel.
        * intros id Hid. apply eq_None_not_Some. intros F%Hdel. rewrite (H11 _ Hid) in F. by destruct F.
        * intros id Hid. apply eq_None_not_Some. intros F%Hdel. rewrite (H21 _ Hid) in F. by destruct F.
        * lia.
        * intros id e' [_ ?]%lookup_delete_Some. by apply S1.
    - apply bool_decide_eq_false in Ef. rewrite O2.
      pose proof (pk_b2 _ _ _ _ _ _ _ H) as HQ2.
      destruct (cut_ok (msum 0 m1 + bytes 0 b1 + msum 0 m2) r (S (Z.to_nat (q_nobj (z_b2 s)))) ltac:(lia) b2 (z_b2 s)) as (q' & l' & E & HQ' & (d & Hd) & _).
      { unfold q_nobj. rewrite (qok_nobj _ _ _ _ HQ2). lia. }
      { done. }
      rewrite E. cbn [rbind].
      assert (Hs : forall id, id ∈ ids l' -> id ∈ ids b2).
      { intros id ?. rewrite Hd, ids_app. apply elem_of_app. by left. }
      apply HR with (b1x := b1) (b2x := l'); [by eapply pok_b2|done..].
  Qed.

  Lemma gone_facts m1 m2 m1' m2' v : gone m1 m2 m1' m2' v ->
    (size m1' + size m2' < size m1 + size m2)%nat /\ m1' ⊆ m1 /\ m2' ⊆ m2.
  Proof using.
    intros [(Hv & -> & ->)|(Hv & -> & ->)]; (split; [|split; try done; apply delete_subseteq]).
    - rewrite map_size_delete_Some by done. destruct Hv as [e Hv].
      assert (size m1 <> 0)%nat; [|lia]. intros F%map_size_empty_inv. subst. by rewrite lookup_empty in Hv.
    - rewrite map_size_delete_Some by done. destruct Hv as [e Hv].
      assert (size m2 <> 0)%nat; [|lia]. intros F%map_size_empty_inv. subst. by rewrite lookup_empty in Hv.
  Qed.

  Lemma loop_ok r : 0 <= r_size r <= cap -> forall n s t1 m1 b1 t2 m2 b2 fuel,
    (size m1 + size m2 <= n)%nat -> (n <= fuel)%nat -> pok s t1 m1 b1 t2 m2 b2 -> nowhere (r_id r) m1 b1 m2 b2 ->
    exists s' m1' b1' m2' b2', evict_loop OO fuel s r = Ok s' /\ pok s' t1 m1' b1' t2 m2' b2' /\ pkeep s s' /\
      nowhere (r_id r) m1' b1' m2' b2' /\ msum 0 m1' + msum 0 m2' + r_size r <= cap /\ m1' ⊆ m1 /\ m2' ⊆ m2 /\
      (size m1' + size m2' <= size m1 + size m2)%nat.
  Proof using HS HT HO.
    intros Hr n. induction n as [|n IH]; intros s t1 m1 b1 t2 m2 b2 fuel Hn Hf H Hw;
      (assert (Hocc : op_occupied OO s + r_size r + op_md OO s = msum 0 m1 + msum 0 m2 + r_size r /\ op_size OO s = cap);
       [cbn; rewrite !HO, (occ1 _ _ _ _ _ _ _ H), (occ2 _ _ _ _ _ _ _ H), (pk_md _ _ _ _ _ _ _ H), (pk_sz _ _ _ _ _ _ _ H); split; [lia|done]|]);
      destruct Hocc as [Hocc Hsz];
      (destruct (decide (msum 0 m1 + msum 0 m2 + r_size r > cap)) as [Hgt|Hle];
       [|exists s, m1, b1, m2, b2; split; [destruct fuel; cbn [evict_loop]; by rewrite Hocc, Hsz, decide_False by lia|split_and!; done || lia]]).
    - exfalso. assert (m1 = ∅ /\ m2 = ∅) as [-> ->] by (split; apply map_size_empty_inv; lia). rewrite msum_empty in Hgt. lia.
    - destruct fuel as [|fuel]; [lia|]. cbn [evict_loop]. rewrite Hocc, Hsz, decide_True by lia. cbn [op_evict lpa_ops].
      destruct (evict_ok s _ _ _ _ _ _ r H Hr Hgt) as (s1 & v & b1' & b2' & m1' & m2' & -> & H1 & Hk & Hg & _ & Hs1 & Hs2). cbn [rbind].
      destruct (gone_facts _ _ _ _ _ Hg) as (Hsize & Hm1 & Hm2). destruct Hw as (W1 & W2 & W3 & W4).
      destruct (IH s1 t1 m1' b1' t2 m2' b2' fuel ltac:(lia) ltac:(lia) H1) as (s' & m1x & b1x & m2x & b2x & E & H' & Hk' & Hw' & Hc & Hx & Hy & Hz).
      { unfold nowhere. split_and!; [exact (lookup_weaken_None _ _ _ W1 Hm1)| |exact (lookup_weaken_None _ _ _ W3 Hm2)|].
        - intros [(<- & F)|F]%Hs1; [|done]. rewrite W1 in F. by destruct F.
        - intros [(<- & F)|F]%Hs2; [|done]. rewrite W3 in F. by destruct F. }
      exists s', m1x, b1x, m2x, b2x. split; [done|]. split; [done|]. split.
      { unfold pkeep in *. destruct Hk as (? & ? & ? & ? & ?), Hk' as (? & ? & ? & ? & ?). split_and!; congruence. }
      split_and!; try done; try lia; by etrans.
  Qed.

  Definition held (id : Z) (m1 m2 : gmap Z entry) : Prop := is_Some (m1 !! id) \/ is_Some (m2 !! id).

  Lemma find_false_ok s t1 m1 b1 t2 m2 b2 r : pok s t1 m1 b1 t2 m2 b2 ->
    lpa_find rnd O s r false = Ok (s, bool_decide (held (r_id r) m1 m2)).
  Proof using HS.
    intros []. unfold lpa_find. rewrite (sim_find_false _ _ _ _ _ _ HS _ _ r pk_t3). cbn [rbind a_m].
    rewrite (sim_find_false _ _ _ _ _ _ HS _ _ r pk_t4). cbn [rbind a_m]. do 2 f_equal. symmetry. unfold held. apply bool_decide_or.
  Qed.

  Lemma msum_in m id e : abs_ok cap 0 (mkAbs 0 m AdmNone) \/ (exists t, abs_ok cap 0 (mkAbs t m AdmNone)) -> m !! id = Some e -> 0 <= e_size e <= msum 0 m.
  Proof using.
    intros [Hok|[t Hok]] Hv; pose proof (msum_delete 0 m id e Hv); pose proof (abs_ok_delete _ _ _ _ _ id Hok) as (? & _);
      destruct Hok as (_ & He & _); destruct (He _ _ Hv) as (? & _); cbn in *; lia.
  Qed.

  (** A lookup with update.  For a request of the size the id always has. *)
  Lemma find_true_ok s t1 m1 b1 t2 m2 b2 r : pok s t1 m1 b1 t2 m2 b2 -> req_ok 0 r -> r_size r = size_of (r_id r) ->
    exists s' t1' m1' b1' t2' m2' b2', lpa_find rnd O s r true = Ok (s', bool_decide (held (r_id r) m1 m2)) /\
      pok s' t1' m1' b1' t2' m2' b2' /\ z_c s' = z_c s /\
      (size m1' + size m2' = size m1 + size m2)%nat /\
      (held (r_id r) m1 m2 -> b1' = b1 /\ b2' = b2 /\ m1' = delete (r_id r) m1 /\ m1' !! r_id r = None /\
         (forall id, is_Some (m2' !! id) <-> id = r_id r \/ is_Some (m2 !! id))) /\
      (~ held (r_id r) m1 m2 -> m1' = m1 /\ m2' = m2 /\ b1' = l_del (r_id r) b1 /\ b2' = l_del (r_id r) b2 /\
         nowhere (r_id r) m1' b1' m2' b2' /\
         (z_vt s < c_nreq (z_c s) -> z_in_ghost s' = bool_decide (r_id r ∈ ids b1 \/ r_id r ∈ ids b2))).
  Proof using HS HO.
    intros H Hr Hsz. pose proof H as [P1 Q1 P2 Q2 G1 G2 Hcs Hmd Htt H11 H12 H21 H22 Hbb Hcap S1 S2 Hvt].
    unfold lpa_find. rewrite (sim_find_false _ _ _ _ _ _ HS _ _ r P1). cbn [rbind a_m].
    rewrite (sim_find_false _ _ _ _ _ _ HS _ _ r P2). cbn [rbind a_m].
    rewrite (qok_lru_false _ _ _ _ G1). cbn [rbind].
    rewrite (qok_lru_false _ _ _ _ G2). cbn [rbind].
    destruct (decide (is_Some (m1 !! r_id r))) as [[e1 E1]|E1].
    { (* in T1 *)
      assert (N2 : m2 !! r_id r = None) by (apply Htt; eauto).
      assert (Nb1 : r_id r ∉ ids b1) by (intros F; specialize (H11 _ F); congruence).
      assert (Nb2 : r_id r ∉ ids b2) by (intros F; specialize (H21 _ F); congruence).
      rewrite (bool_decide_eq_true_2 (is_Some (m1 !! r_id r))) by eauto.
      rewrite (bool_decide_eq_false_2 (is_Some (m2 !! r_id r))) by (rewrite N2; by intros [? ?]).
      rewrite !(bool_decide_eq_false_2 (r_id r ∈ _)) by done. cbn [orb negb z_set_flags z_t1 z_t2].
      destruct (sim_remove _ _ _ _ _ _ HS _ _ _ _ (r_id r) Q1 P1) as (q1 & -> & R1). cbn [rbind].
      pose proof (S1 _ _ E1) as Hse. pose proof (msum_delete 0 m1 _ _ E1) as Hmd1.
      pose proof (mb _ _ _ _ _ _ _ H) as [Hb1 Hb2].
      assert (Hle : msum 0 m2 + r_size r <= cap).
      { pose proof (abs_ok_delete _ _ _ _ _ (r_id r) Q1) as (? & _). cbn in *. lia. }
      assert (HS' : simulation pol O (cap - 0) 0 (req_ok 0) R) by (by rewrite Z.sub_0_r).
      destruct (main_get_spec pol O R cap 0 HS' (z_t2 s) t2 m2 r) as (q2 & mx & E2 & Hev & R2 & Hok2); rewrite ?Z.sub_0_r in *; try done; [lia|].
      change (sub_get O (z_t2 s) r) with (main_get O (z_t2 s) r). rewrite E2. cbn [rbind].
      assert (mx = m2) as ->. { inversion Hev; subst; [done|lia]. }
      rewrite (bool_decide_eq_true_2 (held _ _ _)) by (left; eauto).
      eexists _, t1, (delete (r_id r) m1), b1, _, _, b2. split; [done|].
      assert (Hms : msum 0 (<[r_id r := fresh t2 r]> m2) = msum 0 m2 + r_size r).
      { rewrite msum_insert by done. cbn. lia. }
      split; [|split; [done|split]].
      - split; cbn; try done.
        + by apply abs_ok_delete.
        + intros id [e He]. apply lookup_delete_Some in He as [Hne He]. rewrite lookup_insert_ne by done. apply Htt; eauto.
        + intros id Hid. rewrite lookup_delete_None. right. by apply H11.
        + intros id Hid. rewrite lookup_insert_ne by (intros <-; done). by apply H12.
        + intros id Hid. rewrite lookup_delete_None. right. by apply H21.
        + intros id Hid. rewrite lookup_insert_ne by (intros <-; done). by apply H22.
        + rewrite Hms. lia.
        + intros id e [_ He]%lookup_delete_Some. eauto.
        + intros id e. rewrite lookup_insert_Some. intros [[<- <-]|[_ ?]]; [done|eauto].
      - rewrite map_size_insert_None, map_size_delete_Some by eauto.
        assert (size m1 <> 0)%nat; [|lia]. intros F%map_size_empty_inv. subst. by rewrite lookup_empty in E1.
      - split.
        + intros _. split_and!; try done; [apply lookup_delete|].
          intros id. rewrite lookup_insert_is_Some'. naive_solver.
        + intros F. exfalso. apply F. left. eauto. }
    rewrite (bool_decide_eq_false_2 (is_Some (m1 !! r_id r))) by done.
    destruct (decide (is_Some (m2 !! r_id r))) as [[e2 E2]|E2].
    { assert (Nb1 : r_id r ∉ ids b1) by (intros F; specialize (H12 _ F); congruence).
      assert (Nb2 : r_id r ∉ ids b2) by (intros F; specialize (H22 _ F); congruence).
      rewrite (bool_decide_eq_true_2 (is_Some (m2 !! r_id r))) by eauto.
      assert (E1n : m1 !! r_id r = None) by (by apply eq_None_not_Some).
      rewrite !(bool_decide_eq_false_2 (r_id r ∈ _)) by done. cbn [orb negb z_set_flags z_t1 z_t2].
      destruct (sim_find_hit _ _ _ _ _ _ HS _ _ _ _ r e2 Q2 P2 E2) as (q2 & -> & R2). cbn [rbind].
      rewrite (bool_decide_eq_true_2 (held _ _ _)) by (right; eauto).
      assert (Hsub : forall id, is_Some (<[r_id r:=touch t2 r e2]> m2 !! id) <-> id = r_id r \/ is_Some (m2 !! id)).
      { intros id. rewrite lookup_insert_is_Some'. naive_solver. }
      assert (Hsn : forall id, m2 !! id = None -> <[r_id r:=touch t2 r e2]> m2 !! id = None).
      { intros id Hid. rewrite lookup_insert_ne; [done|]. intros <-. congruence. }
      eexists _, t1, m1, b1, _, _, b2. split; [done|]. split; [|split; [done|split]].
      - split; cbn; try done.
        + by apply abs_ok_touch.
        + intros id Hid. by apply Hsn, Htt.
        + intros id Hid. by apply Hsn, H12.
        + intros id Hid. by apply Hsn, H22.
        + by rewrite (msum_update _ _ _ e2).
        + intros id e'. rewrite lookup_insert_Some. intros [[<- <-]|[_ ?]]; [|eauto]. cbn. eauto.
      - rewrite map_size_insert_Some by eauto. done.
      - split.
        + intros _. split_and!; try done. by rewrite delete_notin.
        + intros F. exfalso. apply F. right. eauto. }
    rewrite (bool_decide_eq_false_2 (is_Some (m2 !! r_id r))) by done.
    assert (Nh : ~ held (r_id r) m1 m2) by (by intros [F|F]).
    apply eq_None_not_Some in E1, E2.
    rewrite (bool_decide_eq_false_2 (held _ _ _)) by done.
    assert (HB1 : apart (l_del (r_id r) b1) m1 /\ apart (l_del (r_id r) b1) m2).
    { split; (eapply apart_sub; [apply del_sub|done]). }
    assert (HB2 : apart (l_del (r_id r) b2) m1 /\ apart (l_del (r_id r) b2) m2).
    { split; (eapply apart_sub; [apply del_sub|done]). }
    destruct (decide (r_id r ∈ ids b1)) as [I1|I1].
    { assert (I2 : r_id r ∉ ids b2) by (intros F; by apply (Hbb (r_id r))).
      rewrite (bool_decide_eq_true_2 (r_id r ∈ ids b1)), (bool_decide_eq_false_2 (r_id r ∈ ids b2)) by done.
      cbn [orb negb z_set_flags z_set_p z_b1 z_b2 z_c z_vt z_p].
      destruct (qok_remove_hit _ _ _ _ G1 (r_id r) (Z.le_refl 0) I1) as (q1 & -> & HQ1). cbn [rbind].
      eexists _, t1, m1, (l_del (r_id r) b1), t2, m2, b2. split; [done|]. split; [|split; [done|split; [done|split; [done|]]]].
      - split; cbn; try done; try tauto.
        intros id ?%del_sub ?. by apply (Hbb id).
      - intros _. rewrite (l_del_notin _ b2) by done. split_and!; try done.
        + split_and!; try done. rewrite elem_ids_del. tauto.
        + intros _. unfold z_in_ghost. cbn. rewrite !bool_decide_eq_true_2; [done|by left|done]. }
    rewrite (bool_decide_eq_false_2 (r_id r ∈ ids b1)) by done.
    destruct (decide (r_id r ∈ ids b2)) as [I2|I2].
    { rewrite (bool_decide_eq_true_2 (r_id r ∈ ids b2)) by done.
      cbn [orb negb z_set_flags z_set_p z_b1 z_b2 z_c z_vt z_p].
      destruct (qok_remove_hit _ _ _ _ G2 (r_id r) (Z.le_refl 0) I2) as (q2 & -> & HQ2). cbn [rbind].
      eexists _, t1, m1, b1, t2, m2, (l_del (r_id r) b2). split; [done|]. split; [|split; [done|split; [done|split; [done|]]]].
      - split; cbn; try done; try tauto.
        intros id ? ?%del_sub. by apply (Hbb id).
      - intros _. rewrite (l_del_notin _ b1) by done. split_and!; try done.
        + split_and!; try done. rewrite elem_ids_del. tauto.
        + intros _. unfold z_in_ghost. cbn. rewrite !bool_decide_eq_true_2; [done|by right|done]. }
    rewrite (bool_decide_eq_false_2 (r_id r ∈ ids b2)) by done. cbn [orb negb].
    eexists s, t1, m1, b1, t2, m2, b2. split; [done|]. split; [done|]. split; [done|]. split; [done|]. split; [done|].
    intros _. rewrite !l_del_notin by done. split_and!; try done.
    intros Hlt. unfold z_in_ghost. rewrite (bool_decide_eq_false_2 (z_vt s = _)) by lia. cbn.
    rewrite bool_decide_eq_false_2; [done|]. tauto.
  Qed.

  Lemma insert_ok s t1 m1 b1 t2 m2 b2 r : pok s t1 m1 b1 t2 m2 b2 -> req_ok 0 r -> r_size r = size_of (r_id r) ->
    nowhere (r_id r) m1 b1 m2 b2 -> msum 0 m1 + msum 0 m2 + r_size r <= cap -> 0 <= c_nreq (z_c s) ->
    exists s' t1' t2', lpa_insert O s r = Ok s' /\ z_c s' = z_c s /\
      (if z_in_ghost s then pok s' t1' m1 b1 t2' (<[r_id r := fresh t2 r]> m2) b2
       else pok s' t1' (<[r_id r := fresh t1 r]> m1) b1 t2' m2 b2).
  Proof using HS HO.
    intros H Hr Hsz (N1 & N2 & N3 & N4) Hfit Hnr. pose proof (mb _ _ _ _ _ _ _ H) as [Hb1 Hb2].
    pose proof H as [P1 Q1 P2 Q2 G1 G2 Hcs Hmd Htt H11 H12 H21 H22 Hbb Hcap S1 S2 Hvt].
    unfold lpa_insert. destruct (z_in_ghost s).
    - destruct (sim_insert _ _ _ _ _ _ HS _ _ _ _ r Q2 P2 N3 Hr ltac:(lia)) as (q & -> & R2). cbn [rbind].
      eexists _, t1, _. split; [done|]. split; [done|]. split; cbn; try done.
      + apply (abs_ok_fresh _ _ _ _ AdmNone); try done. lia.
      + intros id Hid. rewrite lookup_insert_ne; [by apply Htt|]. intros <-. rewrite N1 in Hid. by destruct Hid.
      + intros id Hid. rewrite lookup_insert_ne; [by apply H12|]. intros <-. done.
      + intros id Hid. rewrite lookup_insert_ne; [by apply H22|]. intros <-. done.
      + rewrite msum_insert by done. cbn. lia.
      + intros id e'. rewrite lookup_insert_Some. intros [[<- <-]|[_ ?]]; [done|eauto].
      + lia.
    - destruct (sim_insert _ _ _ _ _ _ HS _ _ _ _ r Q1 P1 N1 Hr ltac:(lia)) as (q & -> & R1). cbn [rbind].
      eexists _, _, t2. split; [done|]. split; [done|]. split; cbn; try done.
      + apply (abs_ok_fresh _ _ _ _ AdmNone); try done. lia.
      + intros id. rewrite lookup_insert_is_Some'. intros [<-|Hid]; [done|by apply Htt].
      + intros id Hid. rewrite lookup_insert_ne; [by apply H11|]. intros <-. done.
      + intros id Hid. rewrite lookup_insert_ne; [by apply H21|]. intros <-. done.
      + rewrite msum_insert by done. cbn. lia.
      + intros id e'. rewrite lookup_insert_Some. intros [[<- <-]|[_ ?]]; [done|eauto].
  Qed.

  Lemma get_ok s t1 m1 b1 t2 m2 b2 r fuel : pok s t1 m1 b1 t2 m2 b2 -> req_ok 0 r -> r_size r = size_of (r_id r) ->
    r_size r <= cap -> 0 <= c_nreq (z_c s) -> (size m1 + size m2 <= fuel)%nat ->
    exists s' t1' m1' b1' t2' m2' b2', cache_get_base OO fuel s r = Ok (s', bool_decide (held (r_id r) m1 m2)) /\
      pok s' t1' m1' b1' t2' m2' b2' /\ (size m1' + size m2' <= size m1 + size m2 + 1)%nat /\ 0 <= c_nreq (z_c s') /\
      (held (r_id r) m1 m2 -> b1' = b1 /\ b2' = b2 /\ m1' = delete (r_id r) m1 /\
         (forall id, is_Some (m2' !! id) <-> id = r_id r \/ is_Some (m2 !! id))) /\
      (~ held (r_id r) m1 m2 ->
         (forall id, id <> r_id r -> (is_Some (m1' !! id) -> is_Some (m1 !! id)) /\ (is_Some (m2' !! id) -> is_Some (m2 !! id))) /\
         r_id r ∉ ids b1' /\ r_id r ∉ ids b2' /\
         if decide (r_id r ∈ ids b1 \/ r_id r ∈ ids b2) then is_Some (m2' !! r_id r) else is_Some (m1' !! r_id r)).
  Proof using HS HT HO.
    intros H Hr Hsz Hcap Hnr Hf. unfold cache_get_base.
    assert (HT' : pok (op_tick OO s) t1 m1 b1 t2 m2 b2 /\ z_vt (op_tick OO s) < c_nreq (z_c (op_tick OO s)) /\ 0 <= c_nreq (z_c (op_tick OO s))).
    { destruct H. split; [split; cbn; try done; lia|]. cbn. lia. }
    destruct HT' as (HT' & Hlt & Hnr'). cbn [op_find lpa_ops]. set (s0 := op_tick OO s) in *. clearbody s0.
    destruct (find_true_ok s0 _ _ _ _ _ _ r HT' Hr Hsz) as (s1 & u1 & m1' & b1' & u2 & m2' & b2' & -> & H1 & Hc & Hl & Hhit & Hmiss).
    cbn [rbind]. destruct (bool_decide (held (r_id r) m1 m2)) eqn:Eb.
    - apply bool_decide_eq_true in Eb. destruct (Hhit Eb) as (-> & -> & -> & _ & Hm2).
      eexists s1, u1, _, b1, u2, m2', b2. split; [done|]. split; [done|]. split; [lia|]. rewrite Hc. split_and!; done.
    - apply bool_decide_eq_false in Eb. destruct (Hmiss Eb) as (-> & -> & -> & -> & Hw & Hg). specialize (Hg Hlt).
      cbn [op_can_insert lpa_ops rbind]. destruct Hr as [Hr1 Hr2].
      destruct (loop_ok r ltac:(lia) (size m1 + size m2)%nat s1 _ _ _ _ _ _ fuel (Nat.le_refl _) Hf H1 Hw)
        as (s2 & n1 & c1 & n2 & c2 & -> & H2 & Hk & Hw2 & Hfit & Hx & Hy & Hz). cbn [rbind op_insert lpa_ops].
      destruct Hk as (K1 & K2 & K3 & K4 & K5).
      assert (Hg2 : z_in_ghost s2 = z_in_ghost s1) by (unfold z_in_ghost; by rewrite K1, K2, K3, K4).
      destruct (insert_ok s2 _ _ _ _ _ _ r H2 ltac:(done) Hsz Hw2 Hfit) as (s3 & v1 & v2 & -> & Hc3 & H3).
      { rewrite K1, Hc. done. }
      cbn [rbind]. rewrite Hg2, Hg in H3. destruct Hw2 as (W1 & W2 & W3 & W4).
      assert (Hn3 : 0 <= c_nreq (z_c s3)) by (by rewrite Hc3, K1, Hc).
      destruct (decide _) as [Hd|Hd].
      + rewrite bool_decide_eq_true_2 in H3 by done. eexists s3, _, n1, c1, _, _, c2. split; [done|]. split; [exact H3|].
        rewrite map_size_insert_None by done. split; [lia|]. split; [done|]. split; [done|]. intros _. split_and!; try done.
        * intros id Hne. rewrite lookup_insert_ne by done.
          split; (intros [e He]; exists e; by eapply lookup_weaken).
        * rewrite lookup_insert. eauto.
      + rewrite bool_decide_eq_false_2 in H3 by done. eexists s3, _, _, c1, _, n2, c2. split; [done|]. split; [exact H3|].
        rewrite map_size_insert_None by done. split; [lia|]. split; [done|]. split; [done|]. intros _. split_and!; try done.
        * intros id Hne. rewrite lookup_insert_ne by done.
          split; (intros [e He]; exists e; by eapply lookup_weaken).
        * rewrite lookup_insert. eauto.
  Qed.

  Lemma remove_ok s t1 m1 b1 t2 m2 b2 id : pok s t1 m1 b1 t2 m2 b2 ->
    exists s', lpa_remove O s id = Ok (s', bool_decide (held id m1 m2)) /\ z_c s' = z_c s /\
      pok s' t1 (delete id m1) b1 t2 (delete id m2) b2.
  Proof using HS HO.
    intros H. pose proof (mb _ _ _ _ _ _ _ H) as [Hb1 Hb2].
    pose proof H as [P1 Q1 P2 Q2 G1 G2 Hcs Hmd Htt H11 H12 H21 H22 Hbb Hcap S1 S2 Hvt].
    unfold lpa_remove. destruct (sim_remove _ _ _ _ _ _ HS _ _ _ _ id Q1 P1) as (q1 & -> & R1). cbn [rbind].
    destruct (sim_remove _ _ _ _ _ _ HS _ _ _ _ id Q2 P2) as (q2 & -> & R2). cbn [rbind].
    assert (Hle : forall t m, abs_ok cap 0 (mkAbs t m AdmNone) -> msum 0 (delete id m) <= msum 0 m).
    { intros t m Hok. destruct (m !! id) as [e|] eqn:E; [|by rewrite delete_notin].
      pose proof (msum_delete 0 m id e E) as Hd. destruct Hok as (_ & He & _). cbn in He. destruct (He _ _ E). lia. }
    pose proof (Hle _ _ Q1). pose proof (Hle _ _ Q2).
    exists (z_set_t2 (z_set_t1 s q1) q2). split; [|split; [done|]].
    - do 2 f_equal. symmetry. unfold held. apply bool_decide_or.
    - split; cbn; try done; try (by apply abs_ok_delete).
      + intros j [_ Hj]%lookup_delete_is_Some. apply lookup_delete_None. right. by apply Htt.
      + intros j Hj. apply lookup_delete_None. right. by apply H11.
      + intros j Hj. apply lookup_delete_None. right. by apply H12.
      + intros j Hj. apply lookup_delete_None. right. by apply H21.
      + intros j Hj. apply lookup_delete_None. right. by apply H22.
      + lia.
      + intros j e [_ He]%lookup_delete_Some. eauto.
      + intros j e [_ He]%lookup_delete_Some. eauto.
  Qed.
End LPARC.
