(** The segmented caches built from queues, against the segments of
    SpecSegV0.v. *)
From stdpp Require Import gmap list numbers fin_maps.
From Verif Require Import Base Driver ModelQueue QueueFacts QList SpecComp ModelTwoQ ModelSLRU SpecSLRU
  SLRUFacts SpecSFIFO ModelSegV0 SpecSegV0.
Open Scope Z_scope.
Local Arguments total_bytes : simpl never.

(** * One queue *)

Definition wt (md : Z) (l : qlist) : seg := (fun x => (x.1, o_size x.2 + md)) <$> l.

Section Queue.
  Context (m md : Z) (Hmd : 0 <= md).

  Definition vq (q : qstate) (l : seg) : Prop := exists ql, qok m md q ql /\ wt md ql = l.

  Lemma wt_ids ql : (wt md ql).*1 = ids ql.
  Proof. unfold wt, ids. by rewrite <- list_fmap_compose. Qed.
  Lemma wt_bytes ql : total_bytes (wt md ql) = bytes md ql.
  Proof.
    unfold wt. induction ql as [|x ql IH]; [done|]. cbn [fmap list_fmap]. rewrite total_cons, bytes_cons, <- IH.
    done.
  Qed.
  Lemma wt_app a b : wt md (a ++ b) = wt md a ++ wt md b.
  Proof. apply fmap_app. Qed.

  Lemma vq_occ q l : vq q l -> q_occ q = total_bytes l.
  Proof. intros (ql & H & <-). unfold q_occ. by rewrite (qok_occ _ _ _ _ H), wt_bytes. Qed.
  Lemma vq_size q l : vq q l -> q_size q = m.
  Proof. intros (ql & H & <-). apply (qok_size _ _ _ _ H). Qed.
  Lemma vq_nobj q l : vq q l -> q_nobj q = Z.of_nat (length l).
  Proof.
    intros (ql & H & <-). unfold q_nobj. rewrite (qok_nobj _ _ _ _ H). unfold wt. by rewrite fmap_length.
  Qed.
  Lemma vq_nil : vq (q_init m md AdmNone) [].
  Proof. exists []. split; [apply qok_init|done]. Qed.

  Lemma vq_find_lru q l r : vq q l -> lru_find q r false = Ok (q, bool_decide (r_id r ∈ l.*1)).
  Proof. intros (ql & H & <-). rewrite wt_ids. by apply qok_lru_false with (sz := m) (md := md). Qed.
  Lemma vq_find_fifo q l r : vq q l -> fifo_find q r false = Ok (q, bool_decide (r_id r ∈ l.*1)).
  Proof. intros (ql & H & <-). rewrite wt_ids. by apply qok_find_false with (sz := m) (md := md). Qed.

  Lemma vq_insert q l r : vq q l -> r_id r ∉ l.*1 -> req_ok md r ->
    exists q', q_insert q r = Ok q' /\ vq q' ((r_id r, r_size r + md) :: l).
  Proof using Hmd.
    intros (ql & H & <-) Hn Hr. rewrite wt_ids in Hn.
    destruct (qok_insert _ _ _ _ H r Hn Hr Hmd) as (q' & E & H'). exists q'. split; [done|].
    eexists. split; [exact H'|]. cbn. unfold wt. cbn. f_equal. f_equal.
    unfold obj_of_req. cbn. unfold u32. destruct Hr. rewrite Z.mod_small; lia.
  Qed.

  Lemma wt_del id ql : wt md (l_del id ql) = without id (wt md ql).
  Proof.
    unfold wt, l_del, without. induction ql as [|x ql IH]; [done|]. cbn [fmap list_fmap].
    destruct (decide (x.1 <> id)).
    - rewrite !filter_cons_True by done. cbn. by f_equal.
    - by rewrite !filter_cons_False.
  Qed.

  Lemma vq_remove_hit q l id : vq q l -> id ∈ l.*1 ->
    exists q', q_remove q id = Ok (q', true) /\ vq q' (without id l).
  Proof using Hmd.
    intros (ql & H & <-) Hin. rewrite wt_ids in Hin.
    destruct (qok_remove_hit _ _ _ _ H id Hmd Hin) as (q' & E & H'). exists q'. split; [done|].
    eexists. split; [exact H'|]. apply wt_del.
  Qed.
  Lemma vq_remove_miss q l id : vq q l -> id ∉ l.*1 -> q_remove q id = Ok (q, false).
  Proof.
    intros (ql & H & <-) Hin. rewrite wt_ids in Hin. by apply (qok_remove_miss _ _ _ _ H).
  Qed.

  Lemma vq_tail q L x r : vq q (L ++ [x]) ->
    q_to_evict_tail q r = Ok (q, Some x.1) /\
    (exists o, c_tbl (q_c q) !! x.1 = Some o /\ o_size o + md = x.2 /\ req_ok md (req_of_obj x.1 o)) /\
    exists q', q_evict_tail q r = Ok q' /\ vq q' L.
  Proof using Hmd.
    intros (ql & H & E). destruct ql as [|[id o] ql _] using rev_ind.
    { exfalso. symmetry in E. by apply app_nil in E as [_ ?]. }
    rewrite wt_app in E. cbn in E. apply app_inj_tail in E as [<- <-]. cbn [fst snd].
    split; [by apply qok_to_evict with (1 := H)|]. split.
    - exists o. assert (Hin : (id, o) ∈ ql ++ [(id, o)]) by (apply elem_of_app; right; left).
      split; [by apply (qok_lookup _ _ _ _ H)|]. split; [done|].
      assert (A := qok_osz _ _ _ _ H). rewrite Forall_forall in A. apply A in Hin as [? ?]. split; cbn in *; lia.
    - destruct (qok_evict _ _ _ _ _ _ r Hmd H) as (q' & E & H'). exists q'. split; [done|]. by exists ql.
  Qed.
End Queue.

(** * The array *)

Section Array.
  Context (n : nat) (m md : Z) (Hmd : 0 <= md) (Hm : 0 <= m).
  Context (small : Z -> Prop).
  Notation ms := (replicate n m).
  Notation vrel := (Forall2 (vq m md)).

  Definition wok (x : Z * Z) : Prop := 0 < x.2 /\ x.2 <= m /\ x.2 < 2 ^ 32 /\ small x.1.

  Record sok (segs : list seg) : Prop := {
    so_len : length segs = n;
    so_nd : NoDup (concat segs).*1;
    so_ok : Forall wok (concat segs)
  }.

  Lemma ms_at k : (k < n)%nat -> ms !!! k = m.
  Proof. intros H. apply list_lookup_total_correct. by apply lookup_replicate. Qed.
  Lemma ms_ok : Forall (fun m => 0 <= m) ms.
  Proof using Hm. apply Forall_forall. intros x Hx. apply elem_of_replicate in Hx as [-> _]. done. Qed.

  Lemma wok_nonneg l : Forall wok l -> nonneg l.
  Proof. intros H. apply (Forall_impl _ _ _ H). unfold wok. lia. Qed.
  Lemma segs_nonneg segs : Forall wok (concat segs) -> Forall nonneg segs.
  Proof.
    induction segs as [|l segs IH]; [done|]. cbn. intros [A B]%Forall_app. constructor; [by apply wok_nonneg|auto].
  Qed.
  Lemma seg_wok segs k l : Forall wok (concat segs) -> segs !! k = Some l -> Forall wok l.
  Proof.
    intros H E. apply Forall_forall. intros x Hx. rewrite Forall_forall in H. apply H.
    eapply inseg_concat. by exists l.
  Qed.

  Lemma vrel_at qs segs k l : vrel qs segs -> segs !! k = Some l ->
    exists q, at_ qs k = Ok q /\ vq m md q l.
  Proof.
    intros H E. destruct (Forall2_lookup_r _ _ _ _ _ H E) as (q & Eq & Hq). exists q.
    unfold at_. by rewrite Eq.
  Qed.

  Lemma vrel_fuel qs segs : vrel qs segs -> v0_fuel qs = S (length (concat segs)).
  Proof.
    intros H. unfold v0_fuel. f_equal.
    assert (E : foldr (fun q acc => q_nobj q + acc) 0 qs = Z.of_nat (length (concat segs))).
    { induction H as [|q l qs segs Hq H IH]; [done|]. cbn. rewrite IH, (vq_nobj _ _ _ _ Hq), app_length. lia. }
    rewrite E. lia.
  Qed.

  Lemma settle_fits k x segs : (k < length segs)%nat -> nonneg (x :: segs !!! k) ->
    total_bytes (segs !!! k) + x.2 <= ms !!! k ->
    settle ms k (<[k := x :: segs !!! k]> segs) = <[k := x :: segs !!! k]> segs.
  Proof.
    intros Hk Hn Ht. rewrite settle_eq. rewrite list_lookup_total_insert by done.
    rewrite fit_all; [done|done|]. rewrite total_cons. lia.
  Qed.

  (** Popping the tail [y] of segment [k] while [x] waits to be pushed there. *)
  Lemma settle_pend k L x y segs : segs !! k = Some (L ++ [y]) -> (k < length segs)%nat ->
    Forall nonneg segs -> 0 <= x.2 -> total_bytes (L ++ [y]) + x.2 > ms !!! k ->
    settle ms k (<[k := x :: L]> (below ms k L y segs)) = settle ms k (<[k := x :: L ++ [y]]> segs).
  Proof using Hm.
    intros E Hk Hn Hx Ht. assert (Hl : nonneg (L ++ [y])) by (rewrite Forall_lookup in Hn; by apply (Hn k)).
    rewrite <- (settle_step ms ms_ok k (x :: L) y (<[k := x :: L ++ [y]]> segs)).
    - f_equal. destruct k as [|k]; cbn [below].
      + by rewrite !list_insert_insert.
      + rewrite <- settle_insert_above by lia. f_equal.
        rewrite (list_lookup_total_insert_ne segs (S k) k) by lia.
        rewrite list_insert_insert. rewrite (list_insert_commute _ (S k) k) by lia.
        by rewrite list_insert_insert.
    - by rewrite list_lookup_insert.
    - apply Forall_insert; [done|]. constructor; done.
    - change (x :: L ++ [y]) with (x :: (L ++ [y])). cbn [app]. rewrite total_cons. lia.
  Qed.

  (** [cool] moves the tail of segment [k] down; the state [T] holds the array
      and something else, of which [I] is kept. *)
  Definition cool_spec {T} (pr : T -> list qstate) (I : T -> Prop) (cool : T -> res T)
      (k : nat) (bound : nat) : Prop :=
    forall qs segs L y, vrel (pr qs) segs -> I qs -> sok segs -> segs !! k = Some (L ++ [y]) ->
      (length (concat segs) <= bound)%nat ->
      exists qs', cool qs = Ok qs' /\ vrel (pr qs') (below ms k L y segs) /\ I qs'.

  Lemma below_sub k L y segs : segs !! k = Some (L ++ [y]) ->
    exists out, concat segs ≡ₚ out ++ concat (below ms k L y segs).
  Proof.
    intros Hk. assert (P := concat_pop segs k L [y] [] Hk). rewrite app_nil_r in P.
    assert (Hlt := lookup_lt_Some _ _ _ Hk). destruct k as [|k]; cbn [below].
    - by exists [y].
    - destruct (settle_sub ms k (<[k:=y :: segs !!! k]> (<[S k:=L]> segs))) as [out Q];
        [rewrite !insert_length; lia|].
      exists out. rewrite <- Q, P. symmetry. change (y :: segs !!! k) with ([y] ++ segs !!! k).
      apply concat_push. rewrite list_lookup_insert_ne by lia. apply list_lookup_lookup_total_lt. lia.
  Qed.

  Lemma sok_sub segs segs' out : sok segs -> length segs' = n -> concat segs ≡ₚ out ++ concat segs' -> sok segs'.
  Proof.
    intros H Hl P. split; [done| |].
    - assert (A := so_nd _ H). rewrite P, fmap_app in A. apply NoDup_app in A. tauto.
    - assert (A := so_ok _ H). rewrite P in A. apply Forall_app in A. tauto.
  Qed.

  Lemma below_length k L y segs : length (below ms k L y segs) = length segs.
  Proof. destruct k; cbn [below]; rewrite ?settle_length, !insert_length; done. Qed.

  (** Making room in segment [k] for the waiting [x]. *)
  Lemma pend_loop {T} (pr : T -> list qstate) (I : T -> Prop) cool cond k bound (x : Z * Z) :
    cool_spec pr I cool k bound -> (k < n)%nat -> 0 < x.2 <= m ->
    (forall qs segs, vrel (pr qs) segs -> length segs = n ->
       cond qs = Ok (bool_decide (total_bytes (segs !!! k) + x.2 > m))) ->
    forall j qs segs fw, vrel (pr qs) segs -> I qs -> sok segs -> length (segs !!! k) = j -> (j <= fw)%nat ->
    (length (concat segs) <= bound)%nat ->
    exists qs' segs', while_ fw cond cool qs = Ok qs' /\ vrel (pr qs') segs' /\ I qs' /\ sok segs' /\
      (exists out, concat segs ≡ₚ out ++ concat segs') /\
      <[k := x :: segs' !!! k]> segs' = settle ms k (<[k := x :: segs !!! k]> segs).
  Proof using Hm.
    intros HC Hk Hx Hcond. induction j as [|j IH]; intros qs segs fw HV HI HS El Hf Hb;
      assert (Hlen := so_len _ HS); assert (Ec := Hcond qs segs HV Hlen);
      assert (Hlk : segs !! k = Some (segs !!! k)) by (apply list_lookup_lookup_total_lt; lia).
    - assert (E0 : segs !!! k = []) by (by destruct (segs !!! k)).
      exists qs, segs. rewrite bool_decide_eq_false_2 in Ec by (rewrite E0; unfold total_bytes; cbn; lia).
      split; [destruct fw; cbn [while_]; rewrite Ec; done|]. split; [done|]. split; [done|]. split; [done|].
      split; [by exists []|]. symmetry. apply settle_fits; [lia| |].
      + rewrite E0. constructor; [lia|constructor].
      + rewrite E0, ms_at by done. unfold total_bytes. cbn. lia.
    - destruct (decide (total_bytes (segs !!! k) + x.2 > m)) as [Hd|Hd].
      + rewrite bool_decide_eq_true_2 in Ec by done. destruct fw as [|fw]; [lia|].
        cbn [while_]. rewrite Ec. cbn [rbind].
        destruct (exists_last (l := segs !!! k)) as (L & y & ELy); [by intros E; rewrite E in El|].
        rewrite ELy in Hlk. destruct (HC qs segs L y HV HI HS Hlk Hb) as (qs1 & E1 & HV1 & HI1).
        rewrite E1. cbn [rbind]. destruct (below_sub k L y segs Hlk) as [out P].
        assert (Hbl := below_length k L y segs).
        assert (HS1 : sok (below ms k L y segs)) by (apply (sok_sub segs _ out); [done|lia|done]).
        assert (Hat : below ms k L y segs !!! k = L) by (apply below_at; lia).
        destruct (IH qs1 (below ms k L y segs) fw HV1 HI1 HS1) as (qs2 & segs2 & E2 & HV2 & HI2 & HS2 & (out2 & P2) & E3).
        * rewrite Hat. rewrite ELy, app_length in El. cbn in El. lia.
        * lia.
        * rewrite P, app_length in Hb. lia.
        * exists qs2, segs2. split; [done|]. split; [done|]. split; [done|]. split; [done|]. split.
          { exists (out ++ out2). rewrite <- app_assoc, <- P2. done. }
          rewrite E3, Hat, ELy. apply settle_pend; try done; try lia.
          -- apply segs_nonneg, HS.
          -- rewrite <- ELy, ms_at by done. lia.
      + rewrite bool_decide_eq_false_2 in Ec by done. exists qs, segs.
        split; [destruct fw; cbn [while_]; rewrite Ec; done|]. split; [done|]. split; [done|]. split; [done|].
        split; [by exists []|]. symmetry. apply settle_fits; [lia| |].
        * constructor; [lia|]. apply wok_nonneg. eapply seg_wok; [apply HS|done].
        * rewrite ms_at by done. lia.
  Qed.

  Lemma v0_evict_at_ok k qs segs L y r : vrel qs segs -> segs !! k = Some (L ++ [y]) ->
    exists qs', v0_evict_at k qs r = Ok qs' /\ vrel qs' (<[k := L]> segs).
  Proof using Hmd.
    intros H E. destruct (vrel_at qs segs k _ H E) as (q & Eq & Hq). unfold v0_evict_at. rewrite Eq. cbn [rbind].
    destruct (vq_tail m md Hmd q L y r Hq) as (_ & _ & q' & -> & Hq'). cbn [rbind]. eexists. split; [done|].
    by apply Forall2_insert.
  Qed.

  Lemma settle_sok k x segs : sok segs -> (k < n)%nat -> wok x -> x.1 ∉ (concat segs).*1 ->
    sok (settle ms k (<[k := x :: segs !!! k]> segs)).
  Proof.
    intros HS Hk Hx Hn. assert (Hlen := so_len _ HS).
    assert (P : concat (<[k := x :: segs !!! k]> segs) ≡ₚ x :: concat segs).
    { apply (concat_push segs k (segs !!! k) [x]). apply list_lookup_lookup_total_lt. lia. }
    destruct (settle_sub ms k (<[k := x :: segs !!! k]> segs)) as [out Q]; [rewrite insert_length; lia|].
    eapply (sok_sub (<[k := x :: segs !!! k]> segs)); [|by rewrite settle_length, insert_length|exact Q].
    split; [by rewrite insert_length| |].
    - rewrite P. cbn. apply NoDup_cons. split; [done|apply HS].
    - rewrite P. constructor; [done|apply HS].
  Qed.

  (** Making room in segment [k] and inserting there. *)
  Lemma push_ok {T} (pr : T -> list qstate) (I : T -> Prop) cool cond k r :
    forall fw, cool_spec pr I cool k fw -> (k < n)%nat -> wok (r_id r, r_size r + md) -> req_ok md r ->
    (forall qs segs, vrel (pr qs) segs -> length segs = n ->
       cond qs = Ok (bool_decide (total_bytes (segs !!! k) + (r_size r + md) > m))) ->
    forall t segs, vrel (pr t) segs -> I t -> sok segs -> r_id r ∉ (concat segs).*1 ->
    (length (concat segs) <= fw)%nat ->
    exists t' d d', while_ fw cond cool t = Ok t' /\ I t' /\ at_ (pr t') k = Ok d /\ q_insert d r = Ok d' /\
      vrel (<[k := d']> (pr t')) (settle ms k (<[k := (r_id r, r_size r + md) :: segs !!! k]> segs)) /\
      sok (settle ms k (<[k := (r_id r, r_size r + md) :: segs !!! k]> segs)).
  Proof using Hmd Hm.
    intros fw HC Hk Hx Hr Hcond t segs HV HI HS Hn Hf. set (x := (r_id r, r_size r + md)) in *.
    assert (Hlen := so_len _ HS). destruct Hx as (Hx1 & Hx2 & Hx3 & Hx4).
    destruct (pend_loop pr I cool cond k fw x HC Hk ltac:(lia) Hcond (length (segs !!! k)) t segs fw HV HI HS eq_refl)
      as (t' & segs' & E & HV' & HI' & HS' & (out & P) & E3); [|done|].
    { assert (Q := concat_pop segs k [] (segs !!! k) []). rewrite !app_nil_r in Q.
      assert (Hlk : segs !! k = Some (segs !!! k)) by (apply list_lookup_lookup_total_lt; lia).
      apply Q, Permutation_length in Hlk. rewrite app_length in Hlk. lia. }
    assert (Hlk : segs' !! k = Some (segs' !!! k)) by (apply list_lookup_lookup_total_lt; rewrite (so_len _ HS'); lia).
    destruct (vrel_at (pr t') segs' k (segs' !!! k) HV' Hlk) as (d & Ed & Hd).
    destruct (vq_insert m md Hmd d (segs' !!! k) r Hd) as (d' & Ed' & Hd').
    { intros Hin. apply Hn. rewrite P, fmap_app. apply elem_of_app. right.
      apply elem_of_list_fmap in Hin as (z & Ez & Hz). rewrite Ez. apply elem_of_list_fmap_1.
      eapply inseg_concat. by exists (segs' !!! k). }
    { done. }
    exists t', d, d'. split; [done|]. split; [done|]. split; [done|]. split; [done|].
    rewrite <- E3. split; [by apply Forall2_insert|]. rewrite E3. apply settle_sok; try done.
  Qed.

  Lemma pop_facts k L y segs : sok segs -> segs !! k = Some (L ++ [y]) ->
    sok (<[k := L]> segs) /\ wok y /\ y.1 ∉ (concat (<[k := L]> segs)).*1 /\
    length (concat segs) = S (length (concat (<[k := L]> segs))).
  Proof.
    intros HS El. assert (P := concat_pop segs k L [y] [] El). rewrite app_nil_r in P.
    assert (A := so_ok _ HS). rewrite P in A. apply Forall_app in A as [A A'].
    assert (B := so_nd _ HS). rewrite P, fmap_app in B. cbn in B. apply NoDup_cons in B as [B B'].
    split; [|split; [|split]].
    - split; [rewrite insert_length; apply HS|done|done].
    - by apply Forall_cons in A as [? _].
    - done.
    - by rewrite P.
  Qed.

  (** SLRUv0_cool *)
  Lemma slruv0_cool_ok r fuel k : (k < n)%nat -> cool_spec id (fun _ => True) (slruv0_cool fuel md r k) k fuel.
  Proof using Hmd Hm.
    induction k as [|k IH]; intros Hk qs segs L y HV _ HS El Hb; cbn [id] in HV.
    - cbn [slruv0_cool below]. destruct (v0_evict_at_ok O qs segs L y r HV El) as (qs' & E & H'). by exists qs'.
    - cbn [slruv0_cool below]. destruct (vrel_at qs segs _ _ HV El) as (q & -> & Hq). cbn [rbind].
      destruct (vq_tail m md Hmd q L y r Hq) as (-> & (o & Ho & Hw & Hr) & _). cbn [rbind]. rewrite Ho.
      destruct (v0_evict_at_ok (S k) qs segs L y r HV El) as (qs1 & -> & HV1). cbn [rbind].
      destruct (pop_facts (S k) L y segs HS El) as (HS1 & Hy & Hny & Hc).
      set (segs1 := <[S k := L]> segs) in *.
      assert (Ey : (r_id (req_of_obj y.1 o), r_size (req_of_obj y.1 o) + md) = y).
      { destruct y. cbn in *. by f_equal. }
      destruct (push_ok id (fun _ => True) (slruv0_cool fuel md r k)
        (fun qs => let! n := at_ qs k in Ok (bool_decide (q_occ n > q_size n - r_size (req_of_obj y.1 o) - md)))
        k (req_of_obj y.1 o) fuel (IH ltac:(lia)) ltac:(lia)) with (t := qs1) (segs := segs1)
        as (qs2 & d & d' & E2 & _ & E3 & E4 & HV2 & HS2); try done; try lia.
      + by rewrite Ey.
      + intros qs0 segs0 HV0 Hl0.
        destruct (vrel_at qs0 segs0 k (segs0 !!! k) HV0) as (q0 & -> & Hq0);
          [apply list_lookup_lookup_total_lt; lia|]. cbn [rbind].
        rewrite (vq_occ _ _ _ _ Hq0), (vq_size _ _ _ _ Hq0). f_equal. apply bool_decide_ext.
        cbn [r_size req_of_obj]. lia.
      + rewrite E2. cbn [rbind]. cbn [id] in E3. rewrite E3. cbn [rbind]. rewrite E4. cbn [rbind].
        eexists. split; [done|]. split; [|done]. rewrite Ey in HV2. cbn [id] in *.
        unfold segs1 in HV2 at 1. by rewrite (list_lookup_total_insert_ne segs (S k) k) in HV2 by lia.
  Qed.

  (** ** Lookup *)

  Lemma v0_scan_ok find qs segs r :
    (forall q l, vq m md q l -> find q r false = Ok (q, bool_decide (r_id r ∈ l.*1))) ->
    vrel qs segs -> v0_scan find qs r = Ok (fst <$> locate (r_id r) segs).
  Proof.
    intros HF. induction 1 as [|q l qs segs Hq H IH]; [done|]. cbn [v0_scan locate].
    rewrite (HF q l Hq). cbn [rbind].
    destruct (list_find (fun x => x.1 = r_id r) l) as [[j x]|] eqn:E.
    - apply list_find_Some in E as (E & Ex & _). rewrite bool_decide_eq_true_2; [done|].
      rewrite <- Ex. apply elem_of_list_fmap_1. by eapply elem_of_list_lookup_2.
    - apply list_find_None in E. rewrite bool_decide_eq_false_2.
      + rewrite IH. cbn [rbind]. by destruct (locate (r_id r) segs).
      + intros Hin. apply elem_of_list_fmap in Hin as (x & Ex & Hx). rewrite Forall_forall in E. by apply (E x).
  Qed.

  Lemma without_notin id (l : seg) : id ∉ l.*1 -> without id l = l.
  Proof.
    intros H. unfold without. assert (Forall (fun x => x.1 <> id) l) as A.
    { apply Forall_forall. intros x Hx E. apply H. rewrite <- E. by apply elem_of_list_fmap_1. }
    clear H. induction A as [|x l Hx A IH]; [done|]. by rewrite filter_cons_True, IH.
  Qed.

  Lemma hit_facts segs id i sz : sok segs -> locate id segs = Some (i, sz) ->
    let segs1 := <[i := without id (segs !!! i)]> segs in
    (i < n)%nat /\ id ∈ (segs !!! i).*1 /\ sok segs1 /\ id ∉ (concat segs1).*1 /\ wok (id, sz) /\
    S (length (concat segs1)) = length (concat segs).
  Proof.
    intros HS E. apply locate_inseg in E as (l & El & Hl). cbn zeta.
    assert (Hlt := lookup_lt_Some _ _ _ El). rewrite (list_lookup_total_correct _ _ _ El).
    apply elem_of_list_split in Hl as (l1 & l2 & ->).
    assert (Ew := without_mid l1 l2 (id, sz) (nodup_seg _ _ _ (so_nd _ HS) El)). cbn [fst] in Ew. rewrite Ew.
    assert (P := concat_pop segs i l1 [(id, sz)] l2 El).
    assert (A := so_ok _ HS). rewrite P in A. apply Forall_app in A as [A A'].
    assert (B := so_nd _ HS). rewrite P, fmap_app in B. cbn in B. apply NoDup_cons in B as [B B'].
    split_and!.
    - by rewrite <- (so_len _ HS).
    - rewrite fmap_app. apply elem_of_app. right. left.
    - split; [rewrite insert_length; apply HS|done|done].
    - done.
    - by apply Forall_cons in A as [? _].
    - by rewrite P.
  Qed.

  Lemma hit_sok segs r i sz : sok segs -> locate (r_id r) segs = Some (i, sz) ->
    wok (r_id r, r_size r + md) -> sok (v0_hit ms md segs r i).
  Proof.
    intros HS E Hw. unfold v0_hit, queue_hit. rewrite replicate_length.
    destruct (decide (S i = n)) as [Hd|Hd]; [done|].
    destruct (hit_facts segs (r_id r) i sz HS E) as (Hi & Hin & HS1 & Hn1 & _ & _).
    assert (Q := settle_sok (S i) (r_id r, r_size r + md) _ HS1 ltac:(lia) Hw Hn1).
    by rewrite (list_lookup_total_insert_ne segs i (S i)) in Q by lia.
  Qed.

  (** SLRUv0_find *)
  Lemma slruv0_hit s segs r i sz : vrel (v0_q s) segs -> sok segs -> c_md (v0_c s) = md ->
    locate (r_id r) segs = Some (i, sz) -> wok (r_id r, r_size r + md) -> req_ok md r ->
    exists qs', slruv0_find s r true = Ok (v0_set_q s qs', true) /\ vrel qs' (v0_hit ms md segs r i).
  Proof using Hmd Hm.
    intros HV HS Emd EL Hw Hr. unfold slruv0_find.
    rewrite (v0_scan_ok lru_find (v0_q s) segs r) by (try done; intros; by apply (vq_find_lru m md)).
    cbn [rbind]. rewrite EL. cbn [fmap option_fmap option_map fst].
    assert (Hlen : length (v0_q s) = n) by (rewrite (Forall2_length _ _ _ HV); apply HS).
    unfold v0_hit, queue_hit. rewrite replicate_length, Hlen.
    destruct (decide (S i = n)) as [Hd|Hd].
    { exists (v0_q s). split; [by destruct s|done]. }
    destruct (hit_facts segs (r_id r) i sz HS EL) as (Hi & Hin & HS1 & Hn1 & _ & Hc).
    assert (Hls := so_len _ HS).
    destruct (vrel_at (v0_q s) segs i (segs !!! i) HV) as (q & -> & Hq);
      [apply list_lookup_lookup_total_lt; lia|]. cbn [rbind].
    destruct (vq_remove_hit m md Hmd q _ (r_id r) Hq Hin) as (q' & -> & Hq'). cbn [rbind].
    assert (HV1 : vrel (<[i := q']> (v0_q s)) (<[i := without (r_id r) (segs !!! i)]> segs))
      by (by apply Forall2_insert).
    set (segs1 := <[i := without (r_id r) (segs !!! i)]> segs) in *.
    assert (Hlk : segs1 !! S i = Some (segs1 !!! S i))
      by (apply list_lookup_lookup_total_lt; rewrite (so_len _ HS1); lia).
    destruct (vrel_at _ _ (S i) _ HV1 Hlk) as (d & -> & Hd1). cbn [rbind].
    rewrite (vq_find_lru m md d _ r Hd1). cbn [rbind].
    rewrite bool_decide_eq_false_2.
    2:{ intros Hx. apply Hn1. apply elem_of_list_fmap in Hx as (z & -> & Hz). apply elem_of_list_fmap_1.
        eapply inseg_concat. by exists (segs1 !!! S i). }
    rewrite Emd, (vrel_fuel _ _ HV1).
    destruct (push_ok id (fun _ => True) (slruv0_cool (S (length (concat segs1))) md r (S i))
      (fun qs => let! d := at_ qs (S i) in Ok (bool_decide (q_occ d + r_size r + md > q_size d)))
      (S i) r (S (length (concat segs1)))) with (t := <[i := q']> (v0_q s)) (segs := segs1)
      as (qs2 & d2 & d2' & E2 & _ & E3 & E4 & HV2 & HS2); try done; try lia.
    - apply slruv0_cool_ok. lia.
    - intros qs0 segs0 HV0 Hl0.
      destruct (vrel_at qs0 segs0 (S i) (segs0 !!! S i) HV0) as (q0 & -> & Hq0);
        [apply list_lookup_lookup_total_lt; lia|]. cbn [rbind].
      rewrite (vq_occ _ _ _ _ Hq0), (vq_size _ _ _ _ Hq0). f_equal. apply bool_decide_ext. lia.
    - rewrite E2. cbn [rbind]. cbn [id] in E3. rewrite E3. cbn [rbind]. rewrite E4. cbn [rbind].
      eexists. split; [done|]. cbn [id] in HV2. unfold segs1 in HV2 at 1.
      by rewrite (list_lookup_total_insert_ne segs i (S i)) in HV2 by lia.
  Qed.

  (** ** Eviction *)

  Lemma v0_nonempty_ok qs segs : vrel qs segs -> Forall wok (concat segs) ->
    v0_nonempty qs = fst <$> list_find (fun l : seg => l <> []) segs.
  Proof.
    induction 1 as [|q l qs segs Hq H IH]; [done|]. cbn [v0_nonempty list_find concat].
    intros [A B]%Forall_app. rewrite (vq_occ _ _ _ _ Hq). destruct l as [|x l].
    - rewrite decide_False by (unfold total_bytes; cbn; lia).
      rewrite decide_False by (intros E; by apply E). rewrite (IH B).
      by destruct (list_find _ segs) as [[j y]|].
    - rewrite decide_True.
      + by rewrite decide_True.
      + rewrite total_cons. apply Forall_cons in A as [A1 A]. assert (C := total_nonneg l (wok_nonneg l A)).
        unfold wok in A1. lia.
  Qed.

  Lemma low_find segs i l x : segs !! i = Some (l ++ [x]) -> (forall j, (j < i)%nat -> segs !! j = Some []) ->
    list_find (fun l : seg => l <> []) segs = Some (i, l ++ [x]).
  Proof.
    intros A D. apply list_find_Some. split; [exact A|]. split; [by destruct l|].
    intros j y Hy Hj. rewrite (D j Hj) in Hy. injection Hy as <-. intros E. by apply E.
  Qed.

  Lemma evict_sok segs : sok segs -> sok (evict_low segs).
  Proof.
    intros HS. destruct (evict_low_spec segs) as [(_ & _ & ->)|(i & l & x & A & _ & -> & _)]; [done|].
    by apply (pop_facts i l x segs HS).
  Qed.

  Lemma v0_to_evict_ok s segs r : vrel (v0_q s) segs -> sok segs ->
    v0_to_evict s r = Ok (s, victim segs).
  Proof using Hmd.
    intros HV HS. unfold v0_to_evict. rewrite (v0_nonempty_ok _ _ HV (so_ok _ HS)).
    destruct (evict_low_spec segs) as [(A & B & _)|(i & l & x & A & B & _ & D)].
    - rewrite B. assert (list_find (fun l : seg => l <> []) segs = None) as ->; [|done].
      apply list_find_None. apply (Forall_impl _ _ _ A). intros y -> E. by apply E.
    - rewrite (low_find segs i l x A D), B. cbn [fmap option_fmap option_map fst].
      destruct (vrel_at _ _ _ _ HV A) as (q & -> & Hq). cbn [rbind].
      destruct (vq_tail m md Hmd q l x r Hq) as (-> & _). done.
  Qed.

  Lemma v0_evict_low qs segs r : vrel qs segs -> sok segs -> concat segs <> [] ->
    exists i qs', v0_nonempty qs = Some i /\ v0_evict_at i qs r = Ok qs' /\ vrel qs' (evict_low segs).
  Proof using Hmd.
    intros HV HS Hne.
    destruct (evict_low_spec segs) as [(A & _)|(i & l & x & A & _ & -> & D)].
    { exfalso. apply Hne. clear -A. induction A as [|l segs -> A IH]; done. }
    destruct (v0_evict_at_ok i qs segs l x r HV A) as (qs' & E & H').
    exists i, qs'. split; [|done]. rewrite (v0_nonempty_ok _ _ HV (so_ok _ HS)).
    by rewrite (low_find segs i l x A D).
  Qed.

  Lemma slruv0_evict_ok s segs r : vrel (v0_q s) segs -> sok segs -> concat segs <> [] ->
    exists qs', slruv0_evict s r = Ok (v0_set_q s qs') /\ vrel qs' (evict_low segs).
  Proof using Hmd.
    intros HV HS Hne. destruct (v0_evict_low (v0_q s) segs r HV HS Hne) as (i & qs' & E1 & E2 & H').
    exists qs'. unfold slruv0_evict. rewrite E1. change (default O (Some i)) with i. by rewrite E2.
  Qed.

  (** ** Insertion *)

  Lemma v0_room_ok qs segs w : vrel qs segs -> length segs = n -> v0_room qs w = with_room ms segs w.
  Proof.
    intros H Hl. rewrite <- Hl. clear Hl. induction H as [|q l qs segs Hq H IH]; [done|].
    cbn [length v0_room replicate with_room]. by rewrite (vq_occ _ _ _ _ Hq), (vq_size _ _ _ _ Hq), IH.
  Qed.

  Lemma insert_at i qs segs r : vrel qs segs -> sok segs -> (i < n)%nat -> r_id r ∉ (concat segs).*1 ->
    req_ok md r -> wok (r_id r, r_size r + md) ->
    exists q q', at_ qs i = Ok q /\ q_insert q r = Ok q' /\
      vrel (<[i := q']> qs) (<[i := (r_id r, r_size r + md) :: segs !!! i]> segs) /\
      sok (<[i := (r_id r, r_size r + md) :: segs !!! i]> segs).
  Proof using Hmd.
    intros HV HS Hi Hn Hr Hw.
    assert (Hlk : segs !! i = Some (segs !!! i)) by (apply list_lookup_lookup_total_lt; rewrite (so_len _ HS); lia).
    destruct (vrel_at qs segs i _ HV Hlk) as (q & Eq & Hq).
    destruct (vq_insert m md Hmd q _ r Hq) as (q' & Eq' & Hq').
    { intros Hx. apply Hn. apply elem_of_list_fmap in Hx as (z & -> & Hz). apply elem_of_list_fmap_1.
      eapply inseg_concat. by exists (segs !!! i). }
    { done. }
    exists q, q'. split; [done|]. split; [done|]. split; [by apply Forall2_insert|].
    assert (P : concat (<[i := (r_id r, r_size r + md) :: segs !!! i]> segs) ≡ₚ (r_id r, r_size r + md) :: concat segs)
      by (exact (concat_push segs i (segs !!! i) [(r_id r, r_size r + md)] Hlk)).
    split; [rewrite insert_length; apply HS| |].
    - rewrite P. cbn. apply NoDup_cons. split; [done|apply HS].
    - rewrite P. constructor; [done|apply HS].
  Qed.

  Lemma slruv0_insert_ok s segs r : vrel (v0_q s) segs -> sok segs -> (0 < n)%nat -> c_md (v0_c s) = md ->
    r_id r ∉ (concat segs).*1 -> req_ok md r -> wok (r_id r, r_size r + md) ->
    exists qs', slruv0_insert s r = Ok (v0_set_q s qs') /\
      vrel qs' (place0 ms segs (r_id r) (r_size r + md)) /\
      sok (place0 ms segs (r_id r) (r_size r + md)).
  Proof using Hmd Hm.
    intros HV HS Hn0 Emd Hn Hr Hw. unfold slruv0_insert, place0.
    rewrite Emd, (v0_room_ok _ _ _ HV (so_len _ HS)).
    destruct (with_room ms segs (r_size r + md)) as [i|] eqn:E.
    - apply with_room_lt in E as [Hi _]. rewrite (so_len _ HS) in Hi.
      destruct (insert_at i (v0_q s) segs r HV HS Hi Hn Hr Hw) as (q & q' & -> & E2 & H2 & H3).
      cbn [rbind]. rewrite E2. cbn [rbind]. eexists. done.
    - rewrite (vrel_fuel _ _ HV).
      destruct (push_ok v0_q (fun s' => v0_c s' = v0_c s) (fun s => slruv0_evict s r)
        (fun s => let! q := at_ (v0_q s) 0 in Ok (bool_decide (q_occ q + (r_size r + md) > q_size q)))
        O r (S (length (concat segs)))) with (t := s) (segs := segs)
        as (s2 & d2 & d2' & E2 & E2c & E3 & E4 & HV2 & HS2); try done; try lia.
      + intros s0 segs0 L y HV0 HI0 HS0 El0 _.
        destruct (slruv0_evict_ok s0 segs0 r HV0 HS0) as (qs' & -> & H').
        { intros Hc. assert (P := concat_pop segs0 O L [y] [] El0). rewrite Hc in P. by apply Permutation_nil in P. }
        eexists. split; [done|]. split; [|done]. cbn [v0_set_q v0_q below].
        destruct segs0 as [|l0 segs0]; [done|]. cbn in El0. injection El0 as ->. cbn in H'.
        destruct (L ++ [y]) as [|z l'] eqn:Ez; [by destruct L|]. rewrite <- Ez in H'.
        by rewrite removelast_last in H'.
      + intros s0 segs0 HV0 Hl0.
        destruct (vrel_at (v0_q s0) segs0 O (segs0 !!! O) HV0) as (q0 & -> & Hq0);
          [apply list_lookup_lookup_total_lt; lia|]. cbn [rbind].
        by rewrite (vq_occ _ _ _ _ Hq0), (vq_size _ _ _ _ Hq0).
      + rewrite E2. cbn [rbind]. rewrite E3. cbn [rbind]. rewrite E4. cbn [rbind].
        eexists. unfold v0_set_q at 1. rewrite E2c. done.
  Qed.

  (** ** Removal *)

  Lemma v0_remove_ok qs segs id : vrel qs segs -> NoDup (concat segs).*1 ->
    exists qs', v0_remove_from qs id = Ok (qs', bool_decide (is_Some (locate id segs))) /\
      vrel qs' (map (without id) segs).
  Proof using Hmd.
    induction 1 as [|q l qs segs Hq H IH]; cbn [concat v0_remove_from map locate].
    - intros _. exists []. split; [|constructor]. by rewrite bool_decide_eq_false_2 by (by intros [? ?]).
    - intros Hnd. rewrite fmap_app in Hnd. apply NoDup_app in Hnd as (N1 & N2 & N3).
      destruct (decide (id ∈ l.*1)) as [Hin|Hin].
      + destruct (vq_remove_hit m md Hmd q l id Hq Hin) as (q' & -> & Hq'). cbn [rbind].
        exists (q' :: qs). destruct (list_find (fun x => x.1 = id) l) as [[j x]|] eqn:E.
        * rewrite bool_decide_eq_true_2 by done. split; [done|]. constructor; [done|].
          assert (map (without id) segs = segs) as ->; [|done].
          assert (Hn : id ∉ (concat segs).*1) by (by apply N2). clear -Hn.
          induction segs as [|l segs IH]; [done|]. cbn in *. rewrite fmap_app, not_elem_of_app in Hn.
          destruct Hn as [A B]. by rewrite (without_notin _ _ A), (IH B).
        * exfalso. apply list_find_None in E. rewrite Forall_forall in E.
          apply elem_of_list_fmap in Hin as (x & Ex & Hx). by apply (E x).
      + rewrite (vq_remove_miss m md q l id Hq Hin). cbn [rbind].
        destruct (IH N3) as (qs' & -> & H'). cbn [rbind]. exists (q :: qs').
        destruct (list_find (fun x => x.1 = id) l) as [[j x]|] eqn:E.
        { exfalso. apply list_find_Some in E as (E & Ex & _). apply Hin. rewrite <- Ex.
          apply elem_of_list_fmap_1. by eapply elem_of_list_lookup_2. }
        split.
        * f_equal. f_equal. apply bool_decide_ext. destruct (locate id segs); cbn; split; intros [? ?]; try done.
        * constructor; [|done]. by rewrite (without_notin _ _ Hin).
  Qed.

  Lemma remove_sok segs id : sok segs -> sok (map (without id) segs).
  Proof.
    intros HS. assert (E : concat (map (without id) segs) = without id (concat segs)).
    { clear HS. induction segs as [|l segs IH]; [done|]. cbn. rewrite IH. unfold without. by rewrite filter_app. }
    split.
    - rewrite map_length. apply HS.
    - rewrite E. assert (A := so_nd _ HS). revert A. generalize (concat segs). clear. intros l.
      induction l as [|x l IH]; [done|]. intros [A B]%NoDup_cons. unfold without in *. rewrite filter_cons.
      case_decide; [|auto]. rewrite fmap_cons. apply NoDup_cons. split; [|auto]. intros Hin. apply A.
      apply elem_of_list_fmap in Hin as (y & -> & Hy). apply elem_of_list_filter in Hy as [_ Hy].
      by apply elem_of_list_fmap_1.
    - rewrite E. apply Forall_forall. intros x Hx. apply elem_of_list_filter in Hx as [_ Hx].
      assert (A := so_ok _ HS). rewrite Forall_forall in A. by apply A.
  Qed.

  (** ** The machine *)

  Section Machine.
    Context {T : Type} (O : ops T) (qs : T -> list qstate) (cm : T -> cache).
    Context (new : list Z -> list seg -> Z -> Z -> list seg) (always : bool) (cap : Z).

    Record arel (s : T) (a : sspec) : Prop := {
      ar_v : vrel (qs s) (ss_segs a);
      ar_s : sok (ss_segs a);
      ar_md : c_md (cm s) = md;
      ar_cap : c_size (cm s) = cap;
      ar_adm : c_adm (cm s) = ss_adm a
    }.

    Record arr_ok : Prop := {
      ao_tick : forall s a, arel s a -> arel (op_tick O s) a;
      ao_occ : forall s a, arel s a -> op_occupied O s = held (ss_segs a);
      ao_nobj : forall s a, arel s a -> op_nobj O s = Z.of_nat (length (concat (ss_segs a)));
      ao_size : forall s a, arel s a -> op_size O s = cap;
      ao_md : forall s a, arel s a -> op_md O s = md;
      ao_miss : forall s a r u, arel s a -> locate (r_id r) (ss_segs a) = None ->
        op_find O s r u = Ok (s, false);
      ao_hit : forall s a r u i sz, arel s a -> locate (r_id r) (ss_segs a) = Some (i, sz) ->
        u || always = true -> wok (r_id r, r_size r + md) -> req_ok md r ->
        exists s', op_find O s r u = Ok (s', true) /\ arel s' (mkSS (v0_hit ms md (ss_segs a) r i) (ss_adm a));
      ao_pure : forall s a r i sz, arel s a -> locate (r_id r) (ss_segs a) = Some (i, sz) ->
        always = false -> op_find O s r false = Ok (s, true);
      ao_can : forall s a r, arel s a ->
        let '(adm, ok) := admit (ss_adm a) r in
        exists s', op_can_insert O s r = Ok (s', ok && bool_decide (r_size r + md <= cap)
                                                 && bool_decide (r_size r + md <= m))%bool /\
          arel s' (mkSS (ss_segs a) adm);
      ao_evict : forall s a r, arel s a -> concat (ss_segs a) <> [] ->
        exists s', op_evict O s r = Ok s' /\ arel s' (mkSS (evict_low (ss_segs a)) (ss_adm a));
      ao_insert : forall s a r, arel s a -> r_id r ∉ (concat (ss_segs a)).*1 ->
        req_ok md r -> wok (r_id r, r_size r + md) ->
        exists s', op_insert O s r = Ok s' /\
          arel s' (mkSS (new ms (ss_segs a) (r_id r) (r_size r + md)) (ss_adm a));
      ao_victim : forall s a r, arel s a -> op_to_evict O s r = Ok (s, victim (ss_segs a));
      ao_remove : forall s a id, arel s a -> exists s',
        op_remove O s id = Ok (s', bool_decide (is_Some (locate id (ss_segs a)))) /\
        arel s' (mkSS (map (without id) (ss_segs a)) (ss_adm a));
      ao_new : forall segs id w, length segs = n ->
        (length (concat (new ms segs id w)) <= S (length (concat segs)))%nat
    }.

    Context (HO : arr_ok) (Hn0 : (0 < n)%nat).

    Lemma arel_eta s a : arel s a -> arel s (mkSS (ss_segs a) (ss_adm a)).
    Proof. by destruct a. Qed.

    Lemma hit_wok segs r i sz : sok segs -> locate (r_id r) segs = Some (i, sz) ->
      size_ok m md small r -> wok (r_id r, r_size r + md) /\ req_ok md r.
    Proof.
      intros HS E (H1 & H2 & H3). destruct (hit_facts segs _ _ _ HS E) as (_ & _ & _ & _ & Hw & _).
      destruct Hw as (_ & _ & _ & Hw). cbn in Hw. split; [|done]. split; cbn; [done|]. destruct H1.
      split; [by apply H3|]. split; [lia|done].
    Qed.

    Lemma hit_count segs r i sz : sok segs -> locate (r_id r) segs = Some (i, sz) ->
      (length (concat (v0_hit ms md segs r i)) <= length (concat segs))%nat.
    Proof.
      intros HS E. unfold v0_hit, queue_hit. case_decide as Hd; [done|]. rewrite replicate_length in Hd.
      destruct (hit_facts segs _ _ _ HS E) as (Hi & _ & HS1 & _ & _ & Hc).
      set (segs1 := <[i := without (r_id r) (segs !!! i)]> segs) in *.
      assert (Hlen := so_len _ HS1).
      destruct (settle_sub ms (S i) (<[S i := (r_id r, r_size r + md) :: segs !!! S i]> segs1)) as [out Q];
        [rewrite insert_length; lia|].
      assert (P : concat (<[S i := (r_id r, r_size r + md) :: segs !!! S i]> segs1)
                  ≡ₚ (r_id r, r_size r + md) :: concat segs1).
      { apply (concat_push segs1 (S i) (segs !!! S i) [(r_id r, r_size r + md)]).
        unfold segs1. rewrite list_lookup_insert_ne by lia. apply list_lookup_lookup_total_lt.
        rewrite (so_len _ HS). lia. }
      apply Permutation_length in P, Q. rewrite app_length in Q. cbn [length] in P. lia.
    Qed.

    Lemma locate_notin segs id : locate id segs = None -> id ∉ (concat segs).*1.
    Proof.
      induction segs as [|l segs IH]; cbn; [intros _; apply not_elem_of_nil|].
      destruct (list_find _ l) as [[j x]|] eqn:E; [done|]. intros H.
      destruct (locate id segs); [done|]. rewrite fmap_app. apply not_elem_of_app. split; [|auto].
      apply list_find_None in E. intros Hin. apply elem_of_list_fmap in Hin as (x & Ex & Hx).
      rewrite Forall_forall in E. by apply (E x).
    Qed.

    Lemma arr_evict_loop k : forall s a r fuel, arel s a -> r_size r + md <= cap ->
      length (concat (ss_segs a)) = k -> (k <= fuel)%nat ->
      exists s', evict_loop O fuel s r = Ok s' /\
        arel s' (mkSS (make_room k cap (r_size r + md) (ss_segs a)) (ss_adm a)).
    Proof using HO Hn0.
      induction k as [|k IH]; intros s a r fuel H Hr En Hf.
      - cbn [make_room]. assert (held (ss_segs a) = 0) as E0.
        { unfold held. destruct (concat (ss_segs a)); [done|cbn in En; lia]. }
        exists s. split; [|by apply arel_eta].
        destruct fuel; cbn [evict_loop];
          rewrite (ao_occ HO s a H), (ao_md HO s a H), (ao_size HO s a H), decide_False; try done; lia.
      - cbn [make_room]. destruct fuel as [|fuel]; [lia|]. cbn [evict_loop].
        rewrite (ao_occ HO s a H), (ao_md HO s a H), (ao_size HO s a H).
        destruct (decide (held (ss_segs a) + (r_size r + md) > cap)) as [Hd|Hd].
        + rewrite decide_True by lia.
          assert (Hne : concat (ss_segs a) <> []) by (intros E; by rewrite E in En).
          destruct (ao_evict HO s a r H Hne) as (s1 & -> & H1). cbn [rbind].
          assert (C := evict_low_count _ Hne).
          destruct (IH s1 _ r fuel H1 Hr) as (s2 & E2 & H2); [cbn; lia|lia|]. by exists s2.
        + rewrite decide_False by lia. exists s. split; [done|by apply arel_eta].
    Qed.

    Lemma room_sub k sz : forall segs, exists out, concat segs ≡ₚ out ++ concat (make_room k cap sz segs).
    Proof.
      induction k as [|k IH]; intros segs; cbn; [by exists []|]. case_decide; [|by exists []].
      destruct (IH (evict_low segs)) as [out P].
      destruct (evict_low_spec segs) as [(_ & _ & E)|(i & l & x & A & _ & E & _)].
      - rewrite E in *. by exists out.
      - assert (Q := concat_pop segs i l [x] [] A). rewrite app_nil_r in Q. rewrite E in *.
        exists (x :: out). by rewrite Q, P.
    Qed.

    Lemma arr_get_ok s a r fuel : arel s a -> size_ok m md small r ->
      (length (concat (ss_segs a)) <= fuel)%nat ->
      exists s' a' b, cache_get_base O fuel s r = Ok (s', b) /\
        arr_get new ms md cap a r = (a', b) /\ arel s' a' /\
        (length (concat (ss_segs a')) <= S (length (concat (ss_segs a))))%nat.
    Proof using HO Hn0.
      intros H Hr Hf. unfold cache_get_base, arr_get. apply (ao_tick HO) in H.
      set (s1 := op_tick O s) in *. destruct (locate (r_id r) (ss_segs a)) as [[i sz]|] eqn:EL.
      - destruct (hit_wok _ r i sz (ar_s _ _ H) EL Hr) as [Hw Hq].
        destruct (ao_hit HO s1 a r true i sz H EL eq_refl Hw Hq) as (s2 & -> & H2). cbn [rbind].
        eexists s2, _, true. split; [done|]. split; [done|]. split; [done|]. cbn [ss_segs].
        assert (C := hit_count _ r i sz (ar_s _ _ H) EL). lia.
      - rewrite (ao_miss HO s1 a r true H EL). cbn [rbind].
        assert (A := ao_can HO s1 a r H). destruct (admit (ss_adm a) r) as [adm ok].
        destruct A as (s2 & -> & H2). cbn [rbind]. rewrite ms_at by done.
        destruct (ok && bool_decide (r_size r + md <= cap) && bool_decide (r_size r + md <= m))%bool eqn:Eb.
        + apply andb_prop in Eb as [Eb Hb]. apply andb_prop in Eb as [_ Hb2].
          apply bool_decide_eq_true in Hb, Hb2.
          destruct (arr_evict_loop _ s2 _ r fuel H2 Hb2 eq_refl Hf) as (s3 & -> & H3). cbn [rbind ss_segs ss_adm] in *.
          set (segs3 := make_room _ _ _ _) in *.
          destruct (room_sub (length (concat (ss_segs a))) (r_size r + md) (ss_segs a)) as [out P]. fold segs3 in P.
          destruct Hr as (Hr1 & Hr2 & Hr3).
          destruct (ao_insert HO s3 _ r H3) as (s4 & -> & H4).
          { cbn [ss_segs]. intros Hin. apply (locate_notin _ _ EL). rewrite P, fmap_app.
            apply elem_of_app. by right. }
          { done. }
          { destruct Hr1. split; cbn; [done|]. split; [done|]. split; [lia|]. by apply Hr3. }
          cbn [rbind]. eexists s4, _, false. split; [done|]. split; [done|]. split; [exact H4|].
          cbn [ss_segs]. assert (C := ao_new HO segs3 (r_id r) (r_size r + md) (so_len _ (ar_s _ _ H3))).
          rewrite P, app_length. lia.
        + eexists s2, _, false. split; [done|]. split; [done|]. split; [exact H2|]. cbn. lia.
    Qed.

    Lemma arr_step_ok s a c fuel : arel s a -> v0_ok always m md small c ->
      (length (concat (ss_segs a)) <= fuel)%nat ->
      exists s' a' o, step O fuel s c = Ok (s', o) /\ arr_call new always ms md cap a c = (a', o) /\
        arel s' a' /\ (length (concat (ss_segs a')) <= S (length (concat (ss_segs a))))%nat.
    Proof using HO Hn0.
      intros H Hc Hf. destruct c as [r|r u|r|id|r|r]; cbn [v0_ok] in Hc; cbn [step arr_call].
      - destruct (arr_get_ok s a r fuel H Hc Hf) as (s' & a' & b & -> & -> & H' & C). cbn [rbind].
        by eexists s', a', _.
      - destruct (locate (r_id r) (ss_segs a)) as [[i sz]|] eqn:EL.
        + destruct (u || always) eqn:Eu.
          * destruct (hit_wok _ r i sz (ar_s _ _ H) EL Hc) as [Hw Hq].
            destruct (ao_hit HO s a r u i sz H EL Eu Hw Hq) as (s2 & -> & H2). cbn [rbind].
            eexists s2, _, _. split; [done|]. split; [done|]. split; [done|]. cbn [ss_segs].
            assert (C := hit_count _ r i sz (ar_s _ _ H) EL). lia.
          * apply orb_false_elim in Eu as [-> Ea]. rewrite (ao_pure HO s a r i sz H EL Ea). cbn [rbind].
            eexists s, a, _. split; [done|]. split; [done|]. split; [done|]. lia.
        + rewrite (ao_miss HO s a r u H EL). cbn [rbind]. eexists s, a, _. split; [done|]. split; [done|].
          split; [done|]. lia.
      - destruct Hc as [Hr Hle]. destruct (locate (r_id r) (ss_segs a)) as [[i sz]|] eqn:EL.
        + assert (exists s', op_find O s r false = Ok (s', true)) as (s' & ->).
          { destruct (hit_wok _ r i sz (ar_s _ _ H) EL Hr) as [Hw Hq]. destruct always eqn:Ea.
            - destruct (ao_hit HO s a r false i sz H EL) as (s2 & E2 & _); try done. by exists s2.
            - rewrite (ao_pure HO s a r i sz H EL Ea). by eexists. }
          cbn [rbind]. eexists s, a, _. split; [done|]. split; [done|]. split; [done|]. lia.
        + rewrite (ao_miss HO s a r false H EL). cbn [rbind].
          rewrite (ao_occ HO s a H), (ao_md HO s a H), (ao_size HO s a H).
          destruct (decide (held (ss_segs a) + (r_size r + md) > cap)) as [Hd|Hd].
          * rewrite decide_True by lia. eexists s, a, _. split; [done|]. split; [done|]. split; [done|]. lia.
          * rewrite decide_False by lia. destruct Hr as (Hr1 & Hr2 & Hr3).
            destruct (ao_insert HO s a r H (locate_notin _ _ EL) Hr1) as (s4 & -> & H4).
            { destruct Hr1. split; cbn; [done|]. split; [done|]. split; [lia|]. by apply Hr3. }
            cbn [rbind]. eexists s4, _, _. split; [done|]. split; [done|]. split; [exact H4|].
            cbn [ss_segs]. apply (ao_new HO). apply (ar_s _ _ H).
      - destruct (ao_remove HO s a id H) as (s' & -> & H'). cbn [rbind]. eexists s', _, _.
        split; [done|]. split; [done|]. split; [done|]. cbn [ss_segs].
        assert (E : concat (map (without id) (ss_segs a)) = without id (concat (ss_segs a))).
        { generalize (ss_segs a). clear. intros segs. induction segs as [|l segs IH]; [done|]. cbn. rewrite IH.
          unfold without. by rewrite filter_app. }
        rewrite E. unfold without. assert (C := filter_length (fun x : Z * Z => x.1 <> id) (concat (ss_segs a))). lia.
      - rewrite (ao_nobj HO s a H). case_decide as Hz.
        + assert (E0 : concat (ss_segs a) = []) by (destruct (concat (ss_segs a)); [done|cbn in Hz; lia]).
          destruct (evict_low_spec (ss_segs a)) as [(_ & _ & ->)|(i & l & x & A & _)].
          * eexists s, _, _. split; [done|]. split; [done|]. split; [by apply arel_eta|]. cbn. lia.
          * exfalso. assert (P := concat_pop _ i l [x] [] A). rewrite E0 in P. by apply Permutation_nil in P.
        + assert (Hne : concat (ss_segs a) <> []) by (intros E; rewrite E in Hz; cbn in Hz; lia).
          destruct (ao_evict HO s a r H Hne) as (s1 & -> & H1). cbn [rbind].
          eexists s1, _, _. split; [done|]. split; [done|]. split; [exact H1|]. cbn.
          assert (C := evict_low_count _ Hne). lia.
      - rewrite (ao_nobj HO s a H). case_decide as Hz.
        + assert (E0 : concat (ss_segs a) = []) by (destruct (concat (ss_segs a)); [done|cbn in Hz; lia]).
          destruct (evict_low_spec (ss_segs a)) as [(_ & -> & _)|(i & l & x & A & _)].
          * eexists s, a, _. split; [done|]. split; [done|]. split; [done|]. lia.
          * exfalso. assert (P := concat_pop _ i l [x] [] A). rewrite E0 in P. by apply Permutation_nil in P.
        + rewrite (ao_victim HO s a r H). cbn [rbind]. eexists s, a, _. split; [done|]. split; [done|]. split; [done|]. lia.
    Qed.

    Lemma arr_run_ok cs : forall s a fuel, arel s a -> Forall (v0_ok always m md small) cs ->
      (length (concat (ss_segs a)) + length cs <= fuel)%nat ->
      exists s' os a', run O fuel s cs = Ok (s', os) /\ arr_run new always ms md cap a cs = (a', os) /\ arel s' a'.
    Proof using HO Hn0.
      induction cs as [|c cs IH]; intros s a fuel H Hc Hf; cbn [run arr_run].
      - by eexists s, [], a.
      - apply Forall_cons in Hc as [Hc Hcs]. cbn [length] in Hf.
        destruct (arr_step_ok s a c fuel H Hc ltac:(lia)) as (s1 & a1 & o & -> & -> & H1 & C).
        cbn [rbind]. destruct (IH s1 a1 fuel H1 Hcs ltac:(lia)) as (s2 & os & a2 & -> & -> & H2).
        cbn [rbind]. by eexists s2, _, a2.
    Qed.
  End Machine.

  (** ** SLRUv0 *)

  Lemma vrel_occ qs segs : vrel qs segs -> foldr (fun q acc => q_occ q + acc) 0 qs = held segs.
  Proof.
    unfold held. induction 1 as [|q l qs segs Hq H IH]; [done|]. cbn [foldr concat].
    by rewrite IH, (vq_occ _ _ _ _ Hq), total_app.
  Qed.
  Lemma vrel_nobj qs segs : vrel qs segs ->
    foldr (fun q acc => q_nobj q + acc) 0 qs = Z.of_nat (length (concat segs)).
  Proof.
    induction 1 as [|q l qs segs Hq H IH]; [done|]. cbn [foldr concat].
    rewrite IH, (vq_nobj _ _ _ _ Hq), app_length. lia.
  Qed.

  Lemma settle_len k x (segs : list seg) : (k < length segs)%nat ->
    (length (concat (settle ms k (<[k := x :: segs !!! k]> segs))) <= S (length (concat segs)))%nat.
  Proof.
    intros Hk. destruct (settle_sub ms k (<[k := x :: segs !!! k]> segs)) as [out Q]; [rewrite insert_length; lia|].
    assert (P : concat (<[k := x :: segs !!! k]> segs) ≡ₚ x :: concat segs).
    { apply (concat_push segs k (segs !!! k) [x]). apply list_lookup_lookup_total_lt. lia. }
    apply Permutation_length in P, Q. rewrite app_length in Q. cbn [length] in P. lia.
  Qed.
  Lemma push_len k x (segs : list seg) : (k < length segs)%nat ->
    length (concat (<[k := x :: segs !!! k]> segs)) = S (length (concat segs)).
  Proof.
    intros Hk.
    assert (P : concat (<[k := x :: segs !!! k]> segs) ≡ₚ x :: concat segs).
    { apply (concat_push segs k (segs !!! k) [x]). apply list_lookup_lookup_total_lt. lia. }
    by apply Permutation_length in P.
  Qed.

  Lemma can_ok s segs adm cap r : vrel (v0_q s) segs -> length segs = n -> (0 < n)%nat -> c_md (v0_c s) = md ->
    c_size (v0_c s) = cap -> c_adm (v0_c s) = adm ->
    let '(adm, ok) := admit adm r in
    exists s', v0_can_insert s r = Ok (s', ok && bool_decide (r_size r + md <= cap)
                                             && bool_decide (r_size r + md <= m))%bool /\
      v0_q s' = v0_q s /\ c_md (v0_c s') = md /\ c_size (v0_c s') = cap /\ c_adm (v0_c s') = adm.
  Proof.
    intros HV Hl H0 Hd Hs Ha. unfold v0_can_insert, cache_can_insert_default. rewrite Ha, Hs, Hd.
    destruct (admit adm r) as [adm' ok]. destruct ok; cbn [andb].
    - destruct (decide (r_size r + md > cap)).
      + rewrite (bool_decide_eq_false_2 (r_size r + md <= cap)) by lia. cbn [andb].
        eexists. split; [done|]. by cbn.
      + rewrite (bool_decide_eq_true_2 (r_size r + md <= cap)) by lia. cbn [andb v0_set_c v0_q].
        destruct (vrel_at (v0_q s) segs O (segs !!! O) HV) as (q & -> & Hq);
          [apply list_lookup_lookup_total_lt; lia|]. cbn [rbind].
        rewrite (vq_size _ _ _ _ Hq). cbn [c_md c_set_adm]. rewrite Hd. eexists. split; [done|]. by cbn.
    - eexists. split; [done|]. by cbn.
  Qed.

  Lemma slruv0_arr cap : (0 < n)%nat -> arr_ok slruv0_ops v0_q v0_c place0 false cap.
  Proof using Hmd Hm.
    intros H0. split.
    - intros s a [H1 H2 H3 H4 H5]. split; try done.
    - intros s a H. apply (vrel_occ _ _ (ar_v _ _ _ _ _ H)).
    - intros s a H. apply (vrel_nobj _ _ (ar_v _ _ _ _ _ H)).
    - intros s a H. apply H.
    - intros s a H. apply H.
    - intros s a r u H EL. cbn [op_find slruv0_ops]. unfold slruv0_find.
      rewrite (v0_scan_ok lru_find (v0_q s) (ss_segs a) r); [|intros; by apply (vq_find_lru m md)|apply H].
      rewrite EL. done.
    - intros s a r u i sz H EL Eu Hw Hq. rewrite orb_false_r in Eu. subst u.
      destruct (slruv0_hit s (ss_segs a) r i sz (ar_v _ _ _ _ _ H) (ar_s _ _ _ _ _ H) (ar_md _ _ _ _ _ H) EL Hw Hq)
        as (qs' & E & H'). eexists. split; [exact E|]. destruct H as [H1 H2 H3 H4 H5]. split; try done.
      by apply (hit_sok _ r i sz).
    - intros s a r i sz H EL _. cbn [op_find slruv0_ops]. unfold slruv0_find.
      rewrite (v0_scan_ok lru_find (v0_q s) (ss_segs a) r); [|intros; by apply (vq_find_lru m md)|apply H].
      rewrite EL. done.
    - intros s a r H. assert (A := can_ok s (ss_segs a) (ss_adm a) cap r (ar_v _ _ _ _ _ H) (so_len _ (ar_s _ _ _ _ _ H))
        H0 (ar_md _ _ _ _ _ H) (ar_cap _ _ _ _ _ H) (ar_adm _ _ _ _ _ H)).
      destruct (admit (ss_adm a) r) as [adm ok]. destruct A as (s' & E & A1 & A2 & A3 & A4).
      exists s'. split; [exact E|]. destruct H as [H1 H2 H3 H4 H5]. split; try done. by rewrite A1.
    - intros s a r H Hne. destruct (slruv0_evict_ok s (ss_segs a) r (ar_v _ _ _ _ _ H) (ar_s _ _ _ _ _ H) Hne)
        as (qs' & E & H'). eexists. split; [exact E|]. destruct H as [H1 H2 H3 H4 H5]. split; try done.
      by apply evict_sok.
    - intros s a r H Hni Hq Hw.
      destruct (slruv0_insert_ok s (ss_segs a) r (ar_v _ _ _ _ _ H) (ar_s _ _ _ _ _ H) H0 (ar_md _ _ _ _ _ H) Hni Hq Hw)
        as (qs' & E & H' & HS'). eexists. split; [exact E|]. destruct H as [H1 H2 H3 H4 H5]. by split.
    - intros s a r H. apply (v0_to_evict_ok s (ss_segs a) r (ar_v _ _ _ _ _ H) (ar_s _ _ _ _ _ H)).
    - intros s a id H. destruct (v0_remove_ok (v0_q s) (ss_segs a) id (ar_v _ _ _ _ _ H) (so_nd _ (ar_s _ _ _ _ _ H)))
        as (qs' & E & H'). cbn [op_remove slruv0_ops]. unfold v0_remove. rewrite E. cbn [rbind].
      eexists. split; [done|]. destruct H as [H1 H2 H3 H4 H5]. split; try done. by apply remove_sok.
    - intros segs id w Hl. unfold place0. destruct (with_room ms segs w) as [i|] eqn:E.
      + apply with_room_lt in E as [Hi _]. rewrite push_len; [lia|done].
      + apply settle_len. lia.
  Qed.

  (** ** SFIFOv0 with at most two queues *)

  Lemma sfv0_cool_ok r fuel : md = 0 -> (1 < n)%nat ->
    cool_spec fst (fun _ => True) (sfv0_cool fuel r 1) 1 fuel.
  Proof using Hmd Hm.
    intros Hz Hk [qs loc] segs L y HV _ HS El Hb. cbn [fst] in HV.
    cbn [sfv0_cool below]. destruct (vrel_at qs segs _ _ HV El) as (q & -> & Hq). cbn [rbind].
    destruct (vq_tail m md Hmd q L y r Hq) as (-> & (o & Ho & Hw & Hr) & _). cbn [rbind]. rewrite Ho.
    destruct (v0_evict_at_ok 1 qs segs L y r HV El) as (qs1 & -> & HV1). cbn [rbind].
    destruct (pop_facts 1 L y segs HS El) as (HS1 & Hy & Hny & Hc).
    set (segs1 := <[1%nat := L]> segs) in *.
    assert (Ey : (r_id (req_of_obj y.1 o), r_size (req_of_obj y.1 o) + md) = y).
    { destruct y. cbn in *. by f_equal. }
    assert (Hlk : segs1 !! 0%nat = Some (segs1 !!! 0%nat))
      by (apply list_lookup_lookup_total_lt; rewrite (so_len _ HS1); lia).
    destruct (vrel_at qs1 segs1 0 _ HV1 Hlk) as (n0 & -> & Hn0). cbn [rbind].
    rewrite (vq_size _ _ _ _ Hn0).
    set (saved := req_of_obj y.1 o) in *.
    destruct (push_ok fst (fun t => t.2 = saved) (sfv0_cool fuel r 0)
      (fun s => let! n := at_ s.1 0 in Ok (bool_decide (q_occ n > m - r_size saved)))
      O saved fuel) with (t := (qs1, saved)) (segs := segs1)
      as ([qs2 loc2] & d & d' & E2 & E2' & E3 & E4 & HV2 & HS2); try done; try lia.
    - intros [qs0 loc0] segs0 L0 y0 HV0 HI0 HS0 El0 _. cbn [fst snd] in *. cbn [sfv0_cool below].
      destruct (v0_evict_at_ok 0 qs0 segs0 L0 y0 r HV0 El0) as (qs' & -> & H'). cbn [rbind].
      by exists (qs', loc0).
    - by rewrite Ey.
    - intros [qs0 loc0] segs0 HV0 Hl0. cbn [fst] in *.
      destruct (vrel_at qs0 segs0 0 (segs0 !!! 0%nat) HV0) as (q0 & -> & Hq0);
        [apply list_lookup_lookup_total_lt; lia|]. cbn [rbind].
      rewrite (vq_occ _ _ _ _ Hq0). f_equal. apply bool_decide_ext. lia.
    - change (while_ fuel (fun s => let! n := at_ s.1 0 in Ok (bool_decide (q_occ n > m - r_size saved)))
        (sfv0_cool fuel r 0) (qs1, saved) = Ok (qs2, loc2)) in E2.
      cbn [fst snd] in *. cbn [sfv0_cool] in E2. rewrite E2. cbn [rbind]. rewrite E3. cbn [rbind]. subst loc2.
      rewrite E4. cbn [rbind].
      eexists. split; [done|]. split; [|done]. rewrite Ey in HV2. cbn [fst].
      unfold segs1 in HV2 at 1. by rewrite (list_lookup_total_insert_ne segs 1 0) in HV2 by lia.
  Qed.

  Lemma sfv0_hit s segs r u i sz : md = 0 -> (n <= 2)%nat -> vrel (f0_q s) segs -> sok segs ->
    locate (r_id r) segs = Some (i, sz) -> wok (r_id r, r_size r + md) -> req_ok md r ->
    exists s', sfv0_find s r u = Ok (s', true) /\ v0_c (f0_s s') = v0_c (f0_s s) /\
      vrel (f0_q s') (v0_hit ms md segs r i).
  Proof using Hmd Hm.
    intros Hz Hn2 HV HS EL Hw Hr. unfold sfv0_find.
    rewrite (v0_scan_ok fifo_find (f0_q s) segs r) by (try done; intros; by apply (vq_find_fifo m md)).
    cbn [rbind]. rewrite EL. cbn [fmap option_fmap option_map fst].
    assert (Hlen : length (f0_q s) = n) by (rewrite (Forall2_length _ _ _ HV); apply HS).
    unfold v0_hit, queue_hit. rewrite replicate_length, Hlen.
    destruct (decide (S i = n)) as [Hd|Hd].
    { by exists s. }
    destruct (hit_facts segs (r_id r) i sz HS EL) as (Hi & Hin & HS1 & Hn1 & _ & Hc).
    assert (Hls := so_len _ HS). assert (i = O) as -> by lia.
    destruct (vrel_at (f0_q s) segs 0 (segs !!! 0%nat) HV) as (q & -> & Hq);
      [apply list_lookup_lookup_total_lt; lia|]. cbn [rbind].
    destruct (vq_remove_hit m md Hmd q _ (r_id r) Hq Hin) as (q' & -> & Hq'). cbn [rbind].
    assert (HV1 : vrel (<[0%nat := q']> (f0_q s)) (<[0%nat := without (r_id r) (segs !!! 0%nat)]> segs))
      by (by apply Forall2_insert).
    set (segs1 := <[0%nat := without (r_id r) (segs !!! 0%nat)]> segs) in *.
    rewrite (vrel_fuel _ _ HV1).
    destruct (push_ok fst (fun _ => True) (sfv0_cool (S (length (concat segs1))) r 1)
      (fun s => let! d := at_ s.1 1 in Ok (bool_decide (q_occ d + r_size r > q_size d)))
      1%nat r (S (length (concat segs1)))) with (t := (<[0%nat := q']> (f0_q s), f0_loc s)) (segs := segs1)
      as ([qs2 loc2] & d2 & d2' & E2 & _ & E3 & E4 & HV2 & HS2); try done; try lia.
    - apply sfv0_cool_ok; [done|lia].
    - intros [qs0 loc0] segs0 HV0 Hl0. cbn [fst] in *.
      destruct (vrel_at qs0 segs0 1 (segs0 !!! 1%nat) HV0) as (q0 & -> & Hq0);
        [apply list_lookup_lookup_total_lt; lia|]. cbn [rbind].
      rewrite (vq_occ _ _ _ _ Hq0), (vq_size _ _ _ _ Hq0). f_equal. apply bool_decide_ext. lia.
    - rewrite E2. cbn [rbind]. cbn [fst] in E3. rewrite E3. cbn [rbind]. rewrite E4. cbn [rbind].
      eexists. split; [done|]. split; [done|]. cbn [fst] in HV2. unfold segs1 in HV2 at 1.
      by rewrite (list_lookup_total_insert_ne segs 0 1) in HV2 by lia.
  Qed.

  Lemma sfv0_arr cap : md = 0 -> (0 < n <= 2)%nat ->
    arr_ok sfv0_ops f0_q (fun s => v0_c (f0_s s)) place true cap.
  Proof using Hmd Hm.
    intros Hz [H0 H02]. split.
    - intros s a [H1 H2 H3 H4 H5]. split; try done.
    - intros s a H. apply (vrel_occ _ _ (ar_v _ _ _ _ _ H)).
    - intros s a H. apply (vrel_nobj _ _ (ar_v _ _ _ _ _ H)).
    - intros s a H. apply H.
    - intros s a H. apply H.
    - intros s a r u H EL. cbn [op_find sfv0_ops]. unfold sfv0_find.
      rewrite (v0_scan_ok fifo_find (f0_q s) (ss_segs a) r); [|intros; by apply (vq_find_fifo m md)|apply H].
      rewrite EL. done.
    - intros s a r u i sz H EL _ Hw Hq.
      destruct (sfv0_hit s (ss_segs a) r u i sz Hz H02 (ar_v _ _ _ _ _ H) (ar_s _ _ _ _ _ H) EL Hw Hq)
        as (s' & E & Ec & H'). eexists. split; [exact E|]. destruct H as [H1 H2 H3 H4 H5].
      split; rewrite ?Ec; try done. by apply (hit_sok _ r i sz).
    - done.
    - intros s a r H. assert (A := can_ok (f0_s s) (ss_segs a) (ss_adm a) cap r (ar_v _ _ _ _ _ H)
        (so_len _ (ar_s _ _ _ _ _ H)) H0 (ar_md _ _ _ _ _ H) (ar_cap _ _ _ _ _ H) (ar_adm _ _ _ _ _ H)).
      destruct (admit (ss_adm a) r) as [adm ok]. destruct A as (s' & E & A1 & A2 & A3 & A4).
      exists (mkF0 s' (f0_loc s)). cbn [op_can_insert sfv0_ops f0_lift]. rewrite E. split; [done|].
      destruct H as [H1 H2 H3 H4 H5]. split; try done. unfold f0_q. cbn [f0_s]. by rewrite A1.
    - intros s a r H Hne. destruct (v0_evict_low (f0_q s) (ss_segs a) r (ar_v _ _ _ _ _ H) (ar_s _ _ _ _ _ H) Hne)
        as (i & qs' & E1 & E2 & H'). cbn [op_evict sfv0_ops]. unfold sfv0_evict. rewrite E1, E2. cbn [rbind].
      eexists. split; [done|]. destruct H as [H1 H2 H3 H4 H5]. split; try done. by apply evict_sok.
    - intros s a r H Hni Hq Hw. cbn [op_insert sfv0_ops]. unfold sfv0_insert, place.
      destruct H as [H1 H2 H3 H4 H5]. assert (E := v0_room_ok _ _ (r_size r) H1 (so_len _ H2)). rewrite E.
      assert (r_size r + md = r_size r) as Er by lia. rewrite Er.
      set (i := default O _). assert (Hi : (i < n)%nat).
      { unfold i. destruct (with_room ms _ _) eqn:Ew; [|done]. apply with_room_lt in Ew as [Hi _].
        by rewrite (so_len _ H2) in Hi. }
      destruct (insert_at i (f0_q s) (ss_segs a) r H1 H2 Hi Hni Hq Hw) as (q & q' & -> & E2 & H' & HS').
      cbn [rbind]. rewrite E2. cbn [rbind]. eexists. split; [done|]. rewrite Er in H', HS'. by split.
    - intros s a r H. cbn [op_to_evict sfv0_ops]. unfold f0_lift.
      rewrite (v0_to_evict_ok (f0_s s) (ss_segs a) r (ar_v _ _ _ _ _ H) (ar_s _ _ _ _ _ H)). cbn [rbind]. by destruct s.
    - intros s a id H. destruct (v0_remove_ok (f0_q s) (ss_segs a) id (ar_v _ _ _ _ _ H) (so_nd _ (ar_s _ _ _ _ _ H)))
        as (qs' & E & H'). cbn [op_remove sfv0_ops]. unfold f0_lift, v0_remove. unfold f0_q in E. rewrite E. cbn [rbind].
      eexists. split; [done|]. destruct H as [H1 H2 H3 H4 H5]. split; try done. by apply remove_sok.
    - intros segs id w Hl. unfold place. rewrite push_len; [lia|]. destruct (with_room ms segs w) as [i|] eqn:E.
      + by apply with_room_lt in E as [Hi _].
      + cbn. lia.
  Qed.
End Array.
