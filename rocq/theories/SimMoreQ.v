(** LRU_Prob and FIFO_Merge simulate the abstract cache. *)
From stdpp Require Import functions.
From stdpp Require Import gmap list numbers fin_maps sorting.
From Verif Require Import Base Driver Abs AbsFacts Sim ModelQueue QueueFacts SimSize ModelMoreQ
  SpecApi SpecComp SpecWeak WSim SpecMoreQ.
Open Scope Z_scope.

Ltac same_cache H := intros ? ? (H & _); apply H.

Section LRUProb.
  Context (rnd : Z -> Z * Z) (thr cap md : Z) (Hthr : 0 < thr).
  (** [al]: every hit moves the object; [ne]: none does. *)
  Context (al ne : Prop).
  Context (Hal : al -> forall seed, (rnd seed).1 mod thr = 0).
  Context (Hne : ne -> forall seed, (rnd seed).1 mod thr <> 0).

  (** The queue is ordered by the times [k] of the last move to the head. *)
  Definition lprel (s : lpstate) (a : abs) : Prop :=
    srel cap md (lp_c s) a /\ qdom (lp_q s) (a_m a) /\ lp_ready s = true /\
    exists k : Z -> Z,
      StronglySorted (fun x y => k y < k x) (lp_q s) /\
      forall id e, a_m a !! id = Some e ->
        e_ins e <= k id <= e_last e /\ (al -> k id = e_last e) /\ (ne -> k id = e_ins e).

  Lemma sorted_del (k : Z -> Z) q v : StronglySorted (fun x y => k y < k x) q ->
    StronglySorted (fun x y => k y < k x) (q_del v q).
  Proof. apply StronglySorted_filter. Qed.

  Lemma sorted_cons (k : Z -> Z) q v x : v ∉ q -> (forall y, y ∈ q -> k y < x) ->
    StronglySorted (fun a b => k b < k a) q ->
    StronglySorted (fun a b => <[v := x]> k b < <[v := x]> k a) (v :: q).
  Proof.
    intros Hn Hlt HS. constructor.
    - eapply StronglySorted_impl; [|exact HS]. intros a b Ha Hb Hab.
      assert (a <> v) by (intros ->; done). assert (b <> v) by (intros ->; done).
      by rewrite !fn_lookup_insert_ne by done.
    - apply Forall_forall. intros y Hy. assert (y <> v) by (intros Hyv; apply Hn; rewrite <- Hyv; exact Hy).
      rewrite fn_lookup_insert, fn_lookup_insert_ne by done. auto.
  Qed.

  Lemma lp_sim : simulation (pol_lru_prob al ne) (lp_ops rnd thr) cap md (req_ok md) lprel.
  Proof using Hthr Hal Hne.
    constructor; cbn.
    - done.
    - same_cache H.
    - same_cache H.
    - same_cache H.
    - same_cache H.
    - intros s a (H1 & H2 & H3 & k & H4 & H5). split_and!; [by apply srel_tick|done|done|eauto].
    - intros s t m a (H1 & H2 & H3 & k & H4 & H5). split_and!; [by eapply srel_clock|done|done|eauto].
    - intros s a r (H & _). unfold lp_find. rewrite (srel_find_false _ _ _ _ _ H).
      rewrite andb_false_r. by destruct s.
    - intros s t m a r e Hok (H1 & H2 & H3 & k & H4 & H5) He. unfold lp_find.
      destruct (srel_find_hit _ _ _ _ _ _ _ _ H1 He) as (c' & -> & Hb & _). cbn [andb].
      destruct (rnd (lp_seed s)) as [x seed] eqn:Er.
      rewrite (decide_False (P := thr = 0)) by lia. cbn [a_m] in *.
      pose proof (proj1 (proj2 Hok)) as Htm. cbn in Htm.
      destruct (decide (x mod thr = 0)) as [Hx|Hx].
      + rewrite H3. eexists. split; [done|]. split_and!; cbn.
        * by apply srel_upd.
        * apply qdom_upd; eauto. apply qdom_to_head; eauto.
        * done.
        * exists (<[r_id r := t]> k). split.
          -- unfold q_to_head. apply sorted_cons; [rewrite elem_q_del; naive_solver| |by apply sorted_del].
             intros y Hy. apply elem_q_del in Hy as [Hy _]. apply H2 in Hy as [ey Hy].
             specialize (H5 _ _ Hy). specialize (Htm _ _ Hy). lia.
          -- intros id e0 He0. destruct (decide (id = r_id r)) as [->|Hd].
             ++ rewrite lookup_insert in He0. injection He0 as <-. rewrite fn_lookup_insert. cbn.
                specialize (Htm _ _ He). split_and!; [lia|lia|done|].
                intros Hn. exfalso. apply (Hne Hn (lp_seed s)). by rewrite Er.
             ++ rewrite lookup_insert_ne in He0 by done. rewrite fn_lookup_insert_ne by done. auto.
      + eexists. split; [done|]. split_and!; cbn.
        * by apply srel_upd.
        * apply qdom_upd; eauto.
        * done.
        * exists k. split; [done|]. intros id e0 He0. destruct (decide (id = r_id r)) as [->|Hd].
          -- rewrite lookup_insert in He0. injection He0 as <-. cbn.
             specialize (Htm _ _ He). specialize (H5 _ _ He). split_and!; [lia|lia| |].
             ++ intros Ha. exfalso. apply Hx. specialize (Hal Ha (lp_seed s)). by rewrite Er in Hal.
             ++ intros Hn. by apply H5.
          -- rewrite lookup_insert_ne in He0 by done. auto.
    - intros s a r (H1 & H2 & H3) Hn. unfold lp_find.
      rewrite (srel_find_miss _ _ _ _ _ _ H1 Hn). eexists. split; [done|]. done.
    - intros s t m a r (H1 & H2 & H3 & k & H4 & H5).
      destruct (srel_can _ _ _ _ _ _ r H1) as (c' & Hc & Hb & _).
      unfold lp_can_insert. rewrite Hc. eexists. split; [done|]. split_and!; [done|done|done|by exists k].
    - intros s t m a r Hok (H1 & H2 & H3 & k & H4 & H5) Hn Hr Hfit. unfold lp_insert.
      destruct (srel_insert _ _ _ _ _ _ r H1 Hn Hr) as (c' & -> & Hb & _); [apply Hok|].
      cbn [rbind]. rewrite H3. eexists. split; [done|]. cbn [a_m] in *.
      pose proof (proj1 (proj2 Hok)) as Htm. cbn in Htm.
      split_and!; cbn; [done|by apply qdom_cons|done|].
      exists (<[r_id r := t]> k). split.
      + apply sorted_cons; [|intros y Hy|done].
        * destruct H2 as [_ H2]. rewrite H2, Hn. by intros [].
        * apply H2 in Hy as [ey Hy]. specialize (H5 _ _ Hy). specialize (Htm _ _ Hy). lia.
      + intros id e0 He0. destruct (decide (id = r_id r)) as [->|Hd].
        * rewrite lookup_insert in He0. injection He0 as <-. rewrite fn_lookup_insert. cbn. split_and!; [lia|lia|done|done].
        * rewrite lookup_insert_ne in He0 by done. rewrite fn_lookup_insert_ne by done. auto.
    - intros s t m a r Hok (H1 & H2 & H3 & k & H4 & H5) Hnem. cbn [a_m] in *.
      pose proof (qdom_nonempty _ _ H2 Hnem) as Hq.
      destruct s as [c q seed rdy]. cbn in *. subst rdy. destruct q as [|v q _] using rev_ind; [done|]. clear Hq.
      assert (is_Some (m !! v)) as [e He].
      { apply H2. apply elem_of_app. right. by left. }
      destruct (srel_remove _ _ _ _ _ _ _ _ Hok H1 He) as (c' & Hc & Hb & _).
      unfold lp_to_evict, lp_evict. cbn. rewrite !last_snoc, Hc. cbn.
      assert (HR : lprel (mkLp c' (q_del v (q ++ [v])) seed true) (mkAbs t (delete v m) a)).
      { split_and!; cbn; [done|by apply qdom_del|done|]. exists k. split; [by apply sorted_del|].
        intros id e0 He0. apply lookup_delete_Some in He0 as [_ He0]. auto. }
      eexists _, v, _. split_and!; [done| |eauto| |done|exact HR|].
      + split_and!; cbn; [done|done|done|eauto].
      + intros e1 id e' He1 He'. rewrite He in He1. injection He1 as <-.
        pose proof (H5 _ _ He) as (Hk1 & Ha1 & Hn1). pose proof (H5 _ _ He') as (Hk2 & Ha2 & Hn2).
        assert (Hkk : k v <= k id).
        { destruct (decide (id = v)) as [->|Hd]; [lia|].
          assert (id ∈ q ++ [v]) as Hin by (apply H2; eauto).
          apply elem_of_app in Hin as [Hin|Hin%elem_of_list_singleton]; [|done].
          pose proof (StronglySorted_snoc_inv _ _ _ _ H4 Hin). cbn in *. lia. }
        split_and!; [lia|intros Ha; rewrite <- Ha1, <- Ha2 by done; lia|intros Hn; rewrite <- Hn1, <- Hn2 by done; lia].
      + intros _. cbn. rewrite last_snoc, Hc. cbn. eexists. split; [done|exact HR].
    - intros s t m a id Hok (H1 & H2 & H3 & k & H4 & H5). unfold lp_remove. cbn in *.
      destruct (m !! id) as [e|] eqn:E.
      + destruct (srel_some _ _ _ _ _ _ H1 E) as (o & -> & _).
        destruct (srel_remove _ _ _ _ _ _ _ _ Hok H1 E) as (c' & -> & Hb & _).
        cbn. rewrite H3. eexists. split; [done|]. split_and!; cbn; [done|by apply qdom_del|done|].
        exists k. split; [by apply sorted_del|].
        intros i e0 He0. apply lookup_delete_Some in He0 as [_ He0]. auto.
      + rewrite (srel_none _ _ _ _ _ H1 E). cbn. eexists. split; [done|].
        rewrite delete_notin by done. split_and!; [done|done|done|eauto].
  Qed.

  Lemma lp_init_rel b adm seed : md = (if b : bool then 16 else 0) ->
    lprel (lp_init true b cap adm seed) (abs_init adm).
  Proof.
    intros Hb. unfold lp_init. rewrite <- Hb. split_and!; cbn; [apply srel_init|apply qdom_empty|done|].
    exists (fun _ => 0). split; [constructor|]. intros id e H. by rewrite lookup_empty in H.
  Qed.
End LRUProb.

Section FIFOMerge.
  Context (n_exam n_keep : Z) (rank : Z -> cache -> list Z -> list Z * Z) (cap md : Z).
  Context (Hex : 0 < n_exam < 2 ^ 31 - 1) (Hkeep : 0 <= n_keep <= n_exam).
  Context (Hrank : forall seed c l, (rank seed c l).1 ≡ₚ l).

  Definition fm_fresh (q : list Z) (nte : option Z) (ml : list Z) (pos : Z) : Prop :=
    (forall p, nte = Some p -> p ∈ q) /\
    (0 <= pos) /\
    (pos < n_exam -> Z.of_nat (length ml) = n_exam) /\
    (pos + 1 < n_exam - n_keep ->
       NoDup (drop (Z.to_nat pos) ml) /\ (forall x, x ∈ drop (Z.to_nat pos) ml -> x ∈ q) /\
       forall p, nte = Some p -> p ∉ drop (Z.to_nat pos) ml).

  (** The queue holds the residents, in order of insertion. *)
  Definition fqdom (q : list Z) (m : gmap Z entry) : Prop := qdom q m /\ qsorted e_ins q m.
  Lemma fqdom_del q m v : fqdom q m -> fqdom (q_del v q) (delete v m).
  Proof using. clear. intros [H1 H2]. split; [by apply qdom_del|by apply qsorted_del]. Qed.

  Definition fmrel (s : fmstate) (a : abs) : Prop :=
    srel cap md (fm_c s) a /\ fqdom (fm_q s) (a_m a) /\
    fm_fresh (fm_q s) (fm_nte s) (fm_ml s) (fm_pos s).

  (** The examined objects, in closed form. *)
  Lemma fm_exam_straight n : forall rq cur nl, (n <= length cur)%nat ->
    fm_exam n rq cur nl = Ok (take n cur, drop n cur).
  Proof using.
    clear. induction n as [|n IH]; intros rq cur nl Hn; [done|].
    destruct cur as [|x cur]; cbn in Hn; [lia|]. cbn. rewrite IH by lia. done.
  Qed.

  Lemma fm_exam_closed n rq pre cur : rq = pre ++ cur -> (n < length rq)%nat ->
    fm_exam n rq cur 0 =
      Ok (if decide (n <= length cur)%nat then (take n cur, drop n cur)
          else (cur ++ take (n - length cur) rq, drop (n - length cur) rq)).
  Proof using.
    clear. intros Hrq Hn. destruct (decide (n <= length cur)%nat) as [Hle|Hgt].
    - by apply fm_exam_straight.
    - assert (Hgen : forall cur' n', (length cur' < n')%nat -> (n' - length cur' < length rq)%nat ->
        fm_exam n' rq cur' 0 = Ok (cur' ++ take (n' - length cur') rq, drop (n' - length cur') rq)).
      { induction cur' as [|x cur' IH]; intros n' H1 H2; cbn in H1, H2.
        - destruct n' as [|n']; [lia|]. cbn. destruct rq as [|y rq]; cbn in H2; [lia|].
          rewrite fm_exam_straight by lia. done.
        - destruct n' as [|n']; [lia|]. cbn. rewrite IH by lia. done. }
      apply Hgen; [lia|]. lia.
  Qed.

  Lemma from_id_suffix p rq : p ∈ rq -> exists pre, rq = pre ++ from_id p rq.
  Proof using.
    clear. induction rq as [|y rq IH]; intros Hp; [by inversion Hp|]. cbn.
    destruct (decide (y = p)) as [->|Hne]; [by exists []|].
    apply elem_of_cons in Hp as [->|Hp]; [done|]. destruct (IH Hp) as (pre & Hpre).
    exists (y :: pre). cbn. by f_equal.
  Qed.

  Lemma rot_to_spec p rq : p ∈ rq -> exists pre, rq = pre ++ from_id p rq /\ rot_to p rq = from_id p rq ++ pre.
  Proof using.
    clear. unfold rot_to. intros Hp. assert (Hg : forall acc, exists pre, rq = pre ++ from_id p rq /\
      rot_from p acc rq = from_id p rq ++ rev acc ++ pre).
    { induction rq as [|y rq IH]; [by inversion Hp|]. intros acc. cbn.
      destruct (decide (y = p)) as [->|Hne]; [exists []; by rewrite app_nil_r|].
      apply elem_of_cons in Hp as [->|Hp]; [done|]. destruct (IH Hp (y :: acc)) as (pre & Hpre & Hr).
      exists (y :: pre). split; [cbn; by f_equal|]. rewrite Hr. cbn. by rewrite <- app_assoc. }
    destruct (Hg []) as (pre & H1 & H2). exists pre. done.
  Qed.

  (** The examined objects are distinct, queued, [n] in number, and what comes
      next is queued and not among them. *)
  Lemma fm_exam_facts n rq pre cur : NoDup rq -> rq = pre ++ cur -> (n < length rq)%nat ->
    exists l nx, fm_exam n rq cur 0 = Ok (l, nx) /\ NoDup l /\ length l = n /\
      (forall x, x ∈ l -> x ∈ rq) /\
      (forall p, head nx = Some p -> p ∈ rq /\ p ∉ l) /\
      l = take n (cur ++ pre).
  Proof using.
    clear. intros Hnd Hrq Hn. rewrite (fm_exam_closed _ _ _ _ Hrq Hn).
    assert (Hd : forall (l : list Z) k p, NoDup l -> head (drop k l) = Some p -> p ∈ l /\ p ∉ take k l).
    { intros l k p Hl Hp. destruct (drop k l) as [|y d] eqn:Ed; [done|]. cbn in Hp. injection Hp as ->.
      rewrite <- (take_drop k l), Ed in Hl |- *. apply NoDup_app in Hl as (_ & Hl & _).
      split; [set_solver|]. intros Hp. rewrite take_app_le, take_take in Hp.
      - apply (Hl p); [|set_solver]. by rewrite Nat.min_id in Hp.
      - rewrite take_length. assert (length (drop k l) <> 0%nat) as Hk by (by rewrite Ed).
        rewrite drop_length in Hk. lia. }
    assert (Hnc : NoDup cur) by (rewrite Hrq in Hnd; by apply NoDup_app in Hnd as (_ & _ & ?)).
    destruct (decide (n <= length cur)%nat) as [Hle|Hgt].
    - eexists _, _. split; [done|]. split_and!.
      + rewrite <- (take_drop n cur) in Hnc. by apply NoDup_app in Hnc as (? & _).
      + rewrite take_length. lia.
      + intros x Hx. rewrite Hrq. apply elem_of_app. right. rewrite <- (take_drop n cur). set_solver.
      + intros p Hp. apply Hd in Hp as [Hp1 Hp2]; [|done]. split; [|done]. rewrite Hrq. set_solver.
      + by rewrite take_app_le.
    - assert (Hlen : length rq = (length pre + length cur)%nat) by (by rewrite Hrq, app_length).
      assert (Ht : take (n - length cur) rq = take (n - length cur) pre).
      { rewrite Hrq. apply take_app_le. lia. }
      assert (Hdis : forall x, x ∈ pre -> x ∈ cur -> False).
      { rewrite Hrq in Hnd. apply NoDup_app in Hnd as (_ & Hx & _). intros x ? ?. by apply (Hx x). }
      assert (Hnp : NoDup pre) by (rewrite Hrq in Hnd; by apply NoDup_app in Hnd as (? & _)).
      assert (Hsub : forall x, x ∈ take (n - length cur) pre -> x ∈ pre).
      { intros x Hx. rewrite <- (take_drop (n - length cur) pre). set_solver. }
      eexists _, _. split; [done|]. rewrite Ht. split_and!.
      + apply NoDup_app. split_and!; [done| |].
        * intros x Hx Hx2. apply Hsub in Hx2. by apply (Hdis x).
        * rewrite <- (take_drop (n - length cur) pre) in Hnp. by apply NoDup_app in Hnp as (? & _).
      + rewrite app_length, take_length. lia.
      + intros x Hx. rewrite Hrq. apply elem_of_app in Hx as [Hx|Hx]; [set_solver|].
        apply Hsub in Hx. set_solver.
      + intros p Hp. pose proof (Hd _ _ _ Hnd Hp) as [Hp1 Hp2]. split; [done|].
        intros Hin. apply elem_of_app in Hin as [Hin|Hin]; [|by rewrite Ht in Hp2].
        rewrite Hrq, drop_app_le in Hp by lia.
        destruct (drop (n - length cur) pre) as [|y d] eqn:Ed.
        * assert (length (drop (n - length cur) pre) = 0%nat) as Hz by (by rewrite Ed).
          rewrite drop_length in Hz. lia.
        * cbn in Hp. injection Hp as ->. apply (Hdis p); [|done].
          rewrite <- (take_drop (n - length cur) pre), Ed. set_solver.
      + by rewrite take_app_ge by lia.
  Qed.

  Lemma fmrel_drop s t m a v e nte ml pos seed : abs_ok cap md (mkAbs t m a) ->
    srel cap md (fm_c s) (mkAbs t m a) -> fqdom (fm_q s) m -> m !! v = Some e ->
    fm_fresh (q_del v (fm_q s)) nte ml pos ->
    exists s', fm_drop (mkFm (fm_c s) (fm_q s) nte ml pos seed) v = Ok s' /\
      fmrel s' (mkAbs t (delete v m) a) /\ fm_q s' = q_del v (fm_q s) /\
      fm_nte s' = nte /\ fm_ml s' = ml /\ fm_pos s' = pos.
  Proof.
    intros Hok H1 H2 He Hf. unfold fm_drop, cache_evict_base. cbn.
    destruct (srel_remove _ _ _ _ _ _ _ _ Hok H1 He) as (c' & -> & Hb & _). cbn.
    eexists. split; [done|]. split; [|done]. split_and!; cbn; [done|by apply fqdom_del|done].
  Qed.

  Lemma qdom_len (q : list Z) (m : gmap Z entry) : qdom q m -> length q = size m.
  Proof using.
    clear. intros [Hn Hd]. rewrite <- size_dom, <- (size_list_to_set (C := gset Z) q Hn).
    f_equal. apply set_eq. intros x. rewrite elem_of_list_to_set, elem_of_dom. apply Hd.
  Qed.

  (** A new batch: the objects examined, ranked, the first one evicted. *)
  Lemma fmrel_batch s t m a : abs_ok cap md (mkAbs t m a) -> srel cap md (fm_c s) (mkAbs t m a) ->
    fqdom (fm_q s) m -> (forall p, fm_nte s = Some p -> p ∈ fm_q s) ->
    Z.of_nat (size m) > n_exam ->
    exists (w : list Z) v s', w = take (Z.to_nat n_exam)
        (match fm_nte s with None => rev (fm_q s) | Some p => rot_to p (rev (fm_q s)) end) /\
      NoDup w /\ Z.of_nat (length w) = n_exam /\ (forall x, x ∈ w -> x ∈ fm_q s) /\
      head (rank (fm_seed s) (fm_c s) w).1 = Some v /\
      fm_evict_new n_exam false rank s = Ok s' /\ is_Some (m !! v) /\
      fmrel s' (mkAbs t (delete v m) a) /\
      fm_ml s' = (rank (fm_seed s) (fm_c s) w).1 /\ fm_pos s' = 1 /\ fm_q s' = q_del v (fm_q s).
  Proof using Hex Hkeep Hrank.
    intros Hok H1 H2f Hnte Hbig. pose proof H2f as [H2 _]. unfold fm_evict_new.
    rewrite (sr_nobj _ _ _ _ H1). cbn [a_m].
    rewrite (decide_False (P := Z.of_nat (size m) <= n_exam)) by lia.
    assert (Hlen : length (rev (fm_q s)) = size m) by (rewrite rev_length; by apply qdom_len).
    assert (Hndq : NoDup (rev (fm_q s))).
    { apply NoDup_ListNoDup, NoDup_rev, NoDup_ListNoDup. apply H2. }
    assert (Hre : forall x, x ∈ rev (fm_q s) <-> x ∈ fm_q s) by (intros x; by rewrite elem_of_reverse_alt || rewrite !elem_of_list_In, <- in_rev).
    set (cur := match fm_nte s with None => [] | Some p => from_id p (rev (fm_q s)) end).
    assert (Hcur : exists pre, rev (fm_q s) = pre ++ cur /\
      match fm_nte s with None => rev (fm_q s) | Some p => rot_to p (rev (fm_q s)) end = cur ++ pre).
    { unfold cur. destruct (fm_nte s) as [p|] eqn:Ep; [|exists (rev (fm_q s)); by rewrite app_nil_r].
      apply rot_to_spec. rewrite Hre. by apply Hnte. }
    destruct Hcur as (pre & Hcur & Hrot).
    destruct (fm_exam_facts (Z.to_nat n_exam) (rev (fm_q s)) pre cur) as (l & nx & Hl & Hnd & Hll & Hsub & Hnx & Hcl);
      [done|done|lia|].
    replace (match fm_nte s with None => Ok [] | Some p => if decide (p ∈ rev (fm_q s))
        then Ok (from_id p (rev (fm_q s))) else Err UseAfterFree end) with (Ok cur).
    2: { unfold cur. destruct (fm_nte s) as [p|] eqn:Ep; [|done].
         rewrite (decide_True (P := p ∈ rev (fm_q s))); [done|]. rewrite Hre. by apply Hnte. }
    cbn [rbind]. rewrite Hl. cbn [rbind].
    pose proof (Hrank (fm_seed s) (fm_c s) l) as Hp.
    destruct (rank (fm_seed s) (fm_c s) l) as [ml seed] eqn:Erk. cbn in Hp.
    destruct ml as [|v ml].
    { apply Permutation_nil in Hp. rewrite Hp in Hll. cbn in Hll. lia. }
    assert (Hv : v ∈ l) by (rewrite <- Hp; by left).
    assert (Hvq : v ∈ fm_q s) by (by apply Hre, Hsub).
    destruct H2 as [Hq1 Hq2]. apply Hq2 in Hvq as [e He].
    assert (Hnd2 : NoDup (v :: ml)) by (by rewrite Hp).
    destruct (fmrel_drop s t m a v e (head nx) (v :: ml) 1 seed Hok H1) as (s' & Hs' & HR & Hq' & _ & Hml & Hpos).
    { done. } { done. }
    { split_and!.
      - intros p Hpp. apply Hnx in Hpp as [Hp1 Hp2]. rewrite elem_q_del. split; [by apply Hre|].
        intros ->. by apply Hp2.
      - lia.
      - intros _. rewrite (Permutation_length Hp). lia.
      - intros _. cbn. apply NoDup_cons in Hnd2 as [Hn1 Hn2]. split_and!; [done| |].
        + intros x Hx. rewrite elem_q_del. split; [|by intros ->].
          apply Hre, Hsub. rewrite <- Hp. by right.
        + intros p Hpp Hin. apply Hnx in Hpp as [_ Hp2]. apply Hp2. rewrite <- Hp. by right. }
    exists l, v, s'. rewrite Erk. cbn [fst].
    rewrite Hrot. split_and!; try done; [lia|intros x Hx; by apply Hre, Hsub].
  Qed.

  Lemma fmrel_evict s t m a r : abs_ok cap md (mkAbs t m a) -> fmrel s (mkAbs t m a) -> m <> ∅ ->
    exists v s2, is_Some (m !! v) /\ fm_evict n_exam n_keep false rank s r = Ok s2 /\
      fmrel s2 (mkAbs t (delete v m) a).
  Proof using Hex Hkeep Hrank.
    intros Hok (H1 & H2f & H3 & H4 & H5 & H6) Hne. cbn [a_m] in *. pose proof H2f as [H2 _]. unfold fm_evict.
    assert (Hnew : forall pos', pos' = fm_pos s \/ pos' = fm_pos s + 1 -> n_exam - n_keep <= pos' + 1 ->
      exists v s2, is_Some (m !! v) /\
        fm_evict_new n_exam false rank (mkFm (fm_c s) (fm_q s) (fm_nte s) (fm_ml s) pos' (fm_seed s)) = Ok s2 /\
        fmrel s2 (mkAbs t (delete v m) a)).
    { intros pos' Hpos Hdone. destruct (decide (Z.of_nat (size m) <= n_exam)) as [Hsm|Hbig].
      - unfold fm_evict_new. cbn [fm_c fm_q]. rewrite (sr_nobj _ _ _ _ H1). cbn [a_m].
        rewrite (decide_True (P := Z.of_nat (size m) <= n_exam)) by done.
        pose proof (qdom_nonempty _ _ H2 Hne) as Hq.
        destruct (last (fm_q s)) as [v|] eqn:El; [|by apply last_None in El].
        assert (v ∈ fm_q s) as Hv by (by apply last_Some_elem_of).
        apply H2 in Hv as [e He].
        destruct (fmrel_drop s t m a v e None (fm_ml s) pos' (fm_seed s) Hok H1 H2f He) as (s' & Hs' & HR & _).
        { split_and!; [done|lia| |lia]. intros ?. apply H5. lia. }
        exists v, s'. split_and!; [eauto|exact Hs'|done].
      - destruct (fmrel_batch (mkFm (fm_c s) (fm_q s) (fm_nte s) (fm_ml s) pos' (fm_seed s)) t m a Hok H1 H2f H3)
          as (w & v & s' & _ & _ & _ & _ & _ & Hev & Hv & HR & _); [lia|].
        eauto. }
    destruct (decide (fm_pos s < n_exam)) as [Hlt|Hge].
    - specialize (H5 Hlt).
      destruct (lookup_lt_is_Some_2 (fm_ml s) (Z.to_nat (fm_pos s))) as [v Hv]; [lia|].
      rewrite Hv. destruct (decide (fm_pos s + 1 < n_exam - n_keep)) as [Hact|Hdone].
      + destruct (H6 Hact) as (Hnd & Hsub & Hnt).
        rewrite (drop_S _ _ _ Hv) in Hnd, Hsub, Hnt. apply NoDup_cons in Hnd as [Hn1 Hn2].
        assert (v ∈ fm_q s) as Hvq by (apply Hsub; by left). apply H2 in Hvq as [e He].
        destruct (fmrel_drop s t m a v e (fm_nte s) (fm_ml s) (fm_pos s + 1) (fm_seed s) Hok H1 H2f He) as (s' & Hs' & HR & _).
        { unfold fm_fresh. replace (Z.to_nat (fm_pos s + 1)) with (S (Z.to_nat (fm_pos s))) by lia. split_and!.
          - intros p Hp. rewrite elem_q_del. split; [auto|]. intros ->. apply (Hnt v Hp). by left.
          - lia.
          - intros _. done.
          - intros _. split_and!; [done| |].
            + intros x Hx. rewrite elem_q_del. split; [apply Hsub; by right|by intros ->].
            + intros p Hp Hin. apply (Hnt p Hp). by right. }
        exists v, s'. split_and!; [eauto|exact Hs'|done].
      + apply Hnew; [by right|lia].
    - destruct (Hnew (fm_pos s)) as (v & s2 & Hv & Hev & HR); [by left|lia|].
      exists v, s2. split_and!; [done| |done]. by destruct s.
  Qed.

  (** Within a batch, the next object of the ranking goes. *)
  Lemma fm_evict_next s t m a r v : abs_ok cap md (mkAbs t m a) -> fmrel s (mkAbs t m a) ->
    fm_pos s + 1 < n_exam - n_keep -> fm_ml s !! Z.to_nat (fm_pos s) = Some v ->
    exists s', fm_evict n_exam n_keep false rank s r = Ok s' /\ fmrel s' (mkAbs t (delete v m) a) /\
      fm_ml s' = fm_ml s /\ fm_pos s' = fm_pos s + 1.
  Proof using Hex Hkeep.
    intros Hok (H1 & H2f & H3 & H4 & H5 & H6) Hact Hv. cbn [a_m] in *. pose proof H2f as [H2 _]. unfold fm_evict.
    rewrite (decide_True (P := fm_pos s < n_exam)) by lia. rewrite Hv.
    rewrite (decide_True (P := fm_pos s + 1 < n_exam - n_keep)) by done.
    destruct (H6 Hact) as (Hnd & Hsub & Hnt).
    rewrite (drop_S _ _ _ Hv) in Hnd, Hsub, Hnt. apply NoDup_cons in Hnd as [Hn1 Hn2].
    assert (v ∈ fm_q s) as Hvq by (apply Hsub; by left). apply H2 in Hvq as [e He].
    destruct (fmrel_drop s t m a v e (fm_nte s) (fm_ml s) (fm_pos s + 1) (fm_seed s) Hok H1 H2f He)
      as (s' & Hs' & HR & _ & _ & Hml & Hpos).
    { unfold fm_fresh. replace (Z.to_nat (fm_pos s + 1)) with (S (Z.to_nat (fm_pos s))) by lia. split_and!.
      - intros p Hp. rewrite elem_q_del. split; [auto|]. intros ->. apply (Hnt v Hp). by left.
      - lia.
      - intros _. apply H5. lia.
      - intros _. split_and!; [done| |].
        + intros x Hx. rewrite elem_q_del. split; [apply Hsub; by right|by intros ->].
        + intros p Hp Hin. apply (Hnt p Hp). by right. }
    exists s'. split_and!; [exact Hs'|done|done|done].
  Qed.

  Lemma fm_evict_rest r k : forall s t m a, abs_ok cap md (mkAbs t m a) -> fmrel s (mkAbs t m a) ->
    fm_pos s + Z.of_nat k < n_exam - n_keep ->
    exists s' m', evict_n (fm_ops n_exam n_keep false rank) k s r = Ok s' /\ fmrel s' (mkAbs t m' a) /\
      forall j, is_Some (m' !! j) <-> is_Some (m !! j) /\ j ∉ take k (drop (Z.to_nat (fm_pos s)) (fm_ml s)).
  Proof using Hex Hkeep.
    induction k as [|k IH]; intros s t m a Hok HR Hk.
    { exists s, m. split_and!; [done|done|]. intros j. cbn. split; [|tauto]. intros ?. split; [done|]. apply not_elem_of_nil. }
    pose proof HR as (_ & _ & _ & H4 & H5 & _).
    destruct (lookup_lt_is_Some_2 (fm_ml s) (Z.to_nat (fm_pos s))) as [v Hv]; [rewrite ?(H5 ltac:(lia)); assert (Z.of_nat (length (fm_ml s)) = n_exam) by (apply H5; lia); lia|].
    destruct (fm_evict_next s t m a r v Hok HR ltac:(lia) Hv) as (s1 & Hev & HR1 & Hml & Hpos).
    destruct (IH s1 t (delete v m) a) as (s' & m' & Hev' & HR' & Hj); [by apply abs_ok_delete|done|lia|].
    exists s', m'. split_and!; [|done|].
    - cbn [evict_n op_evict fm_ops]. rewrite Hev. cbn [rbind]. exact Hev'.
    - intros j. rewrite Hj, Hml, Hpos, (drop_S _ _ _ Hv). cbn [take].
      replace (Z.to_nat (fm_pos s + 1)) with (S (Z.to_nat (fm_pos s))) by lia.
      rewrite not_elem_of_cons, lookup_delete_is_Some. naive_solver.
  Qed.

  (** A whole batch. *)
  Lemma fm_evict_batch s t m a r : abs_ok cap md (mkAbs t m a) -> fmrel s (mkAbs t m a) ->
    Z.of_nat (size m) > n_exam -> n_exam <= fm_pos s ->
    exists w, w = take (Z.to_nat n_exam)
        (match fm_nte s with None => rev (fm_q s) | Some p => rot_to p (rev (fm_q s)) end) /\
      NoDup w /\ Z.of_nat (length w) = n_exam /\ (forall x, x ∈ w -> is_Some (m !! x)) /\
      forall k, (1 <= k)%nat -> Z.of_nat k <= Z.max 1 (n_exam - n_keep - 1) ->
        exists s' m', evict_n (fm_ops n_exam n_keep false rank) k s r = Ok s' /\ fmrel s' (mkAbs t m' a) /\
          forall j, is_Some (m' !! j) <-> is_Some (m !! j) /\ j ∉ take k (rank (fm_seed s) (fm_c s) w).1.
  Proof using Hex Hkeep Hrank.
    intros Hok HR Hbig Hpos. pose proof HR as (H1 & H2 & H3 & _).
    destruct (fmrel_batch s t m a Hok H1 H2 H3 Hbig) as (w & v & s1 & Hw & Hnd & Hlen & Hin & Hhd & Hev & Hv & HR1 & Hml & Hp & _).
    exists w. split_and!; [done|done|done|intros x Hx; apply H2; auto|].
    intros k Hk1 Hk2. destruct k as [|k]; [lia|].
    assert (Hev1 : fm_evict n_exam n_keep false rank s r = Ok s1).
    { unfold fm_evict. rewrite (decide_False (P := fm_pos s < n_exam)) by lia. done. }
    cbn [evict_n op_evict fm_ops]. rewrite Hev1. cbn [rbind].
    destruct (rank (fm_seed s) (fm_c s) w).1 as [|v' ml] eqn:Erk; [done|]. cbn in Hhd. injection Hhd as ->.
    destruct (decide (k = 0%nat)) as [->|Hk0].
    { exists s1, (delete v m). split_and!; [done|done|]. intros j. cbn [take].
      rewrite lookup_delete_is_Some, elem_of_list_singleton. naive_solver. }
    destruct (fm_evict_rest r k s1 t (delete v m) a) as (s' & m' & Hev' & HR' & Hj); [by apply abs_ok_delete|done|lia|].
    exists s', m'. split_and!; [done|done|]. intros j. rewrite Hj, Hml, Hp. cbn [take drop].
    change (Z.to_nat 1) with 1%nat. cbn [drop]. rewrite lookup_delete_is_Some, not_elem_of_cons. naive_solver.
  Qed.

  Lemma fmrel_c s c (a a' : abs) : srel cap md c a' -> (forall q, fqdom q (a_m a) -> fqdom q (a_m a')) ->
    fmrel s a -> fmrel (fm_set_c s c) a'.
  Proof using. intros H Hd (H1 & H2 & H3). split_and!; cbn; [done|by apply Hd|done]. Qed.

  Lemma fqdom_touch (m : gmap Z entry) r t e q : m !! r_id r = Some e -> fqdom q m ->
    fqdom q (<[r_id r := touch t r e]> m).
  Proof using.
    clear. intros He [H1 H2]. split; [apply qdom_upd; eauto|]. by eapply qsorted_same_key.
  Qed.

  Lemma fmrel_find s t m a r e : fmrel s (mkAbs t m a) -> m !! r_id r = Some e ->
    exists s', fm_find s r true = Ok (s', true) /\
      fmrel s' (mkAbs (t + 1) (<[r_id r := touch t r e]> m) a).
  Proof using.
    intros HR He. unfold fm_find. pose proof HR as (H1 & _).
    destruct (srel_find_hit _ _ _ _ _ _ _ _ H1 He) as (c' & -> & Hb & _). cbn [andb].
    eexists. split; [done|]. apply (fmrel_c s _ (mkAbs t m a)); [by apply srel_upd| |done].
    intros q. by apply fqdom_touch.
  Qed.

  Lemma fmrel_insert s t m a r : abs_ok cap md (mkAbs t m a) -> fmrel s (mkAbs t m a) ->
    m !! r_id r = None -> req_ok md r ->
    exists s', fm_insert s r = Ok s' /\ fmrel s' (mkAbs (t + 1) (<[r_id r := fresh t r]> m) a).
  Proof using.
    intros Hok (H1 & H2 & H3 & H4 & H5 & H6) Hn Hr. unfold fm_insert.
    destruct (srel_insert _ _ _ _ _ _ r H1 Hn Hr) as (c' & -> & Hb & _); [apply Hok|].
    cbn [rbind]. eexists. split; [done|]. split_and!; cbn.
    - by apply srel_upd.
    - destruct H2 as [H2 H2s]. split; [by apply qdom_cons|]. cbn in *. apply qsorted_cons; [| |done].
      + destruct H2 as [_ H2]. rewrite H2, Hn. by intros [].
      + intros i e' Hi. cbn. destruct Hok as (_ & Hok & _). specialize (Hok _ _ Hi). cbn in Hok. lia.
    - split_and!; [intros p Hp; right; auto|done|done|].
      intros Hact. destruct (H6 Hact) as (? & Hsub & ?). split_and!; [done| |done].
      intros x Hx. right. auto.
  Qed.

  Lemma fmrel_tick s a : fmrel s a -> fmrel (fm_set_c s (c_incr_nreq (fm_c s))) a.
  Proof using. intros HR. pose proof HR as (H1 & _). eapply fmrel_c; [|done|done]. by apply srel_tick. Qed.

  Lemma fmrel_clock s t m a t' : fmrel s (mkAbs t m a) -> fmrel s (mkAbs t' m a).
  Proof using. intros (H1 & H2 & H3). split_and!; [by eapply srel_clock|done|done]. Qed.

  Lemma fmrel_miss s a r : fmrel s a -> a_m a !! r_id r = None -> fm_find s r true = Ok (s, false).
  Proof using.
    intros (H1 & _) Hn. unfold fm_find. rewrite (srel_find_miss _ _ _ _ _ _ H1 Hn). by destruct s.
  Qed.

  Lemma fm_sim : wsimulation pol_any (fm_ops n_exam n_keep false rank) cap md (merge_call md) fmrel.
  Proof using Hex Hkeep Hrank.
    constructor; cbn.
    - intros r [H|H]; exact H.
    - same_cache H.
    - same_cache H.
    - same_cache H.
    - same_cache H.
    - intros s t m a _. apply fmrel_clock.
    - intros s a r (H & _). unfold fm_find. rewrite (srel_find_false _ _ _ _ _ H).
      rewrite andb_false_r. by destruct s.
    - intros s t m a r e Hok HR Hr He. eapply fmrel_find; [by apply fmrel_tick|done].
    - intros s t m a r e Hok HR _ He. by eapply fmrel_find.
    - intros s a r HR Hn _. exists s. split; [by eapply fmrel_miss|done].
    - intros s t m a r fuel Hok HR Hr Hn Hf.
      eapply (get_miss_of pol_any (fm_ops n_exam n_keep false rank) cap md fmrel fmrel (req_ok md)); eauto; cbn.
      + same_cache H.
      + same_cache H.
      + same_cache H.
      + apply fmrel_tick.
      + intros ? ? ? ?. apply fmrel_clock.
      + intros s1 a1 r1 H _ Hn1. exists s1. split; [by eapply fmrel_miss|done].
      + intros s1 t1 m1 a1 r1 H _. pose proof H as (H1 & _).
        destruct (srel_can _ _ _ _ _ _ r1 H1) as (c' & Hc & Hb & _).
        unfold fm_can_insert. rewrite Hc. eexists. split; [done|]. by apply (fmrel_c s1 c' (mkAbs t1 m1 a1)).
      + intros s1 t1 m1 a1 r1 Hok1 H Hn1 Hr1 _. by eapply fmrel_insert.
      + intros s1 t1 m1 a1 r1 Hok1 H Hne _.
        destruct (fmrel_evict s1 t1 m1 a1 r1 Hok1 H Hne) as (v & s2 & Hv & Hev & HR2).
        exists v, s2. split_and!; done.
    - intros s t m a r Hok HR Hn Hr _. by eapply fmrel_insert.
    - intros s t m a r Hok HR Hne _.
      destruct (fmrel_evict s t m a r Hok HR Hne) as (v & s2 & Hv & Hev & HR2).
      exists v, s2. split_and!; done.
    - done.
    - done.
  Qed.

  Lemma fm_init_rel b adm seed : md = (if b : bool then 4 else 0) ->
    fmrel (fm_init b cap adm seed) (abs_init adm).
  Proof using Hex Hkeep.
    intros Hb. unfold fm_init. rewrite <- Hb. split_and!; cbn; [apply srel_init|split; [apply qdom_empty|constructor]|].
    split_and!; [done|lia|lia|lia].
  Qed.
End FIFOMerge.
