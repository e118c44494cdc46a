(** With objects of one size an LRU cache holds the top of the recency stack. *)
From stdpp Require Import gmap list numbers fin_maps.
From Verif Require Import Base Driver Abs AbsFacts Sim PSim ModelQueue QueueFacts SimQueue SpecLRUStack.
Open Scope Z_scope.

Lemma recency_step_q st x : recency_step st x = q_to_head x st.
Proof. done. Qed.

Lemma recency_NoDup ids : NoDup (recency ids).
Proof.
  unfold recency. assert (H : NoDup (@nil Z)) by constructor. revert H. generalize (@nil Z).
  induction ids as [|x ids IH]; intros st H; cbn; [done|]. apply IH.
  constructor; [rewrite elem_of_list_filter; naive_solver|by apply NoDup_filter].
Qed.

Lemma recency_snoc ids x : recency (ids ++ [x]) = q_to_head x (recency ids).
Proof. unfold recency. by rewrite fold_left_app. Qed.

Lemma elem_recency ids y : y ∈ recency ids <-> y ∈ ids.
Proof.
  induction ids as [|x ids IH] using rev_ind; [done|].
  rewrite recency_snoc. unfold q_to_head. rewrite elem_of_cons, elem_q_del, IH.
  rewrite elem_of_app, elem_of_list_singleton. destruct (decide (y = x)); naive_solver.
Qed.

Lemma take_q_del n x st : NoDup st -> take n (q_del x (take (S n) st)) = take n (q_del x st).
Proof.
  revert n. induction st as [|y st IH]; intros n Hn; [done|]. apply NoDup_cons in Hn as [Hy Hn].
  cbn [take]. destruct (decide (y = x)) as [->|Hne].
  - rewrite !q_del_cons, !q_del_notin; [|done|].
    + by rewrite take_take, Nat.min_id.
    + intros Hx. apply Hy. by apply elem_of_take in Hx as (i & Hi & _); apply elem_of_list_lookup_2 in Hi.
  - rewrite !q_del_cons_ne by done. destruct n as [|n]; [done|]. cbn [take]. f_equal. by apply IH.
Qed.

Lemma take_to_head n x st : NoDup st ->
  take n (q_to_head x (take n st)) = take n (q_to_head x st).
Proof.
  intros Hn. destruct n as [|n]; [done|]. unfold q_to_head. cbn [take]. f_equal. by apply take_q_del.
Qed.

Definition unif (sz : Z) (a : abs) : Prop := forall id e, a_m a !! id = Some e -> e_size e = sz.

Lemma msum_unif sz md m : (forall id e, m !! id = Some e -> e_size e = sz) ->
  msum md m = (sz + md) * Z.of_nat (size m).
Proof.
  induction m as [|i e m Hi IH] using map_ind; intros H.
  - rewrite msum_empty, map_size_empty. lia.
  - rewrite msum_insert, map_size_insert_None by done. rewrite IH.
    + rewrite (H i e) by apply lookup_insert. lia.
    + intros id e' He'. apply (H id). rewrite lookup_insert_ne; [done|]. intros ->. congruence.
Qed.

Lemma qdom_size (q : list Z) (m : gmap Z entry) : qdom q m -> size m = length q.
Proof.
  intros [Hn Hd]. rewrite <- (size_list_to_set (C := gset Z) q Hn).
  rewrite <- (size_dom m). f_equal. apply set_eq. intros x.
  rewrite elem_of_list_to_set, Hd. apply elem_of_dom.
Qed.

Section Stack.
  Context (cap md sz : Z) (Hsz : 0 < sz + md).
  Let n : nat := Z.to_nat (cap / (sz + md)).

  Lemma lru_get_queue s a r fuel : abs_ok cap md a -> qrel e_last cap md s a -> unif sz a ->
    a_adm a = AdmNone -> r_size r = sz -> req_ok md r -> (1 <= fuel)%nat ->
    exists s' a' , cache_get_base lru_ops fuel s r = Ok (s', bool_decide (r_id r ∈ q_q s)) /\
      abs_ok cap md a' /\ qrel e_last cap md s' a' /\ unif sz a' /\ a_adm a' = AdmNone /\
      q_q s' = take n (q_to_head (r_id r) (q_q s)).
  Proof.
    intros Hok HR Hun Had Hr Hrq Hf. destruct a as [t m ad]. cbn in Had. subst ad.
    pose proof HR as (H1 & H2 & H3). cbn in H1, H2, H3.
    assert (Hlen : (sz + md) * Z.of_nat (length (q_q s)) <= cap).
    { rewrite <- (qdom_size _ _ H2), <- msum_unif by exact Hun. apply Hok. }
    assert (Hn : (length (q_q s) <= n)%nat).
    { unfold n. assert (Z.of_nat (length (q_q s)) <= cap / (sz + md)); [|lia].
      apply Z.div_le_lower_bound; lia. }
    assert (Hcn : 0 <= cap -> Z.of_nat n = cap / (sz + md)).
    { intros. unfold n. rewrite Z2Nat.id; [done|]. apply Z.div_pos; lia. }
    assert (Hcap : 0 <= cap) by (destruct Hok as (? & _); cbn in *; lia).
    assert (Hmod : forall k, (sz + md) * k <= cap <-> k <= Z.of_nat n).
    { intros k. rewrite Hcn by done. split; intros.
      - apply Z.div_le_lower_bound; lia.
      - pose proof (Z.mul_div_le cap (sz + md) ltac:(lia)). nia. }
    unfold cache_get_base. change (op_tick lru_ops s) with (q_tick s). pose proof (qrel_tick _ _ _ _ _ HR) as HR0.
    pose proof (lru_sim cap md) as HL.
    destruct (m !! r_id r) as [e|] eqn:E.
    - assert (Hin : r_id r ∈ q_q s) by (apply H2; eauto).
      destruct (sim_find_hit _ _ _ _ _ _ HL _ _ _ _ r e Hok HR0 E) as (s' & Hfi & HR').
      cbn [op_find lru_ops op_tick] in *. rewrite Hfi. cbn.
      exists s', (mkAbs (t + 1) (<[r_id r:=touch t r e]> m) AdmNone). split; [by rewrite bool_decide_true|].
      split; [by apply abs_ok_touch|]. split; [done|]. split.
      { intros id e' He'. cbn in He'. destruct (decide (id = r_id r)) as [->|Hne].
        - rewrite lookup_insert in He'. injection He' as <-. cbn. by apply (Hun _ _ E).
        - rewrite lookup_insert_ne in He' by done. by apply (Hun _ _ He'). }
      split; [done|].
      unfold lru_find in Hfi. destruct (brel_find_hit _ _ _ _ _ _ _ _ (proj1 HR0) E) as (c' & Hc & _).
      rewrite Hc in Hfi. cbn in Hfi. injection Hfi as <-. cbn.
      rewrite take_ge; [done|]. unfold q_to_head. cbn.
      apply elem_of_list_split in Hin as (l1 & l2 & Hl). rewrite Hl in *.
      rewrite q_del_mid by apply H2. rewrite app_length in *. cbn in *. lia.
    - assert (Hin : r_id r ∉ q_q s).
      { intros Hin. apply H2 in Hin. rewrite E in Hin. by destruct Hin. }
      rewrite (bool_decide_false _ Hin).
      destruct (sim_find_miss _ _ _ _ _ _ HL _ _ r HR0 E) as (s1 & Hfi & HR1).
      assert (Hq1 : q_q s1 = q_q s).
      { cbn in Hfi. unfold lru_find in Hfi. rewrite (brel_find_miss _ _ _ _ _ _ (proj1 HR0) E) in Hfi.
        cbn in Hfi. by injection Hfi as <-. }
      rewrite Hfi. cbn [rbind].
      destruct (sim_can _ _ _ _ _ _ HL _ _ _ _ r HR1) as (s2 & Hca & HR2).
      assert (Hq2 : q_q s2 = q_q s).
      { cbn in Hca. unfold q_can_insert in Hca. destruct (cache_can_insert_default _ _) as [c2 b2].
        injection Hca as <- _. done. }
      rewrite Hca. cbn [admit fst snd andb rbind] in *.
      assert (Hq3 : q_to_head (r_id r) (q_q s) = r_id r :: q_q s).
      { unfold q_to_head. by rewrite q_del_notin. }
      rewrite Hq3.
      destruct (decide (r_size r + md <= cap)) as [Hle|Hgt].
      + rewrite bool_decide_true by done.
        assert (Hn1 : (1 <= n)%nat). { assert (1 <= Z.of_nat n); [|lia]. apply Hmod. lia. }
        assert (exists s3 m', evict_loop lru_ops fuel s2 r = Ok s3 /\
                  evict_to pol_lru cap md (r_size r + md) m m' /\
                  qrel e_last cap md s3 (mkAbs t m' AdmNone) /\
                  q_q s3 = take (n - 1) (q_q s)) as (s3 & m' & Hl & Hev & HR3 & Hq).
        { destruct fuel as [|fuel]; [lia|]. cbn [evict_loop].
          rewrite (sim_size _ _ _ _ _ _ HL _ _ HR2), (sim_md _ _ _ _ _ _ HL _ _ HR2),
            (sim_occ _ _ _ _ _ _ HL _ _ HR2). cbn [a_m].
          rewrite (msum_unif sz md m) by exact Hun. rewrite (qdom_size _ _ H2), Hr.
          destruct (decide _) as [Hfull|Hroom].
          - assert (Hlen' : length (q_q s) = n).
            { assert (~ (Z.of_nat (length (q_q s)) + 1 <= Z.of_nat n)); [|lia].
              rewrite <- Hmod. lia. }
            assert (Hne : m <> ∅).
            { intros ->. pose proof (qdom_size _ _ H2) as Hs. rewrite map_size_empty in Hs. lia. }
            destruct (qrel_evict_tail _ _ _ _ _ _ _ r Hok HR2 Hne) as (v & s3 & Ht & Hv & Hmin & Hev & HR3).
            cbn [op_evict lru_ops]. rewrite Hev. cbn [rbind].
            assert (Hq : q_q s3 = take (n - 1) (q_q s)).
            { specialize (Hev r). unfold q_evict_tail in Hev. destruct (last (q_q s2)) eqn:El; [|done].
              apply rbind_ok in Hev as (c3 & _ & [= <-]). cbn.
              rewrite Hq2 in *. rewrite <- Hlen'. destruct (q_q s) as [|zz q _] using rev_ind; [done|].
              rewrite removelast_last, app_length. cbn.
              replace (length q + 1 - 1)%nat with (length q) by lia. by rewrite take_app. }
            pose proof HR3 as (_ & H32 & _). cbn in H32.
            assert (Hlen3 : length (q_q s3) = (n - 1)%nat) by (rewrite Hq, take_length; lia).
            assert (Hfit : msum md (delete v m) + (r_size r + md) <= cap).
            { rewrite (msum_unif sz).
              - rewrite (qdom_size _ _ H32), Hlen3, Hr.
                assert ((sz + md) * Z.of_nat n <= cap) by (by apply Hmod). nia.
              - intros id e' [_ He']%lookup_delete_Some. by apply (Hun id). }
            exists s3, (delete v m). split_and!; auto.
            + destruct fuel; cbn [evict_loop]; rewrite (sim_size _ _ _ _ _ _ HL _ _ HR3),
                (sim_md _ _ _ _ _ _ HL _ _ HR3), (sim_occ _ _ _ _ _ _ HL _ _ HR3); cbn [a_m];
                rewrite decide_False by lia; done.
            + eapply (ev_more _ _ _ _ _ v); eauto.
              * rewrite (msum_unif sz md m) by exact Hun. rewrite (qdom_size _ _ H2). lia.
              * apply ev_done. lia.
          - exists s2, m. split_and!; auto.
            + apply ev_done. rewrite (msum_unif sz md m) by exact Hun. rewrite (qdom_size _ _ H2). lia.
            + rewrite Hq2, take_ge; [done|].
              assert (Z.of_nat (length (q_q s)) + 1 <= Z.of_nat n); [|lia].
              apply Hmod. lia. }
        rewrite Hl. cbn [rbind].
        destruct (evict_to_ok _ _ _ _ _ _ _ AdmNone Hev Hok) as (Hok3 & Hfit & Hsub & _).
        assert (Hnone : m' !! r_id r = None).
        { destruct (m' !! r_id r) eqn:E'; [|done].
          rewrite (lookup_weaken _ _ _ _ E' Hsub) in E. done. }
        destruct (sim_insert _ _ _ _ _ _ HL s3 t m' AdmNone r Hok3 HR3 Hnone Hrq Hfit) as (s4 & Hi & HR4).
        cbn [op_insert lru_ops] in *. rewrite Hi. cbn [rbind].
        exists s4, (mkAbs (t + 1) (<[r_id r := fresh t r]> m') AdmNone). split; [done|]. split; [by eapply abs_ok_fresh|]. split; [exact HR4|]. split_and!.
        * intros id e' He'. cbn in He'. destruct (decide (id = r_id r)) as [->|Hne].
          -- rewrite lookup_insert in He'. by injection He' as <-.
          -- rewrite lookup_insert_ne in He' by done. apply (Hun id). by eapply lookup_weaken.
        * done.
        * unfold q_insert in Hi. apply rbind_ok in Hi as (c4 & _ & [= <-]). cbn. rewrite Hq.
          destruct n as [|n']; [lia|]. cbn. by rewrite Nat.sub_0_r.
      + rewrite bool_decide_false by done.
        assert (Hn0 : n = 0%nat).
        { assert (~ (1 <= Z.of_nat n)); [|lia]. rewrite <- Hmod. lia. }
        eexists s2, (mkAbs t m AdmNone). split; [done|]. split_and!; auto.
        rewrite Hq2, Hn0. rewrite Hn0 in Hn. cbn. destruct (q_q s); [done|]. cbn in Hn. lia.
  Qed.

  (** Requests all of size [sz]. *)
  Lemma lru_stack_run rs : forall s a fuel st, abs_ok cap md a -> qrel e_last cap md s a -> unif sz a ->
    a_adm a = AdmNone -> Forall (fun r => r_size r = sz /\ req_ok md r) rs -> (1 <= fuel)%nat ->
    NoDup st -> q_q s = take n st ->
    exists s' os, run lru_ops fuel s (map CGet rs) = Ok (s', os) /\
      q_q s' = take n (fold_left recency_step (map r_id rs) st) /\
      (forall i r, rs !! i = Some r ->
         os !! i = Some (OBool (bool_decide (r_id r ∈ take n (fold_left recency_step (map r_id (take i rs)) st))))).
  Proof.
    induction rs as [|r rs IH]; intros s a fuel st Hok HR Hun Had Hrs Hf Hst Hq; cbn [map run].
    - eexists _, _. split; [done|]. split; [done|]. intros i r. by rewrite lookup_nil.
    - apply Forall_cons in Hrs as [[Hr1 Hr2] Hrs].
      destruct (lru_get_queue s a r fuel Hok HR Hun Had Hr1 Hr2 Hf) as (s1 & a1 & Hg & Hok1 & HR1 & Hun1 & Had1 & Hq1).
      cbn [step]. rewrite Hg. cbn [rbind].
      destruct (IH s1 a1 fuel (recency_step st (r_id r))) as (s2 & os & Hr & Hq2 & Hos); auto.
      { constructor; [rewrite elem_of_list_filter; naive_solver|by apply NoDup_filter]. }
      { rewrite Hq1, Hq, take_to_head by done. done. }
      rewrite Hr. cbn [rbind]. eexists _, _. split; [done|]. split; [done|].
      intros [|i] r' Hi; cbn in *.
      + injection Hi as <-. by rewrite Hq.
      + by apply Hos.
  Qed.
End Stack.

Lemma stack_pos_take x st k : (exists d, stack_pos x st = Some d /\ (d < k)%nat) <-> x ∈ take k st.
Proof.
  revert k. induction st as [|y st IH]; intros k; cbn.
  - rewrite take_nil. split; [by intros (d & ? & _)|by inversion 1].
  - destruct k as [|k]; cbn.
    + split; [intros (d & _ & ?); lia|by inversion 1].
    + rewrite elem_of_cons, <- IH. destruct (decide (y = x)) as [->|Hne].
      * split; [by left|]. intros _. eexists; split; [done|lia].
      * split.
        -- intros (d & Hd & Hk). apply fmap_Some in Hd as (d' & Hd' & ->). right. exists d'. split; [done|lia].
        -- intros [->|(d & Hd & Hk)]; [done|]. exists (S d). rewrite Hd. split; [done|lia].
Qed.

Lemma run_length {S} (O : ops S) fuel cs : forall s s' os, run O fuel s cs = Ok (s', os) -> length os = length cs.
Proof.
  induction cs as [|c cs IH]; intros s s' os H; cbn in H; [by injection H as _ <-|].
  apply rbind_ok in H as ([s1 o] & _ & H). apply rbind_ok in H as ([s2 os'] & H & [= _ <-]).
  cbn. f_equal. eauto.
Qed.
