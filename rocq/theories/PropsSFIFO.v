(** C59: segmented FIFO.  Without object metadata and without remove calls the
    code is exactly the queue machine of SpecSFIFO.v; with either of them it is
    not, and can crash (refutations at the end). *)
From stdpp Require Import gmap list numbers fin_maps.
From Verif Require Import Base Driver ModelQueue SpecApi SpecComp ModelSLRU SpecSLRU SLRUFacts
  PropsSLRU ModelSFIFO SpecSFIFO SFIFOFacts.
Open Scope Z_scope.
Local Arguments total_bytes : simpl never.

(** The limits of the segments: the capacity divided by their number, for each. *)
Definition shares (n : nat) (cap : Z) : list Z := replicate n (cap / Z.of_nat n).

Section Props.
  Context (n : nat) (cap : Z) (adm : admissioner).
  Context (Hn : (0 < n)%nat) (Hcap : 0 <= cap).
  Notation ms := (shares n cap).
  Notation rel := (srel ms cap).

  (** The state SFIFO_init builds. *)
  Definition sf0 : slru :=
    mkSL (cache_init cap 0 adm) (replicate n []) (replicate n 0) (replicate n 0) ms.
  Lemma sf_init_ok : sf_init false cap n adm = Ok sf0.
  Proof using Hn. unfold sf_init. rewrite decide_False by lia. done. Qed.
  Notation s0 := sf0.

  Lemma Hms : Forall (fun m => 0 <= m) ms.
  Proof using Hn Hcap.
    apply Forall_forall. intros m Hm. apply elem_of_replicate in Hm as [-> _].
    apply Z.div_pos; lia.
  Qed.
  Lemma Hlen : length ms = n. Proof. apply replicate_length. Qed.
  Lemma Hn' : (0 < length ms)%nat. Proof using Hn. by rewrite Hlen. Qed.

  Lemma qhit_limits segs id i sz : length segs = length ms -> Forall nonneg segs ->
    limits ms segs -> inseg segs i (id, sz) -> limits ms (queue_hit ms segs id i sz).
  Proof using Hn Hcap.
    intros Hl Hnn HL (l & El & Hin). assert (Hlt := lookup_lt_Some _ _ _ El). unfold queue_hit.
    assert (Hle := total_without id (segs !!! i) (seg_nonneg _ _ Hnn)). case_decide as Ht; [done|].
    apply (settle_limits ms Hms Hn'); [rewrite !insert_length; lia|]. intros j Hj Hd.
    rewrite list_lookup_total_insert_ne by done. destruct (decide (j = i)) as [->|Hd'].
    - rewrite list_lookup_total_insert by done. specialize (HL i Hj). lia.
    - rewrite list_lookup_total_insert_ne by done. by apply HL.
  Qed.

  (** The objects after a hit are among the objects before it. *)
  Lemma qhit_sub segs id i sz : length segs = length ms -> NoDup (concat segs).*1 ->
    inseg segs i (id, sz) -> exists out, concat segs ≡ₚ out ++ concat (queue_hit ms segs id i sz).
  Proof.
    intros Hl Hnd Hin. unfold queue_hit. destruct (decide (S i = length ms)) as [Ht|Ht].
    - by exists [].
    - destruct (hit_sub ms Hn' segs id i sz Hl Hnd Hin) as [out P]. exists out. rewrite P at 1.
      unfold spec_hit. by rewrite decide_False.
  Qed.

  Lemma top_ok a : good ms cap a -> length (ss_segs a) = length ms ->
    forall i, S i = length ms -> total_bytes (ss_segs a !!! i) <= ms !!! i.
  Proof using Hn Hcap.
    intros [GL GH] Hl i Hi. destruct i as [|i]; [|apply GL; lia].
    assert (n = 1%nat) as En by (rewrite <- Hlen; lia). clear GL.
    destruct (ss_segs a) as [|l [|]] eqn:E; try (cbn in Hl; rewrite Hlen in Hl; lia).
    unfold held in GH. cbn [concat] in GH. rewrite app_nil_r in GH. unfold shares. rewrite En.
    change (total_bytes l <= cap / Z.of_nat 1). change (Z.of_nat 1) with 1. rewrite Z.div_1_r. done.
  Qed.


  Lemma rel_hit s a r o : rel s a -> good ms cap a -> c_tbl (sl_c s) !! r_id r = Some o ->
    exists s', sf_find s r true = Ok (s', true) /\
      let a' := mkSS (queue_hit ms (ss_segs a) (r_id r) (Z.to_nat (o_p1 o)) (o_size o)) (ss_adm a) in
      rel s' a' /\ good ms cap a' /\ (length (concat (ss_segs a')) <= length (concat (ss_segs a)))%nat.
  Proof.
    intros H [HL HH] Ho. destruct (sf_hit ms cap Hms s a r o H (top_ok a (conj HL HH) (sr_len _ _ s a H)) Ho) as (s' & E & H').
    exists s'. split; [exact E|]. cbn zeta. split; [exact H'|].
    assert (Hin := srel_find _ _ s a _ _ H Ho).
    destruct (qhit_sub (ss_segs a) (r_id r) (Z.to_nat (o_p1 o)) (o_size o)) as [out P].
    - apply H.
    - apply H.
    - done.
    - split; [split; cbn [ss_segs]|cbn [ss_segs]; rewrite P, app_length; lia].
      + apply qhit_limits; try done; [apply H|by eapply srel_nonneg].
      + unfold held in *. rewrite (total_perm _ _ P), total_app in HH.
        assert (0 <= total_bytes out); [|lia]. apply total_nonneg.
        assert (A := sr_ok _ _ s a H). rewrite P in A. apply Forall_app in A as [A _].
        apply (Forall_impl _ _ _ A). unfold osz_ok. lia.
  Qed.

  Lemma rel_get s a r fuel : rel s a -> good ms cap a -> 0 < r_size r < 2 ^ 32 ->
    (length (concat (ss_segs a)) <= fuel)%nat ->
    exists s' a' b, cache_get_base sf_ops fuel s r = Ok (s', b) /\
      queue_get ms cap a r = (a', b) /\ rel s' a' /\ good ms cap a' /\
      (length (concat (ss_segs a')) <= S (length (concat (ss_segs a))))%nat.
  Proof.
    intros H G Hr Hf. unfold cache_get_base, queue_get.
    assert (Ht : rel (op_tick sf_ops s) a).
    { assert (Q := srel_adm ms cap s a (c_incr_nreq (sl_c s)) (ss_adm a) H).
      cbn in Q. rewrite (sr_adm _ _ s a H) in Q. specialize (Q eq_refl eq_refl eq_refl eq_refl eq_refl eq_refl).
      by destruct a. }
    set (s1 := op_tick sf_ops s) in *. rewrite (srel_locate ms cap s1 a _ Ht).
    cbn [op_find sf_ops]. destruct (c_tbl (sl_c s1) !! r_id r) as [o|] eqn:Eo.
    - destruct (rel_hit s1 a r o Ht G Eo) as (s' & -> & H' & G' & C). cbn [rbind].
      eexists s', _, true. split; [done|]. split; [done|]. split_and!; try done. lia.
    - assert (Ef : sf_find s1 r true = Ok (s1, false)) by (unfold sf_find; by rewrite Eo).
      rewrite Ef. cbn [rbind op_can_insert sf_ops]. unfold sf_can_insert, cache_can_insert_default.
      rewrite (sr_adm _ _ s1 a Ht), (sr_md _ _ s1 a Ht), (sr_cap _ _ s1 a Ht), Z.add_0_r.
      destruct (admit (ss_adm a) r) as [adm' [|]].
      + assert (Ha : rel (sl_set_c s1 (c_set_adm (sl_c s1) adm')) (mkSS (ss_segs a) adm')).
        { apply srel_adm; done. }
        destruct (decide (r_size r > cap)) as [Hbig|Hbig].
        * rewrite (bool_decide_eq_false_2 (r_size r <= cap)) by lia. cbn [andb rbind].
          eexists _, _, false. split; [done|]. split; [done|]. split_and!; try done. cbn. lia.
        * rewrite (bool_decide_eq_true_2 (r_size r <= cap)) by lia. cbn [andb].
          cbn [sl_max sl_set_c]. rewrite (sr_max _ _ s1 a Ht).
          unfold at_. destruct (lookup_lt_is_Some_2 ms 0%nat Hn') as [m0 Em]. rewrite Em. cbn [rbind].
          rewrite (list_lookup_total_correct _ _ _ Em). cbn [c_md c_set_adm].
          rewrite (sr_md _ _ s1 a Ht), Z.add_0_r.
          case_bool_decide as Hm.
          -- destruct (sf_evict_ok_loop ms cap (length (concat (ss_segs a))) _ _ r fuel Ha)
               as (s2 & E2 & H2 & Hh); [lia|done|done|]. cbn [ss_segs ss_adm] in *.
             rewrite E2. cbn [rbind].
             set (segs2 := make_room _ _ _ _) in *.
             assert (Hnot : c_tbl (sl_c s2) !! r_id r = None).
             { destruct (c_tbl (sl_c s2) !! r_id r) as [o2|] eqn:E3; [|done]. exfalso.
               apply (srel_find ms cap s2 _ _ _ H2) in E3. apply inseg_concat in E3. cbn in E3.
               assert (Hsub : forall k segs y, y ∈ concat (make_room k cap (r_size r) segs) -> y ∈ concat segs).
               { clear. induction k as [|k IH]; intros segs y; cbn; [done|]. case_decide; [|done].
                 intros Hy. apply IH in Hy.
                 destruct (evict_low_spec segs) as [(_ & _ & Ee)|(i & l & x & A & _ & Ee & _)];
                   rewrite Ee in Hy; [done|].
                 assert (P := concat_pop segs i l [x] []). rewrite !app_nil_r in P.
                 rewrite (P A). apply elem_of_app. by right. }
               apply Hsub in E3. apply (srel_none ms cap s1 a _ Ht Eo).
               by apply (elem_of_list_fmap_1 fst) in E3. }
             cbn [op_insert sf_ops].
             destruct (sf_insert_ok ms cap s2 _ r H2 Hn' Hnot Hr) as (s3 & E3 & H3).
             { by rewrite (list_lookup_total_correct _ _ _ Em). }
             { cbn [ss_segs]. lia. }
             rewrite E3. cbn [rbind ss_segs ss_adm] in *. eexists s3, _, false.
             split; [done|]. split; [done|]. split; [exact H3|].
             assert (L2 : length segs2 = length ms) by (apply (sr_len _ _ _ _ H2)).
             assert (P := place_perm ms Hn' segs2 (r_id r) (r_size r) L2).
             split; [split; cbn [ss_segs]|].
             ++ apply (place_limits ms Hn'); [done|]. apply (room_limits ms cap Hn'); [by eapply srel_nonneg|apply G].
             ++ unfold held in *. rewrite (total_perm _ _ P), total_cons. cbn. lia.
             ++ cbn [ss_segs]. rewrite P. cbn [length]. apply le_n_S.
                assert (Hc : forall k segs, (length (concat (make_room k cap (r_size r) segs)) <= length (concat segs))%nat).
                { clear. induction k as [|k IH]; intros segs; cbn; [done|]. case_decide; [|done].
                  etransitivity; [apply IH|].
                  destruct (evict_low_spec segs) as [(_ & _ & ->)|(i & l & x & A & _ & -> & _)]; [done|].
                  assert (P := concat_pop segs i l [x] []). rewrite !app_nil_r in P.
                  rewrite (P A), app_length. lia. }
                apply Hc.
          -- eexists _, _, false. split; [done|]. split; [done|]. split_and!; try done. cbn. lia.
      + cbn [andb rbind]. eexists _, _, false. split; [done|]. split; [done|].
        split; [apply srel_adm; done|]. split; [done|]. cbn. lia.
  Qed.

  Lemma rel_step s a c fuel : rel s a -> good ms cap a -> slru_call ms c ->
    (length (concat (ss_segs a)) <= fuel)%nat ->
    exists s' a' o, step sf_ops fuel s c = Ok (s', o) /\ queue_call ms cap a c = (a', o) /\
      rel s' a' /\ good ms cap a' /\ (length (concat (ss_segs a')) <= S (length (concat (ss_segs a))))%nat.
  Proof.
    intros H G Hc Hf. destruct c as [r|r u|r|id|r|r]; cbn [slru_call] in Hc; try done;
      cbn [step queue_call spec_call].
    - destruct (rel_get s a r fuel H G Hc Hf) as (s' & a' & b & -> & -> & H' & G' & C).
      cbn [rbind]. eexists s', a', _. done.
    - cbn [op_find sf_ops]. destruct u; cbn [spec_call]; rewrite (srel_locate ms cap s a _ H);
        destruct (c_tbl (sl_c s) !! r_id r) as [o|] eqn:Eo.
      + destruct (rel_hit s a r o H G Eo) as (s' & -> & H' & G' & C). cbn [rbind].
        eexists s', _, _. split; [done|]. split; [done|]. split_and!; try done. lia.
      + unfold sf_find. rewrite Eo. cbn [rbind]. eexists s, a, _. split_and!; try done; lia.
      + unfold sf_find. rewrite Eo. cbn [rbind]. eexists s, a, _. split_and!; try done; lia.
      + unfold sf_find. rewrite Eo. cbn [rbind]. eexists s, a, _. split_and!; try done; lia.
    - rewrite (srel_locate ms cap s a _ H). cbn [op_find op_occupied op_md op_size op_insert sf_ops].
      unfold sf_find. destruct (c_tbl (sl_c s) !! r_id r) as [o|] eqn:Eo; cbn [rbind].
      + eexists s, a, _. split_and!; try done. lia.
      + rewrite (sr_occ _ _ s a H), (sr_md _ _ s a H), (sr_cap _ _ s a H), Z.add_0_r.
        case_decide as Hb.
        * eexists s, a, _. split_and!; try done. lia.
        * destruct Hc as [Hc1 Hc2].
          destruct (sf_insert_ok ms cap s a r H Hn' Eo Hc1 Hc2 ltac:(lia)) as (s3 & E3 & H3).
          rewrite E3. cbn [rbind]. eexists s3, _, _. split; [done|]. split; [done|]. split; [exact H3|].
          assert (P := place_perm ms Hn' (ss_segs a) (r_id r) (r_size r) (sr_len _ _ _ _ H)).
          destruct G as [GL GH]. split; [split; cbn [ss_segs]|].
          -- apply (place_limits ms Hn'); [apply H|done].
          -- unfold held in *. rewrite (total_perm _ _ P), total_cons. cbn. lia.
          -- cbn [ss_segs]. rewrite P. done.
    - cbn [op_nobj op_evict sf_ops]. rewrite (sr_nobj _ _ s a H). case_decide as Hz.
      + assert (E0 : concat (ss_segs a) = []) by (destruct (concat (ss_segs a)); [done|cbn in Hz; lia]).
        destruct (evict_low_spec (ss_segs a)) as [(_ & _ & ->)|(i & l & x & A & _)].
        * eexists s, _, _. split; [done|]. split; [done|]. split; [by apply (rel_eta ms cap)|].
          split; [done|]. cbn. lia.
        * exfalso. assert (P := concat_pop _ i l [x] [] A). rewrite E0 in P.
          by apply Permutation_nil in P.
      + assert (Hne : concat (ss_segs a) <> []) by (intros E; rewrite E in Hz; cbn in Hz; lia).
        destruct (sf_evict_ok ms cap s a r H Hne) as (s1 & -> & H1). cbn [rbind].
        eexists s1, _, _. split; [done|]. split; [done|]. split; [exact H1|].
        assert (Hnn := srel_nonneg ms cap s a H). destruct G as [GL GH]. split; [split|]; cbn.
        * by apply (evict_limits ms Hn').
        * etransitivity; [by apply (evict_held ms Hn')|done].
        * assert (C := evict_low_count _ Hne). lia.
    - cbn [op_nobj op_to_evict sf_ops]. rewrite (sr_nobj _ _ s a H). case_decide as Hz.
      + assert (E0 : concat (ss_segs a) = []) by (destruct (concat (ss_segs a)); [done|cbn in Hz; lia]).
        destruct (evict_low_spec (ss_segs a)) as [(_ & -> & _)|(i & l & x & A & _)].
        * eexists s, a, _. split_and!; try done. lia.
        * exfalso. assert (P := concat_pop _ i l [x] [] A). rewrite E0 in P.
          by apply Permutation_nil in P.
      + unfold sf_to_evict. rewrite (sf_victim ms cap s a H). cbn [rbind].
        eexists s, a, _. split_and!; try done. lia.
  Qed.

  Lemma rel_run cs : forall s a fuel, rel s a -> good ms cap a -> Forall (slru_call ms) cs ->
    (length (concat (ss_segs a)) + length cs <= fuel)%nat ->
    exists s' os a', run sf_ops fuel s cs = Ok (s', os) /\ queue_run ms cap a cs = (a', os) /\
      rel s' a' /\ good ms cap a'.
  Proof.
    induction cs as [|c cs IH]; intros s a fuel H G Hc Hf; cbn [run queue_run].
    - eexists s, [], a. done.
    - apply Forall_cons in Hc as [Hc Hcs]. cbn [length] in Hf.
      destruct (rel_step s a c fuel H G Hc ltac:(lia)) as (s1 & a1 & o & -> & -> & H1 & G1 & C).
      cbn [rbind]. destruct (IH s1 a1 fuel H1 G1 Hcs ltac:(lia)) as (s2 & os & a2 & -> & -> & H2 & G2).
      cbn [rbind]. eexists s2, _, a2. done.
  Qed.

  Lemma rel_init : rel s0 (spec_start ms adm).
  Proof.
    unfold sf0, spec_start. rewrite Hlen. split; cbn [ss_segs ss_adm sl_max sl_q sl_nb sl_no sl_c cache_init
      c_tbl c_occ c_nobj c_md c_size c_adm]; unfold held; rewrite ?concat_nils; try done.
    - by rewrite Hlen, replicate_length.
    - by rewrite fmap_replicate.
    - by rewrite fmap_replicate.
    - by rewrite fmap_replicate.
    - constructor.
    - intros id sz i. split.
      + intros (l & Hl & Hy). apply lookup_replicate in Hl as [-> _]. by apply elem_of_nil in Hy.
      + intros (o & Ho & _). by rewrite lookup_empty in Ho.
  Qed.

  Lemma good_init : good ms cap (spec_start ms adm).
  Proof.
    split; cbn [spec_start ss_segs].
    - intros i Hi. rewrite list_lookup_total_alt.
      destruct (replicate (length ms) ([] : seg) !! i) as [l|] eqn:E.
      + apply lookup_replicate in E as [-> _]. apply (ms_nonneg ms Hms).
      + apply (ms_nonneg ms Hms).
    - unfold held. rewrite concat_nils. done.
  Qed.

  (** Every program runs to completion, and the code answers and ends up as the
      queue machine does. *)
  Theorem C59_segments_partial cs fuel : Forall (slru_call ms) cs -> (length cs <= fuel)%nat ->
    exists s os, run sf_ops fuel s0 cs = Ok (s, os) /\
      queue_run ms cap (spec_start ms adm) cs = (mkSS (contents s) (c_adm (sl_c s)), os).
  Proof.
    intros Hc Hf.
    destruct (rel_run cs _ _ fuel rel_init good_init Hc) as (s & os & a & E1 & E2 & H & _).
    { cbn [spec_start ss_segs]. rewrite concat_nils. cbn. lia. }
    exists s, os. split; [exact E1|]. rewrite E2, (rel_contents ms cap s a H), (sr_adm _ _ s a H).
    by destruct a.
  Qed.

  Lemma reach s : comp_reaches sf_ops s0 (slru_call ms) s -> exists a, rel s a /\ good ms cap a.
  Proof.
    intros (cs & fuel & os & Hc & Hf & E).
    destruct (rel_run cs _ _ fuel rel_init good_init Hc) as (s' & os' & a & E1 & E2 & H & G).
    { cbn [spec_start ss_segs]. rewrite concat_nils. cbn. lia. }
    rewrite E in E1. injection E1 as <- <-. by exists a.
  Qed.

  (** The counters describe the contents; every segment but the lowest is
      within its limit, and the whole within the capacity. *)
  Theorem C59_counters_partial s : comp_reaches sf_ops s0 (slru_call ms) s ->
    sl_nb s = (total_bytes : seg -> Z) <$> contents s /\
    sl_no s = (fun l : seg => Z.of_nat (length l)) <$> contents s /\
    op_occupied sf_ops s = total_bytes (concat (contents s)) /\
    op_nobj sf_ops s = Z.of_nat (length (concat (contents s))) /\
    op_occupied sf_ops s <= cap /\
    NoDup (concat (contents s)).*1 /\
    (forall id, resident sf_ops s id <-> id ∈ (concat (contents s)).*1) /\
    (forall i b m, (0 < i)%nat -> sl_nb s !! i = Some b -> ms !! i = Some m -> b <= m).
  Proof.
    intros Hs. destruct (reach s Hs) as (a & H & [GL GH]). rewrite (rel_contents ms cap s a H).
    split_and!; try apply H.
    - cbn. by rewrite (sr_occ _ _ s a H).
    - intros id. unfold resident. cbn [op_find sf_ops]. split.
      + intros HF. destruct (HF (mkReq id 0 0 0 0) eq_refl) as (s' & E). unfold sf_find in E.
        cbn [r_id] in E. destruct (c_tbl (sl_c s) !! id) as [o|] eqn:Eo; [|done].
        apply (srel_find ms cap s a _ _ H), inseg_concat in Eo.
        by apply (elem_of_list_fmap_1 fst) in Eo.
      + intros Hid r <-. unfold sf_find. destruct (c_tbl (sl_c s) !! r_id r) as [o|] eqn:Eo.
        * by exists s.
        * by apply (srel_none ms cap s a _ H) in Eo.
    - intros i b m Hi Eb Em. specialize (GL i Hi). rewrite (list_lookup_total_correct _ _ _ Em) in GL.
      rewrite (sr_nb _ _ s a H), list_lookup_fmap in Eb.
      destruct (ss_segs a !! i) as [l|] eqn:El; [|done]. cbn in Eb. injection Eb as <-.
      by rewrite (list_lookup_total_correct _ _ _ El) in GL.
  Qed.

  (** After a hit, the segment that now holds the object is within its limit. *)
  Theorem C59_promoted_within_partial s r fuel s' :
    comp_reaches sf_ops s0 (slru_call ms) s -> (1 < n)%nat ->
    cache_get_base sf_ops fuel s r = Ok (s', true) ->
    exists i l m, contents s' !! i = Some l /\ r_id r ∈ l.*1 /\ ms !! i = Some m /\
      sl_nb s' !! i = Some (total_bytes l) /\ total_bytes l <= m.
  Proof.
    intros Hs H2 E. destruct (reach s Hs) as (a & H & G). unfold cache_get_base in E.
    assert (Ht : rel (op_tick sf_ops s) a).
    { assert (Q := srel_adm ms cap s a (c_incr_nreq (sl_c s)) (ss_adm a) H).
      cbn in Q. rewrite (sr_adm _ _ s a H) in Q. specialize (Q eq_refl eq_refl eq_refl eq_refl eq_refl eq_refl).
      by destruct a. }
    set (s1 := op_tick sf_ops s) in *. cbn [op_find sf_ops] in E.
    destruct (c_tbl (sl_c s1) !! r_id r) as [o|] eqn:Eo.
    2:{ exfalso. unfold sf_find in E. rewrite Eo in E. cbn [rbind] in E.
        destruct (op_can_insert sf_ops s1 r) as [[s2 [|]]|]; cbn [rbind] in E; try done.
        destruct (evict_loop sf_ops fuel s2 r) as [s3|]; cbn [rbind] in E; [|done].
        destruct (op_insert sf_ops s3 r) as [s4|]; cbn [rbind] in E; done. }
    destruct (rel_hit s1 a r o Ht G Eo) as (s2 & E2 & H2' & [GL' _] & _).
    rewrite E2 in E. cbn [rbind] in E. injection E as <-. rewrite (rel_contents ms cap s2 _ H2').
    cbn [ss_segs] in *. set (i := Z.to_nat (o_p1 o)) in *.
    assert (Hin := srel_find ms cap s1 a _ _ Ht Eo). fold i in Hin.
    destruct Hin as (l0 & El0 & Hl0). assert (Hlt := lookup_lt_Some _ _ _ El0).
    assert (Hlen0 := Hlen). assert (Hlen := sr_len _ _ _ _ H). assert (Hlen' := sr_len _ _ _ _ H2'). cbn [ss_segs] in Hlen'.
    set (segs' := queue_hit ms (ss_segs a) (r_id r) i (o_size o)) in *.
    assert (exists j, (j < length ms)%nat /\ (r_id r, o_size o) ∈ segs' !!! j /\
              total_bytes (segs' !!! j) <= ms !!! j) as (j & Hj & EM & Hle).
    { unfold segs', queue_hit. unfold segs', queue_hit in GL'. case_decide as Hd.
      - exists i. split; [lia|]. split; [by rewrite (list_lookup_total_correct _ _ _ El0)|].
        apply GL'. rewrite Hlen0 in Hd. lia.
      - destruct (settle_head ms Hms (S i) (<[S i:=(r_id r, o_size o) :: ss_segs a !!! S i]>
                    (<[i:=without (r_id r) (ss_segs a !!! i)]> (ss_segs a))) (r_id r, o_size o)
                    (ss_segs a !!! S i)) as (j & M & Hj & E1 & E3).
        + rewrite !insert_length. lia.
        + by rewrite list_lookup_total_insert by (rewrite insert_length; lia).
        + assert (A := sr_ok _ _ s1 a Ht). rewrite Forall_forall in A.
          assert (osz_ok ms (r_id r, o_size o)) as (_ & ? & _); [|done]. apply A.
          eapply inseg_concat. exists l0. done.
        + rewrite !insert_length in Hj. exists j. split; [lia|]. split; [|done]. rewrite E1. left. }
    destruct (lookup_lt_is_Some_2 ms j Hj) as [m Em].
    assert (El : segs' !! j = Some (segs' !!! j)) by (apply list_lookup_lookup_total_lt; lia).
    exists j, (segs' !!! j), m. split; [exact El|]. split; [by apply (elem_of_list_fmap_1 fst) in EM|]. split; [done|].
    rewrite (list_lookup_total_correct _ _ _ Em) in Hle. split; [|done].
    rewrite (sr_nb _ _ _ _ H2'), list_lookup_fmap. cbn [ss_segs]. by rewrite El.
  Qed.

  (** The victim is the least recent object of the lowest non-empty segment;
      evict removes exactly it, and to_evict announces it. *)
  Theorem C59_victim_partial s r : comp_reaches sf_ops s0 (slru_call ms) s ->
    concat (contents s) <> [] ->
    exists i l v sz s', contents s !! i = Some (l ++ [(v, sz)]) /\
      (forall j, (j < i)%nat -> contents s !! j = Some []) /\
      op_to_evict sf_ops s r = Ok (s, Some v) /\
      op_evict sf_ops s r = Ok s' /\ contents s' = <[i := l]> (contents s).
  Proof.
    intros Hs Hne. destruct (reach s Hs) as (a & H & _). rewrite (rel_contents ms cap s a H) in *.
    destruct (evict_low_spec (ss_segs a)) as [(A & _)|(i & l & [v sz] & A & B & C & D)].
    { exfalso. apply Hne. clear -A. induction A as [|l segs -> A IH]; done. }
    destruct (sf_evict_ok ms cap s a r H Hne) as (s1 & E1 & H1).
    exists i, l, v, sz, s1. split; [exact A|]. split; [exact D|]. split.
    - cbn [op_to_evict sf_ops]. unfold sf_to_evict. rewrite (sf_victim ms cap s a H), B. done.
    - split; [exact E1|]. rewrite (rel_contents ms cap s1 _ H1). exact C.
  Qed.
End Props.

(** * Examples and refutations *)

Definition sgs (id sz : Z) : call := CGet (mkReq id sz 0 0 0).
Definition sf_start (md : bool) (cap : Z) (n : nat) : slru :=
  match sf_init md cap n AdmNone with Ok s => s | Err _ => mkSL (cache_init 0 0 AdmNone) [] [] [] [] end.

(** Three segments of 2 bytes: hits climb to the top, a hit at the top moves
    nothing, overflow moves down, and the overflow of segment 0 is evicted. *)
Definition sf_prog : list call :=
  [sgs 1 1; sgs 1 1; sgs 1 1; sgs 2 1; sgs 2 1; sgs 2 1; sgs 1 1; sgs 3 1; sgs 3 1; sgs 3 1;
   CToEvict (mkReq 0 0 0 0 0); sgs 4 2; sgs 5 1; sgs 5 1].
Example C59_segments_ex : sf_init false 6 3 AdmNone = Ok (sf_start false 6 3) /\
  Forall (slru_call (shares 3 6)) sf_prog /\
  ex_contents (run sf_ops 14 (sf_start false 6 3) (take 7 sf_prog))
  = Some ([[]; []; [2; 1]], [0; 0; 2],
          [OBool false; OBool true; OBool true; OBool false; OBool true; OBool true; OBool true]) /\
  ex_contents (run sf_ops 14 (sf_start false 6 3) sf_prog)
  = Some ([[4]; [2; 1]; [5; 3]], [2; 2; 2],
          [OBool false; OBool true; OBool true; OBool false; OBool true; OBool true; OBool true;
           OBool false; OBool true; OBool true; OVictim (Some 1); OBool false; OBool false; OBool true]).
Proof.
  split; [done|]. split; [|split; vm_compute; reflexivity].
  repeat (apply Forall_cons; split; [cbn; lia|]). constructor.
Qed.

(** The same requests, hitting at the top, order the objects differently in
    segmented LRU: the cache is not one. *)
Theorem C59_not_lru : exists cs s os s' os', Forall (slru_call (shares 2 4)) cs /\
  run sf_ops 9 (sf_start false 4 2) cs = Ok (s, os) /\
  run slru_ops 9 (slru_init false 4 (slru_default_max 2 4) AdmNone) cs = Ok (s', os') /\
  contents s = [[]; [(2, 1); (1, 1)]] /\ contents s' = [[]; [(1, 1); (2, 1)]].
Proof.
  exists [sgs 1 1; sgs 1 1; sgs 2 1; sgs 2 1; sgs 1 1]. eexists _, _, _, _.
  split; [repeat (apply Forall_cons; split; [cbn; lia|]); constructor|].
  split; [vm_compute; reflexivity|]. split; [vm_compute; reflexivity|]. split; vm_compute; reflexivity.
Qed.

(** remove leaves the counters as they were ... *)
Theorem C59_remove_counters_refuted : exists s os,
  run sf_ops 5 (sf_start false 8 2) [sgs 1 1; CRemove 1] = Ok (s, os) /\
  contents s = [[]; []] /\ sl_nb s = [1; 0] /\ sl_no s = [1; 0].
Proof. eexists _, _. split; [vm_compute; reflexivity|]. split_and!; vm_compute; reflexivity. Qed.

(** ... so that to_evict announces nothing where evict evicts an object ... *)
Theorem C59_to_evict_refuted : exists s os s',
  run sf_ops 5 (sf_start false 4 2) [sgs 1 2; CRemove 1; sgs 2 2] = Ok (s, os) /\
  op_to_evict sf_ops s (mkReq 0 0 0 0 0) = Ok (s, None) /\
  op_evict sf_ops s (mkReq 0 0 0 0 0) = Ok s' /\
  contents s = [[]; [(2, 2)]] /\ contents s' = [[]; []].
Proof.
  eexists _, _, _. split; [vm_compute; reflexivity|]. split; [vm_compute; reflexivity|].
  split; [vm_compute; reflexivity|]. split; vm_compute; reflexivity.
Qed.

(** ... and a later get reads fifo_tails[-1]. *)
Theorem C59_remove_crash_refuted :
  run sf_ops 8 (sf_start false 4 2)
    [sgs 1 2; CRemove 1; sgs 2 2; CRemove 2; sgs 3 2; CRemove 3; sgs 4 2; sgs 4 2] = Err OutOfBounds.
Proof. vm_compute. reflexivity. Qed.

(** An insertion may push segment 0 above its limit. *)
Theorem C59_segment0_over_refuted : exists s os,
  run sf_ops 5 (sf_start false 8 2) [sgs 1 3; sgs 2 3; sgs 3 2] = Ok (s, os) /\
  contents s = [[(3, 2); (1, 3)]; [(2, 3)]] /\ sl_nb s = [5; 3].
Proof. eexists _, _. split; [vm_compute; reflexivity|]. split; vm_compute; reflexivity. Qed.

(** With metadata charged, SFIFO_cool forgets it: the counters drift. *)
Theorem C59_metadata_refuted : exists s os,
  run sf_ops 20 (sf_start true 80 2)
    [sgs 1 1; sgs 1 1; sgs 2 1; sgs 2 1; sgs 3 1; sgs 3 1] = Ok (s, os) /\
  sl_q s = [[3; 2; 1]; []] /\ sl_nb s = [3; 48].
Proof. eexists _, _. split; [vm_compute; reflexivity|]. split; vm_compute; reflexivity. Qed.

(** With n-seg=0 the constructor divides by zero. *)
Theorem C59_no_segments_refuted cap adm md : sf_init md cap 0 adm = Err DivByZero.
Proof. done. Qed.
