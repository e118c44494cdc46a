(** C15: segmented LRU.  Without object metadata and without remove calls the
    code is exactly the segment machine of SpecSLRU.v; with either of them, or
    with empty objects, it is not, and can crash (refutations at the end). *)
From stdpp Require Import gmap list numbers fin_maps.
From Verif Require Import Base Driver ModelQueue SpecApi SpecComp ModelSLRU SpecSLRU SLRUFacts.
Open Scope Z_scope.
Local Arguments total_bytes : simpl never.

(** The client calls: get (sizes in [1, 2^32)), find, evict, to_evict, and
    insert of objects not larger than segment 0 (what SLRU_can_insert checks). *)
Definition slru_call (ms : list Z) (c : call) : Prop :=
  match c with
  | CGet r => 0 < r_size r < 2 ^ 32
  | CInsert r => 0 < r_size r < 2 ^ 32 /\ r_size r <= ms !!! O
  | CRemove _ => False
  | _ => True
  end.

(** The objects of each segment with their sizes, most recent first. *)
Definition contents (s : slru) : list seg :=
  (fun q : list Z => (fun id => (id, match c_tbl (sl_c s) !! id with Some o => o_size o | None => 0 end)) <$> q)
    <$> sl_q s.

Lemma total_without id l : nonneg l -> total_bytes (without id l) <= total_bytes l.
Proof.
  induction 1 as [|x l Hx H IH]; [done|]. unfold without in *. rewrite filter_cons.
  case_decide; rewrite ?total_cons; lia.
Qed.

Section Props.
  Context (ms : list Z) (cap : Z) (adm : admissioner).
  Context (Hms : Forall (fun m => 0 <= m) ms) (Hn : (0 < length ms)%nat) (Hcap : 0 <= cap).
  Notation rel := (srel ms cap).
  Notation s0 := (slru_init false cap ms adm).

  Lemma rel_contents s a : rel s a -> contents s = ss_segs a.
  Proof.
    intros H. unfold contents. rewrite (sr_q _ _ s a H), <- list_fmap_compose.
    apply list_eq. intros i. rewrite list_lookup_fmap. destruct (ss_segs a !! i) as [l|] eqn:E; [|done].
    cbn. f_equal. rewrite <- list_fmap_compose. transitivity (id <$> l); [|apply list_fmap_id].
    apply list_fmap_ext. intros j [id sz] Hj. cbn.
    assert (Hin : inseg (ss_segs a) i (id, sz)) by (exists l; split; [done|by eapply elem_of_list_lookup_2]).
    apply (sr_tbl _ _ s a H) in Hin as (o & -> & -> & _). done.
  Qed.

  Lemma rel_eta s a : rel s a -> rel s (mkSS (ss_segs a) (ss_adm a)).
  Proof. by destruct a. Qed.

  Definition limits (segs : list seg) : Prop :=
    forall i, (0 < i)%nat -> total_bytes (segs !!! i) <= ms !!! i.

  Lemma settle_limits k : forall segs,
    (k < length segs)%nat ->
    (forall i, (0 < i)%nat -> i <> k -> total_bytes (segs !!! i) <= ms !!! i) ->
    limits (settle ms k segs).
  Proof.
    induction k as [|k IH]; intros segs Hk H.
    - intros i Hi. rewrite settle_above by lia. apply H; lia.
    - assert (B := fit_le (ms !!! S k) (segs !!! S k) (ms_nonneg ms Hms (S k))).
      assert (A := fit_app (ms !!! S k) (segs !!! S k)). rewrite settle_eq.
      destruct (fit _ _) as [K [|y o]]; cbn [fst snd] in *.
      + rewrite app_nil_r in A. intros i Hi. destruct (decide (i = S k)) as [->|Hd].
        * by rewrite <- A.
        * by apply H.
      + apply IH; [rewrite !insert_length; lia|]. intros i Hi Hik.
        rewrite list_lookup_total_insert_ne by done. destruct (decide (i = S k)) as [->|Hd].
        * by rewrite list_lookup_total_insert.
        * rewrite list_lookup_total_insert_ne by done. by apply H.
  Qed.

  Lemma seg_nonneg segs i : Forall nonneg segs -> nonneg (segs !!! i).
  Proof.
    intros H. destruct (segs !! i) as [l|] eqn:E.
    - rewrite (list_lookup_total_correct _ _ _ E). rewrite Forall_lookup in H. by apply (H i).
    - rewrite list_lookup_total_alt, E. constructor.
  Qed.

  Lemma hit_limits segs id i sz : length segs = length ms -> Forall nonneg segs ->
    limits segs -> inseg segs i (id, sz) -> limits (spec_hit ms segs id i sz).
  Proof.
    intros Hl Hnn HL (l & El & Hin). assert (Hlt := lookup_lt_Some _ _ _ El). unfold spec_hit.
    assert (Hle := total_without id (segs !!! i) (seg_nonneg _ _ Hnn)). case_decide as Ht.
    - intros j Hj. destruct (decide (j = i)) as [->|Hd].
      + rewrite list_lookup_total_insert by done. rewrite total_cons. cbn [snd].
        specialize (HL i Hj). rewrite (list_lookup_total_correct _ _ _ El) in *.
        assert (total_bytes (without id l) + sz <= total_bytes l); [|lia].
        assert (Hnl : nonneg l) by (rewrite Forall_lookup in Hnn; by apply (Hnn i)).
        clear -Hin Hnl. apply elem_of_list_split in Hin as (l1 & l2 & ->).
        unfold without. rewrite filter_app, filter_cons, decide_False by (intros E; by apply E).
        apply Forall_app in Hnl as [A B]. apply Forall_cons in B as [B C].
        assert (D1 := total_without id l1 A). assert (D2 := total_without id l2 C). unfold without in *.
        rewrite !total_app, total_cons. cbn [snd]. lia.
      + rewrite list_lookup_total_insert_ne by done. by apply HL.
    - apply settle_limits; [rewrite !insert_length; lia|]. intros j Hj Hd.
      rewrite list_lookup_total_insert_ne by done. destruct (decide (j = i)) as [->|Hd'].
      + rewrite list_lookup_total_insert by done. specialize (HL i Hj). lia.
      + rewrite list_lookup_total_insert_ne by done. by apply HL.
  Qed.

  Lemma evict_limits segs : Forall nonneg segs -> limits segs -> limits (evict_low segs).
  Proof.
    intros Hnn HL. destruct (evict_low_spec segs) as [(_ & _ & ->)|(i & l & x & A & _ & -> & _)]; [done|].
    intros j Hj. assert (Hlt := lookup_lt_Some _ _ _ A). destruct (decide (j = i)) as [->|Hd].
    - rewrite list_lookup_total_insert by done. specialize (HL i Hj).
      rewrite (list_lookup_total_correct _ _ _ A), total_snoc in HL.
      rewrite Forall_lookup in Hnn. apply Hnn, Forall_app in A as [_ A].
      apply Forall_cons in A as [? _]. lia.
    - rewrite list_lookup_total_insert_ne by done. by apply HL.
  Qed.

  Lemma evict_nonneg segs : Forall nonneg segs -> Forall nonneg (evict_low segs).
  Proof.
    intros Hnn. destruct (evict_low_spec segs) as [(_ & _ & ->)|(i & l & x & A & _ & -> & _)]; [done|].
    apply Forall_insert; [done|]. rewrite Forall_lookup in Hnn. apply Hnn, Forall_app in A. tauto.
  Qed.

  Lemma evict_held segs : Forall nonneg segs -> held (evict_low segs) <= held segs.
  Proof.
    intros Hnn. destruct (evict_low_spec segs) as [(_ & _ & ->)|(i & l & x & A & _ & -> & _)]; [done|].
    unfold held. assert (P := concat_pop segs i l [x] []). rewrite !app_nil_r in P.
    rewrite (total_perm _ _ (P A)), total_app.
    rewrite Forall_lookup in Hnn. apply Hnn, Forall_app in A as [_ A]. apply total_nonneg in A. lia.
  Qed.

  Lemma room_limits n sz : forall segs, Forall nonneg segs -> limits segs -> limits (make_room n cap sz segs).
  Proof.
    induction n as [|n IH]; intros segs Hnn HL; cbn; [done|]. case_decide; [|done].
    apply IH; [by apply evict_nonneg|by apply evict_limits].
  Qed.

  Lemma place_limits segs id sz : length segs = length ms -> limits segs ->
    limits (place ms segs id sz).
  Proof.
    intros Hl HL i Hi. unfold place. destruct (with_room ms segs sz) as [j|] eqn:E; cbn.
    - apply with_room_lt in E as [Hj E]. destruct (decide (i = j)) as [->|Hd].
      + rewrite list_lookup_total_insert by done. rewrite total_cons. cbn. lia.
      + rewrite list_lookup_total_insert_ne by done. by apply HL.
    - rewrite list_lookup_total_insert_ne by lia. by apply HL.
  Qed.

  Lemma place_perm segs id sz : length segs = length ms ->
    concat (place ms segs id sz) ≡ₚ (id, sz) :: concat segs.
  Proof.
    intros Hl. unfold place. set (i := default _ _).
    assert (Hi : (i < length segs)%nat).
    { unfold i. destruct (with_room _ _ _) eqn:E; [by apply with_room_lt in E as [? _]|cbn; lia]. }
    destruct (lookup_lt_is_Some_2 _ _ Hi) as [M EM]. rewrite (list_lookup_total_correct _ _ _ EM).
    exact (concat_push _ i M [(id, sz)] EM).
  Qed.

  (** The objects after a hit are among the objects before it. *)
  Lemma hit_sub segs id i sz : length segs = length ms -> NoDup (concat segs).*1 ->
    inseg segs i (id, sz) -> exists out, concat segs ≡ₚ out ++ concat (spec_hit ms segs id i sz).
  Proof.
    intros Hl Hnd (l & El & Hin). assert (Hlt := lookup_lt_Some _ _ _ El).
    apply elem_of_list_split in Hin as (l1 & l2 & ->).
    assert (Ew := without_mid l1 l2 (id, sz) (nodup_seg _ _ _ Hnd El)). cbn in Ew.
    assert (P := concat_pop segs i l1 [(id, sz)] l2 El). unfold spec_hit.
    rewrite (list_lookup_total_correct _ _ _ El), Ew. case_decide as Ht.
    - exists []. cbn. rewrite P.
      assert (Q := concat_push (<[i:=l1 ++ l2]> segs) i (l1 ++ l2) [(id, sz)]).
      rewrite list_insert_insert in Q. rewrite <- Q; [done|]. by apply list_lookup_insert.
    - destruct (lookup_lt_is_Some_2 segs (S i) ltac:(lia)) as [M EM].
      rewrite (list_lookup_total_correct _ _ _ EM).
      destruct (settle_sub ms (S i) (<[S i:=(id, sz) :: M]> (<[i:=l1 ++ l2]> segs))) as [out Q];
        [rewrite !insert_length; lia|].
      exists out. rewrite <- Q, P. symmetry. apply (concat_push _ (S i) M [(id, sz)]).
      by rewrite list_lookup_insert_ne by lia.
  Qed.

  Definition good (a : sspec) : Prop := limits (ss_segs a) /\ held (ss_segs a) <= cap.

  Lemma rel_hit s a r o : rel s a -> good a -> c_tbl (sl_c s) !! r_id r = Some o ->
    exists s', slru_find s r true = Ok (s', true) /\
      let a' := mkSS (spec_hit ms (ss_segs a) (r_id r) (Z.to_nat (o_p1 o)) (o_size o)) (ss_adm a) in
      rel s' a' /\ good a' /\ (length (concat (ss_segs a')) <= length (concat (ss_segs a)))%nat.
  Proof.
    intros H [HL HH] Ho. destruct (srel_hit ms cap Hms s a r o H Ho) as (s' & E & H').
    exists s'. split; [exact E|]. cbn zeta. split; [exact H'|].
    assert (Hin := srel_find _ _ s a _ _ H Ho).
    destruct (hit_sub (ss_segs a) (r_id r) (Z.to_nat (o_p1 o)) (o_size o)) as [out P].
    - apply H.
    - apply H.
    - done.
    - split; [split; cbn [ss_segs]|cbn [ss_segs]; rewrite P, app_length; lia].
      + apply hit_limits; try done; [apply H|by eapply srel_nonneg].
      + unfold held in *. rewrite (total_perm _ _ P), total_app in HH.
        assert (0 <= total_bytes out); [|lia]. apply total_nonneg.
        assert (A := sr_ok _ _ s a H). rewrite P in A. apply Forall_app in A as [A _].
        apply (Forall_impl _ _ _ A). unfold osz_ok. lia.
  Qed.

  Lemma rel_get s a r fuel : rel s a -> good a -> 0 < r_size r < 2 ^ 32 ->
    (length (concat (ss_segs a)) <= fuel)%nat ->
    exists s' a' b, cache_get_base slru_ops fuel s r = Ok (s', b) /\
      spec_get ms cap a r = (a', b) /\ rel s' a' /\ good a' /\
      (length (concat (ss_segs a')) <= S (length (concat (ss_segs a))))%nat.
  Proof.
    intros H G Hr Hf. unfold cache_get_base, spec_get.
    assert (Ht : rel (op_tick slru_ops s) a).
    { assert (Q := srel_adm ms cap s a (c_incr_nreq (sl_c s)) (ss_adm a) H).
      cbn in Q. rewrite (sr_adm _ _ s a H) in Q. specialize (Q eq_refl eq_refl eq_refl eq_refl eq_refl eq_refl).
      by destruct a. }
    set (s1 := op_tick slru_ops s) in *. rewrite (srel_locate ms cap s1 a _ Ht).
    cbn [op_find slru_ops]. destruct (c_tbl (sl_c s1) !! r_id r) as [o|] eqn:Eo.
    - destruct (rel_hit s1 a r o Ht G Eo) as (s' & -> & H' & G' & C). cbn [rbind].
      eexists s', _, true. split; [done|]. split; [done|]. split_and!; try done. lia.
    - assert (Ef : slru_find s1 r true = Ok (s1, false)) by (unfold slru_find; by rewrite Eo).
      rewrite Ef. cbn [rbind op_can_insert slru_ops]. unfold slru_can_insert, cache_can_insert_default.
      rewrite (sr_adm _ _ s1 a Ht), (sr_md _ _ s1 a Ht), (sr_cap _ _ s1 a Ht), Z.add_0_r.
      destruct (admit (ss_adm a) r) as [adm' [|]].
      + assert (Ha : rel (sl_set_c s1 (c_set_adm (sl_c s1) adm')) (mkSS (ss_segs a) adm')).
        { apply srel_adm; done. }
        destruct (decide (r_size r > cap)) as [Hbig|Hbig].
        * rewrite (bool_decide_eq_false_2 (r_size r <= cap)) by lia. cbn [andb rbind].
          eexists _, _, false. split; [done|]. split; [done|]. split_and!; try done. cbn. lia.
        * rewrite (bool_decide_eq_true_2 (r_size r <= cap)) by lia. cbn [andb].
          cbn [sl_max sl_set_c]. rewrite (sr_max _ _ s1 a Ht).
          unfold at_. destruct (lookup_lt_is_Some_2 ms 0%nat Hn) as [m0 Em]. rewrite Em. cbn [rbind].
          rewrite (list_lookup_total_correct _ _ _ Em). cbn [c_md c_set_adm].
          rewrite (sr_md _ _ s1 a Ht), Z.add_0_r.
          case_bool_decide as Hm.
          -- destruct (srel_evict_loop ms cap (length (concat (ss_segs a))) _ _ r fuel Ha)
               as (s2 & E2 & H2 & Hh); [lia|done|done|]. cbn [ss_segs ss_adm] in *.
             rewrite E2. cbn [rbind].
             set (segs2 := make_room _ _ _ _) in *.
             assert (Hnot : c_tbl (sl_c s2) !! r_id r = None).
             { destruct (c_tbl (sl_c s2) !! r_id r) as [o2|] eqn:E3; [|done]. exfalso.
               apply (srel_find ms cap s2 _ _ _ H2) in E3. apply inseg_concat in E3. cbn in E3.
               assert (Hsub : forall n segs y, y ∈ concat (make_room n cap (r_size r) segs) -> y ∈ concat segs).
               { clear. induction n as [|n IH]; intros segs y; cbn; [done|]. case_decide; [|done].
                 intros Hy. apply IH in Hy.
                 destruct (evict_low_spec segs) as [(_ & _ & Ee)|(i & l & x & A & _ & Ee & _)];
                   rewrite Ee in Hy; [done|].
                 assert (P := concat_pop segs i l [x] []). rewrite !app_nil_r in P.
                 rewrite (P A). apply elem_of_app. by right. }
               apply Hsub in E3. apply (srel_none ms cap s1 a _ Ht Eo).
               by apply (elem_of_list_fmap_1 fst) in E3. }
             cbn [op_insert slru_ops].
             destruct (srel_insert ms cap s2 _ r H2 Hn Hnot Hr) as (s3 & E3 & H3).
             { by rewrite (list_lookup_total_correct _ _ _ Em). }
             { cbn [ss_segs]. lia. }
             rewrite E3. cbn [rbind ss_segs ss_adm] in *. eexists s3, _, false.
             split; [done|]. split; [done|]. split; [exact H3|].
             assert (L2 : length segs2 = length ms) by (apply (sr_len _ _ _ _ H2)).
             assert (P := place_perm segs2 (r_id r) (r_size r) L2).
             split; [split; cbn [ss_segs]|].
             ++ apply place_limits; [done|]. apply room_limits; [by eapply srel_nonneg|apply G].
             ++ unfold held in *. rewrite (total_perm _ _ P), total_cons. cbn. lia.
             ++ cbn [ss_segs]. rewrite P. cbn [length]. apply le_n_S.
                assert (Hc : forall n segs, (length (concat (make_room n cap (r_size r) segs)) <= length (concat segs))%nat).
                { clear. induction n as [|n IH]; intros segs; cbn; [done|]. case_decide; [|done].
                  etransitivity; [apply IH|].
                  destruct (evict_low_spec segs) as [(_ & _ & ->)|(i & l & x & A & _ & -> & _)]; [done|].
                  assert (P := concat_pop segs i l [x] []). rewrite !app_nil_r in P.
                  rewrite (P A), app_length. lia. }
                apply Hc.
          -- eexists _, _, false. split; [done|]. split; [done|]. split_and!; try done. cbn. lia.
      + cbn [andb rbind]. eexists _, _, false. split; [done|]. split; [done|].
        split; [apply srel_adm; done|]. split; [done|]. cbn. lia.
  Qed.

  Lemma rel_step s a c fuel : rel s a -> good a -> slru_call ms c ->
    (length (concat (ss_segs a)) <= fuel)%nat ->
    exists s' a' o, step slru_ops fuel s c = Ok (s', o) /\ spec_call ms cap a c = (a', o) /\
      rel s' a' /\ good a' /\ (length (concat (ss_segs a')) <= S (length (concat (ss_segs a))))%nat.
  Proof.
    intros H G Hc Hf. destruct c as [r|r u|r|id|r|r]; cbn [slru_call] in Hc; try done;
      cbn [step spec_call].
    - destruct (rel_get s a r fuel H G Hc Hf) as (s' & a' & b & -> & -> & H' & G' & C).
      cbn [rbind]. eexists s', a', _. done.
    - rewrite (srel_locate ms cap s a _ H). cbn [op_find slru_ops].
      destruct (c_tbl (sl_c s) !! r_id r) as [o|] eqn:Eo.
      + destruct u.
        * destruct (rel_hit s a r o H G Eo) as (s' & -> & H' & G' & C). cbn [rbind].
          eexists s', _, _. split; [done|]. split; [done|]. split_and!; try done. lia.
        * unfold slru_find. rewrite Eo. cbn [rbind]. eexists s, a, _. split_and!; try done. lia.
      + unfold slru_find. rewrite Eo. cbn [rbind]. eexists s, a, _. split_and!; try done. lia.
    - rewrite (srel_locate ms cap s a _ H). cbn [op_find op_occupied op_md op_size op_insert slru_ops].
      unfold slru_find. destruct (c_tbl (sl_c s) !! r_id r) as [o|] eqn:Eo; cbn [rbind].
      + eexists s, a, _. split_and!; try done. lia.
      + rewrite (sr_occ _ _ s a H), (sr_md _ _ s a H), (sr_cap _ _ s a H), Z.add_0_r.
        case_decide as Hb.
        * eexists s, a, _. split_and!; try done. lia.
        * destruct Hc as [Hc1 Hc2].
          destruct (srel_insert ms cap s a r H Hn Eo Hc1 Hc2 ltac:(lia)) as (s3 & E3 & H3).
          rewrite E3. cbn [rbind]. eexists s3, _, _. split; [done|]. split; [done|]. split; [exact H3|].
          assert (P := place_perm (ss_segs a) (r_id r) (r_size r) (sr_len _ _ _ _ H)).
          destruct G as [GL GH]. split; [split; cbn [ss_segs]|].
          -- apply place_limits; [apply H|done].
          -- unfold held in *. rewrite (total_perm _ _ P), total_cons. cbn. lia.
          -- cbn [ss_segs]. rewrite P. done.
    - cbn [op_nobj op_evict slru_ops]. rewrite (sr_nobj _ _ s a H). case_decide as Hz.
      + assert (E0 : concat (ss_segs a) = []) by (destruct (concat (ss_segs a)); [done|cbn in Hz; lia]).
        destruct (evict_low_spec (ss_segs a)) as [(_ & _ & ->)|(i & l & x & A & _)].
        * eexists s, _, _. split; [done|]. split; [done|]. split; [by apply rel_eta|].
          split; [done|]. cbn. lia.
        * exfalso. assert (P := concat_pop _ i l [x] [] A). rewrite E0 in P.
          by apply Permutation_nil in P.
      + assert (Hne : concat (ss_segs a) <> []) by (intros E; rewrite E in Hz; cbn in Hz; lia).
        destruct (srel_evict ms cap s a r H Hne) as (s1 & -> & H1). cbn [rbind].
        eexists s1, _, _. split; [done|]. split; [done|]. split; [exact H1|].
        assert (Hnn := srel_nonneg ms cap s a H). destruct G as [GL GH]. split; [split|]; cbn.
        * by apply evict_limits.
        * etransitivity; [by apply evict_held|done].
        * assert (C := evict_low_count _ Hne). lia.
    - cbn [op_nobj op_to_evict slru_ops]. rewrite (sr_nobj _ _ s a H). case_decide as Hz.
      + assert (E0 : concat (ss_segs a) = []) by (destruct (concat (ss_segs a)); [done|cbn in Hz; lia]).
        destruct (evict_low_spec (ss_segs a)) as [(_ & -> & _)|(i & l & x & A & _)].
        * eexists s, a, _. split_and!; try done. lia.
        * exfalso. assert (P := concat_pop _ i l [x] [] A). rewrite E0 in P.
          by apply Permutation_nil in P.
      + unfold slru_to_evict. rewrite (srel_victim ms cap s a H). cbn [rbind].
        eexists s, a, _. split_and!; try done. lia.
  Qed.

  Lemma rel_run cs : forall s a fuel, rel s a -> good a -> Forall (slru_call ms) cs ->
    (length (concat (ss_segs a)) + length cs <= fuel)%nat ->
    exists s' os a', run slru_ops fuel s cs = Ok (s', os) /\ spec_run ms cap a cs = (a', os) /\
      rel s' a' /\ good a'.
  Proof.
    induction cs as [|c cs IH]; intros s a fuel H G Hc Hf; cbn [run spec_run].
    - eexists s, [], a. done.
    - apply Forall_cons in Hc as [Hc Hcs]. cbn [length] in Hf.
      destruct (rel_step s a c fuel H G Hc ltac:(lia)) as (s1 & a1 & o & -> & -> & H1 & G1 & C).
      cbn [rbind]. destruct (IH s1 a1 fuel H1 G1 Hcs ltac:(lia)) as (s2 & os & a2 & -> & -> & H2 & G2).
      cbn [rbind]. eexists s2, _, a2. done.
  Qed.

  Lemma concat_nils n : concat (replicate n ([] : seg)) = [].
  Proof. induction n; done. Qed.

  Lemma rel_init : rel s0 (spec_start ms adm).
  Proof.
    unfold slru_init, spec_start. split; cbn [ss_segs ss_adm sl_max sl_q sl_nb sl_no sl_c cache_init
      c_tbl c_occ c_nobj c_md c_size c_adm]; unfold held; rewrite ?concat_nils; try done.
    - apply replicate_length.
    - by rewrite fmap_replicate.
    - by rewrite fmap_replicate.
    - by rewrite fmap_replicate.
    - constructor.
    - intros id sz i. split.
      + intros (l & Hl & Hy). apply lookup_replicate in Hl as [-> _]. by apply elem_of_nil in Hy.
      + intros (o & Ho & _). by rewrite lookup_empty in Ho.
  Qed.

  Lemma good_init : good (spec_start ms adm).
  Proof.
    split; cbn [spec_start ss_segs].
    - intros i Hi. rewrite list_lookup_total_alt.
      destruct (replicate (length ms) ([] : seg) !! i) as [l|] eqn:E.
      + apply lookup_replicate in E as [-> _]. apply (ms_nonneg ms Hms).
      + apply (ms_nonneg ms Hms).
    - unfold held. rewrite concat_nils. done.
  Qed.

  (** Every program runs to completion, and the code answers and ends up as the
      segment machine does. *)
  Theorem C15_segments_partial cs fuel : Forall (slru_call ms) cs -> (length cs <= fuel)%nat ->
    exists s os, run slru_ops fuel s0 cs = Ok (s, os) /\
      spec_run ms cap (spec_start ms adm) cs = (mkSS (contents s) (c_adm (sl_c s)), os).
  Proof.
    intros Hc Hf.
    destruct (rel_run cs _ _ fuel rel_init good_init Hc) as (s & os & a & E1 & E2 & H & _).
    { cbn [spec_start ss_segs]. rewrite concat_nils. cbn. lia. }
    exists s, os. split; [exact E1|]. rewrite E2, (rel_contents s a H), (sr_adm _ _ s a H).
    by destruct a.
  Qed.

  Lemma reach s : comp_reaches slru_ops s0 (slru_call ms) s -> exists a, rel s a /\ good a.
  Proof.
    intros (cs & fuel & os & Hc & Hf & E).
    destruct (rel_run cs _ _ fuel rel_init good_init Hc) as (s' & os' & a & E1 & E2 & H & G).
    { cbn [spec_start ss_segs]. rewrite concat_nils. cbn. lia. }
    rewrite E in E1. injection E1 as <- <-. by exists a.
  Qed.

  (** The counters describe the contents; every segment but the lowest is
      within its limit, and the whole within the capacity. *)
  Theorem C15_counters_partial s : comp_reaches slru_ops s0 (slru_call ms) s ->
    sl_nb s = (total_bytes : seg -> Z) <$> contents s /\
    sl_no s = (fun l : seg => Z.of_nat (length l)) <$> contents s /\
    op_occupied slru_ops s = total_bytes (concat (contents s)) /\
    op_nobj slru_ops s = Z.of_nat (length (concat (contents s))) /\
    op_occupied slru_ops s <= cap /\
    NoDup (concat (contents s)).*1 /\
    (forall id, resident slru_ops s id <-> id ∈ (concat (contents s)).*1) /\
    (forall i b m, (0 < i)%nat -> sl_nb s !! i = Some b -> ms !! i = Some m -> b <= m).
  Proof.
    intros Hs. destruct (reach s Hs) as (a & H & [GL GH]). rewrite (rel_contents s a H).
    split_and!; try apply H.
    - cbn. by rewrite (sr_occ _ _ s a H).
    - intros id. unfold resident. cbn [op_find slru_ops]. split.
      + intros HF. destruct (HF (mkReq id 0 0 0 0) eq_refl) as (s' & E). unfold slru_find in E.
        cbn [r_id] in E. destruct (c_tbl (sl_c s) !! id) as [o|] eqn:Eo; [|done].
        apply (srel_find ms cap s a _ _ H), inseg_concat in Eo.
        by apply (elem_of_list_fmap_1 fst) in Eo.
      + intros Hid r <-. unfold slru_find. destruct (c_tbl (sl_c s) !! r_id r) as [o|] eqn:Eo.
        * by exists s.
        * by apply (srel_none ms cap s a _ H) in Eo.
    - intros i b m Hi Eb Em. specialize (GL i Hi). rewrite (list_lookup_total_correct _ _ _ Em) in GL.
      rewrite (sr_nb _ _ s a H), list_lookup_fmap in Eb.
      destruct (ss_segs a !! i) as [l|] eqn:El; [|done]. cbn in Eb. injection Eb as <-.
      by rewrite (list_lookup_total_correct _ _ _ El) in GL.
  Qed.

  (** After a hit, the segment that now holds the object is within its limit. *)
  Theorem C15_promoted_within_partial s r fuel s' :
    comp_reaches slru_ops s0 (slru_call ms) s -> (1 < length ms)%nat ->
    cache_get_base slru_ops fuel s r = Ok (s', true) ->
    exists i l m, contents s' !! i = Some l /\ r_id r ∈ l.*1 /\ ms !! i = Some m /\
      sl_nb s' !! i = Some (total_bytes l) /\ total_bytes l <= m.
  Proof.
    intros Hs H2 E. destruct (reach s Hs) as (a & H & G). unfold cache_get_base in E.
    assert (Ht : rel (op_tick slru_ops s) a).
    { assert (Q := srel_adm ms cap s a (c_incr_nreq (sl_c s)) (ss_adm a) H).
      cbn in Q. rewrite (sr_adm _ _ s a H) in Q. specialize (Q eq_refl eq_refl eq_refl eq_refl eq_refl eq_refl).
      by destruct a. }
    set (s1 := op_tick slru_ops s) in *. cbn [op_find slru_ops] in E.
    destruct (c_tbl (sl_c s1) !! r_id r) as [o|] eqn:Eo.
    2:{ exfalso. unfold slru_find in E. rewrite Eo in E. cbn [rbind] in E.
        destruct (op_can_insert slru_ops s1 r) as [[s2 [|]]|]; cbn [rbind] in E; try done.
        destruct (evict_loop slru_ops fuel s2 r) as [s3|]; cbn [rbind] in E; [|done].
        destruct (op_insert slru_ops s3 r) as [s4|]; cbn [rbind] in E; done. }
    destruct (rel_hit s1 a r o Ht G Eo) as (s2 & E2 & H2' & [GL' _] & _).
    rewrite E2 in E. cbn [rbind] in E. injection E as <-. rewrite (rel_contents s2 _ H2').
    cbn [ss_segs] in *. set (i := Z.to_nat (o_p1 o)) in *.
    assert (Hin := srel_find ms cap s1 a _ _ Ht Eo). fold i in Hin.
    destruct Hin as (l0 & El0 & Hl0). assert (Hlt := lookup_lt_Some _ _ _ El0).
    assert (Hlen := sr_len _ _ _ _ H). assert (Hlen' := sr_len _ _ _ _ H2'). cbn [ss_segs] in Hlen'.
    set (segs' := spec_hit ms (ss_segs a) (r_id r) i (o_size o)) in *.
    assert (exists j M, (j < length ms)%nat /\ segs' !!! j = (r_id r, o_size o) :: M /\
              total_bytes (segs' !!! j) <= ms !!! j) as (j & M & Hj & EM & Hle).
    { unfold segs', spec_hit. unfold segs', spec_hit in GL'. case_decide as Hd.
      - exists i. eexists. split; [lia|]. split; [by rewrite list_lookup_total_insert|].
        apply GL'. lia.
      - destruct (settle_head ms Hms (S i) (<[S i:=(r_id r, o_size o) :: ss_segs a !!! S i]>
                    (<[i:=without (r_id r) (ss_segs a !!! i)]> (ss_segs a))) (r_id r, o_size o)
                    (ss_segs a !!! S i)) as (j & M & Hj & E1 & E3).
        + rewrite !insert_length. lia.
        + by rewrite list_lookup_total_insert by (rewrite insert_length; lia).
        + assert (A := sr_ok _ _ s1 a Ht). rewrite Forall_forall in A.
          assert (osz_ok ms (r_id r, o_size o)) as (_ & ? & _); [|done]. apply A.
          eapply inseg_concat. exists l0. done.
        + rewrite !insert_length in Hj. exists j, M. split; [lia|]. done. }
    destruct (lookup_lt_is_Some_2 ms j Hj) as [m Em].
    assert (El : segs' !! j = Some (segs' !!! j)) by (apply list_lookup_lookup_total_lt; lia).
    exists j, (segs' !!! j), m. split; [exact El|]. split; [rewrite EM; left|]. split; [done|].
    rewrite (list_lookup_total_correct _ _ _ Em) in Hle. split; [|done].
    rewrite (sr_nb _ _ _ _ H2'), list_lookup_fmap. cbn [ss_segs]. by rewrite El.
  Qed.

  (** The victim is the least recent object of the lowest non-empty segment;
      evict removes exactly it, and to_evict announces it. *)
  Theorem C15_victim_partial s r : comp_reaches slru_ops s0 (slru_call ms) s ->
    concat (contents s) <> [] ->
    exists i l v sz s', contents s !! i = Some (l ++ [(v, sz)]) /\
      (forall j, (j < i)%nat -> contents s !! j = Some []) /\
      op_to_evict slru_ops s r = Ok (s, Some v) /\
      op_evict slru_ops s r = Ok s' /\ contents s' = <[i := l]> (contents s).
  Proof.
    intros Hs Hne. destruct (reach s Hs) as (a & H & _). rewrite (rel_contents s a H) in *.
    destruct (evict_low_spec (ss_segs a)) as [(A & _)|(i & l & [v sz] & A & B & C & D)].
    { exfalso. apply Hne. clear -A. induction A as [|l segs -> A IH]; done. }
    destruct (srel_evict ms cap s a r H Hne) as (s1 & E1 & H1).
    exists i, l, v, sz, s1. split; [exact A|]. split; [exact D|]. split.
    - cbn [op_to_evict slru_ops]. unfold slru_to_evict. rewrite (srel_victim ms cap s a H), B. done.
    - split; [exact E1|]. rewrite (rel_contents s1 _ H1). exact C.
  Qed.
End Props.

(** * Examples and refutations *)

Definition gs (id sz : Z) : call := CGet (mkReq id sz 0 0 0).

Definition ex_contents (x : res (slru * list obs)) : option (list (list Z) * list Z * list obs) :=
  match x with Ok (s, os) => Some (sl_q s, sl_nb s, os) | Err _ => None end.

(** Three segments of 2 bytes: hits climb, overflow moves down, the overflow of
    segment 0 is evicted. *)
Example C15_ex :
  Forall (slru_call [2; 2; 2]) [gs 1 1; gs 1 1; gs 2 1; gs 2 1; gs 3 1; gs 3 1; CToEvict (mkReq 0 0 0 0 0); gs 4 1; gs 4 1] /\
  ex_contents (run slru_ops 9 (slru_init false 6 [2; 2; 2] AdmNone)
    [gs 1 1; gs 1 1; gs 2 1; gs 2 1; gs 3 1; gs 3 1; CToEvict (mkReq 0 0 0 0 0); gs 4 1; gs 4 1])
  = Some ([[2; 1]; [4; 3]; []], [2; 2; 0],
          [OBool false; OBool true; OBool false; OBool true; OBool false; OBool true;
           OVictim (Some 1); OBool false; OBool true]).
Proof.
  split; [|vm_compute; reflexivity].
  repeat (apply Forall_cons; split; [cbn; lia|]). constructor.
Qed.

(** remove leaves the counters as they were ... *)
Theorem C15_remove_counters_refuted : exists s os,
  run slru_ops 5 (slru_init false 8 [4; 4] AdmNone) [gs 1 1; CRemove 1] = Ok (s, os) /\
  contents s = [[]; []] /\ sl_nb s = [1; 0].
Proof. eexists _, _. split; [vm_compute; reflexivity|]. split; vm_compute; reflexivity. Qed.

(** ... so that a later get follows a NULL tail pointer. *)
Theorem C15_remove_crash_refuted :
  run slru_ops 8 (slru_init false 4 [2; 2] AdmNone)
    [gs 1 2; CRemove 1; gs 2 2; CRemove 2; gs 3 2; CRemove 3; gs 4 2; gs 4 2] = Err NullDeref.
Proof. vm_compute. reflexivity. Qed.

(** An insertion may push segment 0 above its limit. *)
Theorem C15_segment0_over_refuted : exists s os,
  run slru_ops 5 (slru_init false 8 [4; 4] AdmNone) [gs 1 3; gs 2 3; gs 3 2] = Ok (s, os) /\
  contents s = [[(3, 2); (1, 3)]; [(2, 3)]] /\ sl_nb s = [5; 3].
Proof. eexists _, _. split; [vm_compute; reflexivity|]. split; vm_compute; reflexivity. Qed.

(** Objects of size 0: an evict call on a cache that holds one crashes. *)
Theorem C15_zero_size_refuted :
  run slru_ops 5 (slru_init false 8 [4; 4] AdmNone) [gs 1 0; CEvict (mkReq 0 0 0 0 0)] = Err NullDeref.
Proof. vm_compute. reflexivity. Qed.

(** With metadata charged, SLRU_cool forgets it: the counters drift, and a get
    follows a NULL tail pointer. *)
Theorem C15_metadata_refuted : exists s os,
  run slru_ops 20 (slru_init true 80 [40; 40] AdmNone)
    [gs 1 1; gs 1 1; gs 2 1; gs 2 1; gs 3 1; gs 3 1] = Ok (s, os) /\
  sl_q s = [[3; 2; 1]; []] /\ sl_nb s = [3; 48].
Proof. eexists _, _. split; [vm_compute; reflexivity|]. split; vm_compute; reflexivity. Qed.

Theorem C15_metadata_crash_refuted :
  run slru_ops 20 (slru_init true 80 [40; 40] AdmNone)
    [gs 1 1; gs 1 1; gs 2 1; gs 2 1; gs 3 1; gs 3 1; gs 1 1; gs 2 1; gs 3 1; gs 4 1; gs 5 1]
  = Err NullDeref.
Proof. vm_compute. reflexivity. Qed.
