(** Segmented FIFO: the code against the segments of SpecSFIFO.v. *)
From stdpp Require Import gmap list numbers fin_maps.
From Verif Require Import Base Driver ModelQueue SpecComp ModelSLRU SpecSLRU SLRUFacts ModelSFIFO SpecSFIFO.
Open Scope Z_scope.
Local Arguments total_bytes : simpl never.

Section Rel.
  Context (ms : list Z) (cap : Z).
  Context (Hms : Forall (fun m => 0 <= m) ms).
  Notation srel := (srel ms cap).
  Notation osz_ok := (osz_ok ms).


  Lemma sf_victim s a : srel s a ->
    sf_to_evict_from (sl_q s) (sl_nb s) = Ok (victim (ss_segs a)).
  Proof.
    intros H. rewrite (sr_q ms cap s a H), (sr_nb ms cap s a H).
    assert (A := sr_ok ms cap s a H). induction (ss_segs a) as [|l segs IH]; [done|].
    cbn [fmap list_fmap sf_to_evict_from victim]. cbn [concat] in A.
    apply Forall_app in A as [A1 A2]. destruct l as [|x l] using rev_ind.
    - cbn. by apply IH.
    - rewrite decide_True.
      + rewrite fmap_app. cbn [fmap list_fmap]. rewrite !last_snoc. done.
      + rewrite total_snoc. apply Forall_app in A1 as [A0 A1].
        assert (0 <= total_bytes l).
        { apply total_nonneg. apply (Forall_impl _ _ _ A0). unfold osz_ok. lia. }
        apply Forall_cons in A1 as [A1 _]. unfold osz_ok in A1. cbn. lia.
  Qed.


  Lemma first_tail_spec segs : first_tail ((fun l : seg => l.*1) <$> segs) =
    match victim segs with
    | None => None
    | Some v => (fun x => (x, v)) <$> (fst <$> list_find (fun l : seg => l <> []) segs)
    end.
  Proof.
    induction segs as [|l segs IH]; [done|]. cbn [fmap list_fmap first_tail victim].
    destruct l as [|x l] using rev_ind.
    - cbn [fmap list_fmap last list_find]. rewrite IH. rewrite decide_False by (intros E; by apply E).
      destruct (victim segs) as [v|]; [|done].
      destruct (list_find _ segs) as [[n y]|]; done.
    - rewrite fmap_app. cbn [fmap list_fmap]. rewrite !last_snoc. cbn [list_find].
      rewrite decide_True by (by destruct l). done.
  Qed.


  Lemma sf_evict_ok s a r : srel s a -> concat (ss_segs a) <> [] ->
    exists s', sf_evict s r = Ok s' /\ srel s' (mkSS (evict_low (ss_segs a)) (ss_adm a)).
  Proof.
    intros H Hne. unfold sf_evict. rewrite (sr_q ms cap s a H), first_tail_spec.
    destruct (evict_low_spec (ss_segs a)) as [(A & _)|(i & l & x & A & B & C & D)].
    { exfalso. apply Hne. clear -A. induction A as [|l segs -> A IH]; done. }
    rewrite B, C. assert (Hx : inseg (ss_segs a) i x).
    { exists (l ++ [x]). split; [done|]. apply elem_of_app. right. left. }
    assert (Hx' := Hx). destruct x as [id sz]. cbn [fst].
    apply (sr_tbl ms cap s a H) in Hx' as (o & Ho & Hsz & Hp). 
    assert (F : list_find (fun l : seg => l <> []) (ss_segs a) = Some (i, l ++ [(id, sz)])).
    { apply list_find_Some. split; [exact A|]. split; [by destruct l|].
      intros j y Hy Hj. rewrite (D j Hj) in Hy. injection Hy as <-. intros E. by apply E. }
    rewrite F. cbn [fmap option_fmap option_map fst]. rewrite Ho.
    destruct (srel_q ms cap s a i _ H A) as [Eq _]. cbn [sl_count sl_q]. rewrite Eq.
    cbn [rbind sl_count sl_set_q sl_set_c sl_c].
    unfold cache_evict_base, cache_remove_obj_base. rewrite Ho. cbn [rbind].
    eexists. split; [reflexivity|].
    assert (P : concat (ss_segs a) ≡ₚ (id, sz) :: concat (<[i := l]> (ss_segs a))).
    { assert (P := concat_pop (ss_segs a) i l [(id, sz)] []). rewrite !app_nil_r in P. exact (P A). }
    assert (Hnd := sr_nd ms cap s a H). assert (Hok := sr_ok ms cap s a H). assert (Hmd := sr_md ms cap s a H).
    assert (Hl := lookup_lt_Some _ _ _ A).
    assert (Hok1 := Hok). rewrite P in Hok1. apply Forall_cons in Hok1 as [Hox Hok1].
    assert (Hq : q_del id (l ++ [(id, sz)]).*1 = l.*1).
    { assert (Q := q_del_mid l [] (id, sz)). rewrite app_nil_r in Q. apply Q.
      by eapply nodup_seg. }
    split; cbn [ss_segs ss_adm sl_c sl_q sl_nb sl_no sl_max sl_set_c sl_set_q sl_count c_occ c_nobj c_md
                c_size c_adm c_tbl]; try apply H.
    - rewrite insert_length. apply H.
    - rewrite Hq, (sr_q ms cap s a H), list_fmap_insert. done.
    - rewrite (sr_nb ms cap s a H). apply (alter_insert _ _ _ _ _ _ A). rewrite total_snoc, Hmd. cbn. lia.
    - rewrite (sr_no ms cap s a H). apply (alter_insert _ _ _ _ _ _ A). rewrite app_length. cbn. lia.
    - rewrite P in Hnd. cbn in Hnd. apply NoDup_cons in Hnd. tauto.
    - intros id' sz' j. assert (Q := inseg_pop (ss_segs a) i l (id, sz) [] j (id', sz') Hnd A).
      rewrite app_nil_r in Q. rewrite Q, (sr_tbl ms cap s a H). cbn [fst].
      destruct (decide (id' = id)) as [->|Hd].
      + rewrite lookup_delete. split; [tauto|]. by intros (? & ? & _).
      + rewrite lookup_delete_ne by done. tauto.
    - intros id' o' E. apply lookup_delete_Some in E as [_ E]. by apply (sr_p1 ms cap s a H) in E.
    - rewrite (sr_occ ms cap s a H), Hmd. unfold held. rewrite (total_perm _ _ P), total_cons. cbn [snd].
      unfold osz_ok in Hox. cbn in Hox. unfold u32. rewrite Z.mod_small; lia.
    - rewrite (sr_nobj ms cap s a H), P. cbn. lia.
    - done.
  Qed.

  Section Loops.
    Context (r : req) (fuel : nat).

    Definition sf_cool_ok (k : nat) : Prop := forall s a L x,
      srel s a -> ss_segs a !! k = Some (L ++ [x]) -> (length (concat (ss_segs a)) <= fuel)%nat ->
      total_bytes (L ++ [x]) > ms !!! k ->
      exists s', sf_cool fuel r k s = Ok s' /\ srel s' (mkSS (below ms k L x (ss_segs a)) (ss_adm a)).

  

    Lemma loop_of_cool k : sf_cool_ok k -> forall n s a fw,
      srel s a -> (k < length ms)%nat -> (length (concat (ss_segs a)) <= fuel)%nat ->
      length (fit (ms !!! k) (ss_segs a !!! k)).2 = n -> (n <= fw)%nat ->
      exists s', while_ fw (seg_over k) (sf_cool fuel r k) s = Ok s' /\
                 srel s' (mkSS (settle ms k (ss_segs a)) (ss_adm a)).
    Proof.
      intros HC. induction n as [|n IH]; intros s a fw H Hk Hf En Hw;
        destruct (lookup_lt_is_Some_2 (ss_segs a) k) as [l El]; try (by rewrite (sr_len ms cap s a H));
        assert (Hn : nonneg l) by
          (assert (B := srel_nonneg ms cap s a H); rewrite Forall_lookup in B; by apply (B k));
        assert (El' := list_lookup_total_correct _ _ _ El); rewrite El' in En;
        assert (A := fit_app (ms !!! k) l); assert (B := fit_le (ms !!! k) l (ms_nonneg ms Hms k));
        assert (EO := srel_over ms cap s a k H Hk).
      - destruct (fit (ms !!! k) l) as [K o] eqn:E. cbn in *. destruct o; [|done].
        rewrite app_nil_r in A. subst K. exists s. split.
        + destruct fw; cbn [while_]; rewrite EO; cbn [rbind];
            rewrite bool_decide_eq_false_2; try done; rewrite El'; lia.
        + rewrite settle_eq, El', E. cbn. by destruct a.
      - assert (Hover : total_bytes l > ms !!! k).
        { destruct (decide (total_bytes l <= ms !!! k)) as [Hle|]; [|lia].
          rewrite (fit_all _ _ Hn Hle) in En. done. }
        destruct l as [|x L] using rev_ind.
        { done. }
        clear IHL. destruct (HC s a L x H El Hf Hover) as (s1 & Ec & H1).
        destruct fw as [|fw]; [lia|]. cbn [while_]. rewrite EO. cbn [rbind].
        rewrite bool_decide_eq_true_2 by (rewrite El'; lia). rewrite Ec. cbn [rbind].
        assert (Hlt := lookup_lt_Some _ _ _ El).
        destruct (IH s1 (mkSS (below ms k L x (ss_segs a)) (ss_adm a)) fw H1 Hk) as (s2 & E2 & H2).
        + cbn. etransitivity; [by apply below_count|done].
        + cbn. rewrite below_at by done. rewrite fit_snoc in En by (try done; apply (ms_nonneg ms Hms)).
          cbn in En. rewrite app_length in En. cbn in En. lia.
        + lia.
        + exists s2. split; [exact E2|]. cbn in H2. rewrite (settle_step ms Hms) in H2; try done.
          by apply (srel_nonneg ms cap s).
    Qed.

    Lemma all_sf_cool_ok k : (k < length ms)%nat -> sf_cool_ok k.
    Proof.
      induction k as [|k IH]; intros Hk s a L x H El Hf Hover.
      - cbn [sf_cool below]. destruct (sf_evict_ok s a r H) as (s' & E & H').
        { intros E. apply (f_equal length) in E. assert (P := concat_pop _ _ L [x] [] El).
          rewrite P in E. by rewrite app_length in E. }
        exists s'. split; [exact E|].
        replace (<[0%nat:=L]> (ss_segs a)) with (evict_low (ss_segs a)); [exact H'|].
        destruct (ss_segs a) as [|l0 segs]; [done|]. cbn in El. injection El as ->. cbn.
        destruct (L ++ [x]) as [|y l'] eqn:E2; [by destruct L|]. rewrite <- E2.
        by rewrite removelast_last.
      - cbn [sf_cool below]. destruct (srel_q ms cap s a _ _ H El) as [-> _]. cbn [rbind].
        rewrite fmap_app. cbn [fmap list_fmap]. rewrite last_snoc.
        assert (Hx : inseg (ss_segs a) (S k) x).
        { exists (L ++ [x]). split; [done|]. apply elem_of_app. right. left. }
        assert (Hx' := Hx). destruct x as [id sz]. cbn [fst].
        apply (sr_tbl ms cap s a H) in Hx' as (o & Ho & Hsz & Hp). rewrite Ho.
        assert (Hlt := lookup_lt_Some _ _ _ El). assert (Hl := sr_len ms cap s a H).
        destruct (lookup_lt_is_Some_2 (ss_segs a) k ltac:(lia)) as [M EM].
        assert (Hq : q_del id (L.*1 ++ [id]) = L.*1).
        { assert (Q := q_del_mid L [] (id, sz)). rewrite app_nil_r, fmap_app in Q. apply Q.
          rewrite <- (fmap_app fst L [(id, sz)]). eapply nodup_seg; [apply H|exact El]. }
        rewrite Hq. unfold at_ at 1. cbn [sl_set_q sl_q].
        rewrite list_lookup_insert_ne by lia. rewrite (sr_q ms cap s a H), list_lookup_fmap, EM.
        cbn [fmap option_fmap option_map rbind]. rewrite (list_lookup_total_correct _ _ _ EM).
        set (segs2 := <[k:=(id, sz) :: M]> (<[S k:=L]> (ss_segs a))).
        match goal with |- exists s', while_ _ _ _ ?s1 = _ /\ _ =>
          assert (H1 : srel s1 (mkSS segs2 (ss_adm a))) end.
        { refine (srel_move ms cap s a (S k) k L (id, sz) [] M (fun o => o_set_p1 o (Z.of_nat k)) o _
                    (<[S k:=L]> (ss_segs a)) segs2 H El _ _ eq_refl Ho Hsz eq_refl _ _ _ _ _).
          - by rewrite app_nil_r.
          - by rewrite list_lookup_insert_ne by lia.
          - done.
          - cbn. unfold segs2. rewrite !list_fmap_insert, <- (sr_q ms cap s a H). done.
          - cbn. rewrite (sr_nb ms cap s a H).
            rewrite (alter_insert total_bytes _ _ _ _ L El); [|rewrite total_snoc; cbn; lia].
            apply (alter_insert _ _ _ _ M); [by rewrite list_lookup_insert_ne by lia|].
            rewrite total_cons. cbn. lia.
          - cbn. rewrite (sr_no ms cap s a H).
            rewrite (alter_insert _ _ _ _ _ L El); [|rewrite app_length; cbn; lia].
            apply (alter_insert _ _ _ _ M); [by rewrite list_lookup_insert_ne by lia|].
            cbn [length]. lia.
          - done. }
        assert (Hc2 : length (concat segs2) = length (concat (ss_segs a))).
        { unfold segs2. assert (P := concat_pop _ _ L [(id, sz)] [] El). rewrite app_nil_r in P.
          rewrite P. change ((id, sz) :: M) with ([(id, sz)] ++ M). rewrite concat_push; [done|].
          by rewrite list_lookup_insert_ne by lia. }
        destruct (loop_of_cool k (IH ltac:(lia)) (length (fit (ms !!! k) (segs2 !!! k)).2) _ _ fuel H1
                    ltac:(lia))
          as (s2 & E2 & H2).
        + cbn [ss_segs]. lia.
        + done.
        + transitivity (length (segs2 !!! k)).
          * assert (A := f_equal length (fit_app (ms !!! k) (segs2 !!! k))).
            rewrite app_length in A. lia.
          * destruct (lookup_lt_is_Some_2 segs2 k) as [l2 E2];
              [unfold segs2; rewrite !insert_length; lia|].
            rewrite (list_lookup_total_correct _ _ _ E2).
            assert (P := concat_pop segs2 k [] l2 []). rewrite !app_nil_r in P.
            apply P in E2. rewrite E2 in Hc2. rewrite app_length in Hc2. lia.
        + exists s2. split; [exact E2|exact H2].
    Qed.
  End Loops.


  Lemma sf_find_loop r fuel k x : forall n s a fw M,
    srel s a -> (k < length ms)%nat -> ss_segs a !!! k = x :: M ->
    (length (concat (ss_segs a)) <= fuel)%nat ->
    length (fit (ms !!! k) (ss_segs a !!! k)).2 = n -> (n <= fw)%nat ->
    exists s', while_ fw (fun s => let! i := seg_of x.1 s in seg_over i s)
                 (fun s => let! i := seg_of x.1 s in sf_cool fuel r i s) s = Ok s' /\
               srel s' (mkSS (settle ms k (ss_segs a)) (ss_adm a)).
  Proof.
    induction n as [|n IH]; intros s a fw M H Hk Ek Hf En Hw;
      assert (Hlen := sr_len ms cap s a H);
      assert (El : ss_segs a !! k = Some (x :: M)) by
        (rewrite <- Ek; apply list_lookup_lookup_total_lt; lia);
      assert (ES := srel_seg_of ms cap s a k x M H ltac:(lia) Ek);
      assert (Hn : nonneg (x :: M)) by
        (assert (B := srel_nonneg ms cap s a H); rewrite Forall_lookup in B; by apply (B k));
      rewrite Ek in En;
      assert (A := fit_app (ms !!! k) (x :: M));
      assert (B := fit_le (ms !!! k) (x :: M) (ms_nonneg ms Hms k));
      assert (EO := srel_over ms cap s a k H Hk).
    - destruct (fit (ms !!! k) (x :: M)) as [K o] eqn:E. cbn in A, B, En. destruct o; [|done].
      rewrite app_nil_r in A. subst K. exists s. split.
      + destruct fw; cbn [while_]; rewrite ES; cbn [rbind]; rewrite EO; cbn [rbind];
          rewrite bool_decide_eq_false_2; try done; rewrite Ek; lia.
      + rewrite settle_eq, Ek, E. cbn. by destruct a.
    - assert (Hover : total_bytes (x :: M) > ms !!! k).
      { destruct (decide (total_bytes (x :: M) <= ms !!! k)) as [Hle|]; [|lia].
        rewrite (fit_all _ _ Hn Hle) in En. done. }
      assert (exists L y, x :: M = L ++ [y]) as (L & y & Exy).
      { destruct (exists_last (l := x :: M)) as (L & y & E); [done|]. by exists L, y. }
      rewrite Exy in *. destruct (all_sf_cool_ok r fuel k Hk s a L y H El Hf Hover) as (s1 & Ec & H1).
      destruct fw as [|fw]; [lia|]. cbn [while_]. rewrite ES. cbn [rbind]. rewrite EO. cbn [rbind].
      rewrite bool_decide_eq_true_2 by (rewrite Ek; lia). rewrite Ec. cbn [rbind].
      assert (Hlt := lookup_lt_Some _ _ _ El).
      assert (HS := settle_step ms Hms k L y (ss_segs a) El (srel_nonneg ms cap s a H) Hover).
      destruct L as [|x' L].
      + (* the object itself has moved down *)
        cbn in Exy. injection Exy as <- ->.
        assert (Hx0 : x.2 <= ms !!! O).
        { assert (Q := sr_ok ms cap s a H). rewrite Forall_forall in Q.
          assert (osz_ok x) as (_ & ? & _); [|done]. apply Q. eapply inseg_concat.
          exists [x]. split; [done|left]. }
        assert (total_bytes [x] = x.2) as Ht by (unfold total_bytes; cbn; lia).
        destruct k as [|k]; [cbn in Hover; lia|].
        exists s1. split; [|rewrite <- HS; rewrite (settle_eq _ _ (below ms _ _ _ _)), below_at by done; exact H1].
        cbn [below] in H1.
        destruct (settle_head ms Hms k (<[k:=x :: ss_segs a !!! k]> (<[S k:=[]]> (ss_segs a))) x
                    (ss_segs a !!! k)) as (i & M' & Hi & E1 & E2).
        { rewrite !insert_length. lia. }
        { by rewrite list_lookup_total_insert by (rewrite insert_length; lia). }
        { done. }
        rewrite !insert_length in Hi.
        assert (ES1 := srel_seg_of ms cap s1 _ i x M' H1). cbn [ss_segs] in ES1.
        rewrite settle_length, !insert_length in ES1. specialize (ES1 Hi E1).
        assert (EO1 := srel_over ms cap s1 _ i H1 ltac:(lia)). cbn [ss_segs] in EO1.
        destruct fw; cbn [while_]; rewrite ES1; cbn [rbind]; rewrite EO1; cbn [rbind];
          rewrite bool_decide_eq_false_2; try done; lia.
      + cbn in Exy. injection Exy as <- EM.
        destruct (IH s1 (mkSS (below ms k (x :: L) y (ss_segs a)) (ss_adm a)) fw L H1 Hk) as (s2 & E2 & H2).
        * cbn [ss_segs]. by rewrite below_at.
        * cbn [ss_segs]. etransitivity; [by apply below_count|done].
        * cbn [ss_segs]. rewrite below_at by done.
          rewrite fit_snoc in En by (try done; apply (ms_nonneg ms Hms)).
          cbn [snd] in En. rewrite app_length in En. cbn in En. cbn. lia.
        * lia.
        * exists s2. split; [exact E2|]. cbn [ss_segs ss_adm] in H2. by rewrite HS in H2.
  Qed.

  Lemma sf_hit s a r o : srel s a ->
    (forall i, S i = length ms -> total_bytes (ss_segs a !!! i) <= ms !!! i) -> c_tbl (sl_c s) !! r_id r = Some o ->
    exists s', sf_find s r true = Ok (s', true) /\
      srel s' (mkSS (queue_hit ms (ss_segs a) (r_id r) (Z.to_nat (o_p1 o)) (o_size o)) (ss_adm a)).
  Proof.
    intros H Htop Ho. unfold sf_find, sf_promote. rewrite Ho. assert (Hin := srel_find ms cap s a _ _ H Ho).
    assert (Hp := sr_p1 ms cap s a H _ _ Ho). set (i := Z.to_nat (o_p1 o)) in *. set (id := r_id r) in *.
    destruct Hin as (l & El & Hl). assert (Hlt := lookup_lt_Some _ _ _ El).
    assert (Hlen := sr_len ms cap s a H).
    apply elem_of_list_split in Hl as (l1 & l2 & ->).
    assert (Hnd := nodup_seg _ _ _ (sr_nd ms cap s a H) El).
    assert (Ew := without_mid l1 l2 (id, o_size o) Hnd). cbn [fst] in Ew.
    assert (Eqd := q_del_mid l1 l2 (id, o_size o) Hnd). cbn [fst] in Eqd.
    unfold queue_hit. rewrite (list_lookup_total_correct _ _ _ El), Ew.
    rewrite (sr_max ms cap s a H). destruct (srel_q ms cap s a i _ H El) as [Eat _].
    destruct (decide (o_p1 o = Z.of_nat (length ms) - 1)) as [Ht|Ht].
    - rewrite decide_True by lia. cbn [rbind]. exists s. split; [|by destruct a].
      assert (Hi : S i = length ms) by lia.
      assert (ES : seg_of id s = Ok i) by (unfold seg_of; by rewrite Ho).
      assert (EO := srel_over ms cap s a i H ltac:(lia)).
      rewrite bool_decide_eq_false_2 in EO by (specialize (Htop i Hi); lia).
      unfold sl_fuel. cbn [while_]. rewrite ES. cbn [rbind]. rewrite EO. done.
    - rewrite decide_False by lia.  rewrite Eat. cbn [rbind].
      rewrite Eqd. assert (HSi : (S i < length ms)%nat) by lia.
      destruct (lookup_lt_is_Some_2 (ss_segs a) (S i) ltac:(lia)) as [M EM].
      rewrite (list_lookup_total_correct _ _ _ EM).
      unfold at_. cbn [sl_q sl_set_c sl_count sl_set_q]. rewrite list_lookup_insert_ne by lia.
      rewrite (sr_q ms cap s a H), list_lookup_fmap, EM. cbn [fmap option_fmap option_map rbind].
      set (segs2 := <[S i:=(id, o_size o) :: M]> (<[i:=l1 ++ l2]> (ss_segs a))).
      match goal with |- context [sl_fuel ?s1] =>
        assert (H1 : srel s1 (mkSS segs2 (ss_adm a))) end.
      { refine (srel_move ms cap s a i (S i) l1 (id, o_size o) l2 M (fun o => o_set_p1 o (o_p1 o + 1)) o _
                  (<[i:=l1 ++ l2]> (ss_segs a)) segs2 H El eq_refl _ eq_refl Ho eq_refl _ _ _ _ _ _).
        - by rewrite list_lookup_insert_ne by lia.
        - cbn. lia.
        - done.
        - cbn. unfold segs2. rewrite !list_fmap_insert, <- (sr_q ms cap s a H). done.
        - cbn. rewrite (sr_nb ms cap s a H), (sr_md ms cap s a H).
          rewrite (alter_insert total_bytes _ _ _ _ (l1 ++ l2) El);
            [|rewrite !total_app, total_cons; cbn; lia].
          apply (alter_insert _ _ _ _ M); [by rewrite list_lookup_insert_ne by lia|].
          rewrite total_cons. cbn. lia.
        - cbn. rewrite (sr_no ms cap s a H).
          rewrite (alter_insert _ _ _ _ _ (l1 ++ l2) El); [|rewrite !app_length; cbn; lia].
          apply (alter_insert _ _ _ _ M); [by rewrite list_lookup_insert_ne by lia|].
          cbn [length]. lia.
        - done. }
      match goal with |- context [sl_fuel ?s1] => set (s1' := s1) in * end.
      destruct (sf_find_loop r (sl_fuel s1') (S i) (id, o_size o)
                  (length (fit (ms !!! S i) (segs2 !!! S i)).2) s1' _ (sl_fuel s1') M H1 HSi)
        as (s2 & E2 & H2).
      + cbn [ss_segs]. unfold segs2.
        by rewrite list_lookup_total_insert by (rewrite insert_length; lia).
      + unfold sl_fuel. rewrite (sr_nobj ms cap _ _ H1). cbn [ss_segs]. lia.
      + done.
      + unfold sl_fuel. rewrite (sr_nobj ms cap _ _ H1). cbn [ss_segs].
        transitivity (length (segs2 !!! S i)).
        * assert (A := f_equal length (fit_app (ms !!! S i) (segs2 !!! S i))).
          rewrite app_length in A. lia.
        * destruct (lookup_lt_is_Some_2 segs2 (S i)) as [l3 E3];
            [unfold segs2; rewrite !insert_length; lia|].
          rewrite (list_lookup_total_correct _ _ _ E3).
          assert (P := concat_pop segs2 (S i) [] l3 []). rewrite !app_nil_r in P.
          apply P in E3. rewrite E3, app_length. lia.
      + cbn [fst] in E2. rewrite E2. cbn [rbind]. exists s2. split; [done|]. exact H2.
  Qed.

  Lemma sf_evict_ok_loop n : forall s a r fuel, srel s a -> r_size r <= cap ->
    length (concat (ss_segs a)) = n -> (n <= fuel)%nat ->
    exists s', evict_loop sf_ops fuel s r = Ok s' /\
      srel s' (mkSS (make_room n cap (r_size r) (ss_segs a)) (ss_adm a)) /\
      held (make_room n cap (r_size r) (ss_segs a)) + r_size r <= cap.
  Proof.
    induction n as [|n IH]; intros s a r fuel H Hr En Hf.
    - cbn [make_room]. assert (held (ss_segs a) = 0) as E0.
      { unfold held. destruct (concat (ss_segs a)); [done|cbn in En; lia]. }
      exists s. split; [|split; [by destruct a|lia]].
      destruct fuel; cbn [evict_loop sf_ops op_occupied op_md op_size];
        rewrite (sr_occ ms cap s a H), (sr_md ms cap s a H), (sr_cap ms cap s a H), decide_False; try done; lia.
    - cbn [make_room]. destruct fuel as [|fuel]; [lia|].
      cbn [evict_loop sf_ops op_occupied op_md op_size].
      rewrite (sr_occ ms cap s a H), (sr_md ms cap s a H), (sr_cap ms cap s a H).
      destruct (decide (held (ss_segs a) + r_size r > cap)) as [Hd|Hd].
      + rewrite decide_True by lia.
        assert (Hne : concat (ss_segs a) <> []) by (intros E; by rewrite E in En).
        destruct (sf_evict_ok s a r H Hne) as (s1 & E1 & H1). change (op_evict sf_ops s r) with (sf_evict s r). rewrite E1. cbn [rbind].
        assert (C := evict_low_count _ Hne).
        destruct (IH s1 _ r fuel H1 Hr) as (s2 & E2 & H2 & Hh); [cbn; lia|lia|].
        exists s2. done.
      + rewrite decide_False by lia. exists s. split; [done|]. split; [by destruct a|lia].
  Qed.

  Lemma sf_insert_ok s a r : srel s a -> (0 < length ms)%nat -> c_tbl (sl_c s) !! r_id r = None ->
    0 < r_size r < 2 ^ 32 -> r_size r <= ms !!! O -> held (ss_segs a) + r_size r <= cap ->
    exists s', sf_insert s r = Ok s' /\
      srel s' (mkSS (place ms (ss_segs a) (r_id r) (r_size r)) (ss_adm a)).
  Proof.
    intros H Hms0 En Hsz Hsm Hroom. unfold sf_insert, place.
    rewrite (sr_nb ms cap s a H), (sr_max ms cap s a H), first_room_eq, (sr_md ms cap s a H), Z.add_0_r.
    assert (Hlen := sr_len ms cap s a H).
    assert (HW : match with_room ms (ss_segs a) (r_size r) with
                 | Some i => Ok (s, i)
                 | None => let! s := while_ (sl_fuel s)
                     (fun s => Ok (bool_decide (c_occ (sl_c s) + r_size r + c_md (sl_c s) > c_size (sl_c s))))
                     (fun s => sf_evict s r) s in Ok (s, 0%nat)
                 end = Ok (s, default 0%nat (with_room ms (ss_segs a) (r_size r)))).
    { destruct (with_room _ _ _); [done|]. unfold sl_fuel. cbn [while_].
      rewrite (sr_occ ms cap s a H), (sr_md ms cap s a H), (sr_cap ms cap s a H).
      rewrite bool_decide_eq_false_2 by lia. done. }
    rewrite HW. cbn [rbind]. set (i := default 0%nat (with_room ms (ss_segs a) (r_size r))).
    assert (Hi : (i < length (ss_segs a))%nat).
    { unfold i. destruct (with_room _ _ _) eqn:E; [by apply with_room_lt in E as [? _]|cbn; lia]. }
    destruct (lookup_lt_is_Some_2 _ _ Hi) as [M EM]. rewrite (list_lookup_total_correct _ _ _ EM).
    unfold cache_insert_base. rewrite En. cbn [rbind].
    unfold at_. cbn [sl_set_c sl_q]. rewrite (sr_q ms cap s a H), list_lookup_fmap, EM.
    cbn [fmap option_fmap option_map rbind]. eexists. split; [reflexivity|].
    assert (Hu : u32 (r_size r) = r_size r) by (unfold u32; rewrite Z.mod_small; lia).
    assert (Hnew := srel_none ms cap s a _ H En).
    assert (P : concat (<[i:=(r_id r, r_size r) :: M]> (ss_segs a)) ≡ₚ (r_id r, r_size r) :: concat (ss_segs a))
      by (exact (concat_push _ i M [(r_id r, r_size r)] EM)).
    split; cbn [ss_segs ss_adm sl_c sl_q sl_nb sl_no sl_max sl_set_c sl_set_q sl_count c_upd c_set_tbl
                c_occ c_nobj c_md c_size c_adm c_tbl]; try apply H.
    - by rewrite insert_length.
    - rewrite list_fmap_insert, (sr_q ms cap s a H). done.
    - rewrite (sr_nb ms cap s a H). apply (alter_insert _ _ _ _ _ _ EM). rewrite total_cons. cbn. lia.
    - rewrite (sr_no ms cap s a H). apply (alter_insert _ _ _ _ _ _ EM). cbn [length]. lia.
    - rewrite P. cbn. apply NoDup_cons. split; [done|apply H].
    - intros id sz j. rewrite (inseg_push _ _ _ _ _ _ EM), (sr_tbl ms cap s a H).
      destruct (decide (id = r_id r)) as [->|Hd].
      + rewrite lookup_alter, lookup_insert. cbn. split.
        * intros [[-> [= ->]]|(o & Ho & _)]; [|congruence]. eexists. split; [done|].
          cbn. by rewrite Hu.
        * intros (o & [= <-] & E1 & E2). cbn in E1, E2. left. split; [lia|]. by rewrite <- E1, Hu.
      + rewrite lookup_alter_ne, lookup_insert_ne by done. split.
        * intros [[_ [= ? _]]|E]; [done|exact E].
        * intros E. by right.
    - intros id o E. apply lookup_alter_Some in E as [(E0 & o1 & E & ->)|[_ E]].
      + cbn. lia.
      + apply lookup_insert_Some in E as [[_ <-]|[_ E]]; [cbn; lia|]. by apply (sr_p1 ms cap s a H) in E.
    - rewrite (sr_occ ms cap s a H), (sr_md ms cap s a H). unfold held. rewrite (total_perm _ _ P), total_cons.
      cbn. rewrite Hu. lia.
    - rewrite (sr_nobj ms cap s a H), P. cbn [length]. lia.
    - rewrite P. apply Forall_cons. split; [|apply H]. unfold osz_ok. cbn. lia.
  Qed.
End Rel.
