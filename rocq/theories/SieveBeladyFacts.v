(** Sieve_Belady against the abstract cache. *)
From stdpp Require Import gmap list numbers fin_maps.
From Verif Require Import Base Driver Abs AbsFacts Sim SpecApi ModelQueue QueueFacts PSim SimMoreQ ModelBeladyX SpecBeladyX XBeladyFacts.
Open Scope Z_scope.

Section SB.
  Context (thresh : Z -> Z -> Z -> Z) (cap md : Z).
  Local Notation O := (sb_ops thresh).
  Local Notation stay := (stays thresh cap).

  Definition sbrel (n nm : Z) (s : sbstate) (a : abs) : Prop :=
    brel cap md (sb_c s) a /\ qdom (sb_q s) (a_m a) /\ c_nreq (sb_c s) = n /\ sb_miss s = nm /\
    forall p, sb_ptr s = Some p -> p ∈ sb_q s.

  Lemma sb_keep_spec n nm s a id o e : sbrel n nm s a -> c_tbl (sb_c s) !! id = Some o ->
    a_m a !! id = Some e -> xb_keep thresh (sb_c s) (sb_miss s) (o_next o) = bool_decide (stay n nm e).
  Proof.
    intros (H1 & _ & <- & <- & _) Ho He. destruct (brel_some _ _ _ _ _ _ H1 He) as (o' & Ho' & _ & Hn & _).
    rewrite Ho in Ho'. injection Ho' as <-. unfold xb_keep, stays. rewrite Hn, (br_size _ _ _ _ H1).
    by apply bool_decide_ext.
  Qed.

  Lemma sb_walk_facts n nm s a cur : sbrel n nm s a -> (forall x, x ∈ cur -> is_Some (a_m a !! x)) ->
    (exists x e, sb_walk thresh (sb_c s) (sb_miss s) cur = Ok (Some x) /\ x ∈ cur /\ a_m a !! x = Some e /\ ~ stay n nm e) \/
    (sb_walk thresh (sb_c s) (sb_miss s) cur = Ok None /\ forall x e, x ∈ cur -> a_m a !! x = Some e -> stay n nm e).
  Proof.
    intros HR. induction cur as [|x cur IH]; intros Hin; cbn.
    { right. split; [done|]. intros x e Hx. by apply elem_of_nil in Hx. }
    destruct (Hin x ltac:(by left)) as [e He]. pose proof HR as (H1 & _).
    destruct (brel_some _ _ _ _ _ _ H1 He) as (o & Ho & _).
    rewrite Ho, (sb_keep_spec _ _ _ _ _ _ _ HR Ho He).
    destruct (decide (stay n nm e)) as [Hs|Hs].
    - rewrite bool_decide_true by done. destruct IH as [(y & ey & Hw & Hy & Hye & Hns)|[Hw Hall]].
      + intros y Hy. apply Hin. by right.
      + left. exists y, ey. split_and!; [done|by right|done|done].
      + right. split; [done|]. intros y ey Hy Hye. apply elem_of_cons in Hy as [->|Hy]; [|eauto].
        rewrite He in Hye. by injection Hye as <-.
    - rewrite bool_decide_false by done. left. exists x, e. split_and!; [done|by left|done|done].
  Qed.

  Lemma q_prev_in v q p : q_prev v q = Some p -> p ∈ q.
  Proof using.
    clear. intros H. revert p H. induction q as [|x q IH]; intros p; cbn; [done|].
    destruct q as [|y q]; [done|]. destruct (decide (y = v)).
    - intros [= <-]. by left.
    - intros H. right. by apply IH.
  Qed.
  Lemma q_prev_ne v q p : NoDup q -> q_prev v q = Some p -> p <> v.
  Proof using.
    clear. intros Hn. revert p. induction q as [|x q IH]; intros p; cbn; [done|].
    apply NoDup_cons in Hn as [Hx Hn]. destruct q as [|y q]; [done|]. destruct (decide (y = v)) as [->|].
    - intros [= <-] ->. apply Hx. by left.
    - by apply IH.
  Qed.

  Lemma from_id_in p rq x : x ∈ from_id p rq -> x ∈ rq.
  Proof using.
    clear. induction rq as [|y rq IH]; cbn; [done|]. destruct (decide (y = p)); [done|].
    intros H. right. by apply IH.
  Qed.

  (** One eviction. *)
  Lemma sbrel_evict n nm s t m a r : abs_ok cap md (mkAbs t m a) -> sbrel n nm s (mkAbs t m a) ->
    (exists v s', is_Some (m !! v) /\ sb_evict thresh s r = Ok s' /\
       pol_future_or_all thresh cap n nm m v /\ sbrel n nm s' (mkAbs t (delete v m) a)) \/
    (sb_evict thresh s r = Err NullDeref /\ sb_ptr s = None /\
       forall id e, m !! id = Some e -> stay n nm e).
  Proof.
    intros Hok HR. pose proof HR as (H1 & H2 & H3 & H4 & H5). cbn [a_m] in *.
    assert (Hre : forall x, x ∈ rev (sb_q s) <-> is_Some (m !! x)).
    { intros x. rewrite elem_of_list_In, <- in_rev, <- elem_of_list_In. apply H2. }
    (* evicting a resident *)
    assert (Hdrop : forall v, is_Some (m !! v) -> exists s',
      (let! c := cache_evict_base (sb_c s) v in Ok (mkSb c (q_del v (sb_q s)) (q_prev v (sb_q s)) (sb_miss s))) = Ok s' /\
      sbrel n nm s' (mkAbs t (delete v m) a)).
    { intros v [e He]. unfold cache_evict_base.
      destruct (brel_remove _ _ _ _ _ _ _ _ Hok H1 He) as (c' & Hc & Hb & _). rewrite Hc. cbn [rbind].
      eexists. split; [done|]. split_and!; cbn; [done|by apply qdom_del|by rewrite (remove_base_nreq _ _ _ Hc)|done|].
      intros p Hp. rewrite elem_q_del. split; [by eapply q_prev_in|]. eapply q_prev_ne; [apply H2|done]. }
    unfold sb_evict.
    set (start := match sb_ptr s with None => rev (sb_q s) | Some p => from_id p (rev (sb_q s)) end).
    replace (match sb_ptr s with None => Ok (rev (sb_q s)) | Some p => if decide (p ∈ rev (sb_q s))
        then Ok (from_id p (rev (sb_q s))) else Err UseAfterFree end) with (Ok start).
    2: { unfold start. destruct (sb_ptr s) as [p|] eqn:Ep; [|done].
         rewrite (decide_True (P := p ∈ rev (sb_q s))); [done|]. rewrite Hre. apply H2. auto. }
    cbn [rbind].
    assert (Hst : forall x, x ∈ start -> is_Some (m !! x)).
    { intros x. unfold start. destruct (sb_ptr s); rewrite <- Hre; [apply from_id_in|done]. }
    destruct (sb_walk_facts n nm s _ start HR Hst) as [(x & e & -> & Hx & He & Hns)|[-> _]]; cbn [rbind a_m] in *.
    { left. destruct (Hdrop x) as (s' & Hs' & HR'); [eauto|]. exists x, s'. split_and!; [eauto|done| |done].
      left. intros e' He'. rewrite He in He'. by injection He' as <-. }
    destruct (sb_walk_facts n nm s _ (rev (sb_q s)) HR) as [(x & e & -> & Hx & He & Hns)|[-> Hall]]; cbn [rbind a_m] in *.
    { intros x Hx. by apply Hre. }
    { left. destruct (Hdrop x) as (s' & Hs' & HR'); [eauto|]. exists x, s'. split_and!; [eauto|done| |done].
      left. intros e' He'. rewrite He in He'. by injection He' as <-. }
    assert (Hst' : forall id e, m !! id = Some e -> stay n nm e).
    { intros id e He. apply (Hall id); [|done]. apply Hre. eauto. }
    destruct (sb_ptr s) as [p|] eqn:Ep; cbn [rbind]; [left|right; done].
    assert (is_Some (m !! p)) as Hp by (apply H2; auto).
    destruct (Hdrop p Hp) as (s' & Hs' & HR'). exists p, s'. split_and!; [done|done|by right|done].
  Qed.

  Lemma sbrel_clock n nm s t m a : sbrel n nm s (mkAbs t m a) -> sbrel n nm s (mkAbs (t + 1) m a).
  Proof. intros (H1 & H2 & H3 & H4 & H5). split_and!; [by eapply brel_clock|done|done|done|done]. Qed.

  Lemma sbrel_tick n nm s a : sbrel n nm s a ->
    sbrel (n + 1) nm (mkSb (c_incr_nreq (sb_c s)) (sb_q s) (sb_ptr s) (sb_miss s)) a.
  Proof. intros (H1 & H2 & H3 & H4 & H5). split_and!; cbn; [by apply brel_tick|done|by rewrite H3|done|done]. Qed.

  Lemma sbrel_find_false n nm s a r : sbrel n nm s a ->
    sb_find s r false = Ok (s, bool_decide (is_Some (a_m a !! r_id r))).
  Proof. intros (H & _). unfold sb_find. rewrite (brel_find_false _ _ _ _ _ H). by destruct s. Qed.
  Lemma sbrel_find_miss n nm s a r u : sbrel n nm s a -> a_m a !! r_id r = None -> sb_find s r u = Ok (s, false).
  Proof. intros (H & _) Hn. unfold sb_find. rewrite (brel_find_miss _ _ _ _ _ _ H Hn). by destruct s. Qed.
  Lemma sbrel_find_hit n nm s t m a r e : sbrel n nm s (mkAbs t m a) -> m !! r_id r = Some e ->
    exists s', sb_find s r true = Ok (s', true) /\
      sbrel n nm s' (mkAbs (t + 1) (<[r_id r := touch t r e]> m) a).
  Proof.
    intros (H1 & H2 & H3 & H4 & H5) He. unfold sb_find.
    destruct (brel_find_hit _ _ _ _ _ _ _ _ H1 He) as (c' & Hc & Hb & _). rewrite Hc.
    eexists. split; [done|]. cbn in *. split_and!; cbn; [done| | |done|done].
    - apply qdom_upd; eauto.
    - by rewrite (find_base_nreq _ _ _ _ _ Hc).
  Qed.
  Lemma sbrel_can n nm s t m a r : sbrel n nm s (mkAbs t m a) ->
    exists s', sb_can_insert s r = Ok (s', (admit a r).2 && bool_decide (r_size r + md <= cap)) /\
      sbrel n nm s' (mkAbs t m (admit a r).1).
  Proof.
    intros (H1 & H2 & H3 & H4 & H5). unfold sb_can_insert.
    destruct (brel_can _ _ _ _ _ _ r H1) as (c' & -> & Hb & ->).
    eexists. split; [done|]. split_and!; cbn; [done|done|done|done|done].
  Qed.
  Definition kept (n nm t : Z) (r : req) (m : gmap Z entry) : gmap Z entry :=
    if decide (r_next r - n <= thresh cap nm n) then <[r_id r := fresh t r]> m else m.
  Lemma sbrel_insert n nm s t m a r : 0 <= md -> sbrel n nm s (mkAbs t m a) -> m !! r_id r = None -> req_ok md r ->
    exists s', sb_insert thresh s r = Ok s' /\ sbrel n nm s' (mkAbs (t + 1) (kept n nm t r m) a).
  Proof.
    intros Hmd HR Hn Hr. pose proof HR as (H1 & H2 & H3 & H4 & H5). unfold sb_insert, kept, xb_keep.
    rewrite (br_size _ _ _ _ H1), H3, H4.
    destruct (decide (r_next r - n <= thresh cap nm n)) as [Hk|Hk].
    - rewrite bool_decide_true by done.
      destruct (brel_insert _ _ _ _ _ _ r H1 Hn Hr Hmd) as (c' & Hc & Hb & _). rewrite Hc. cbn [rbind].
      eexists. split; [done|]. cbn in *. split_and!; cbn; [done|by apply qdom_cons| |done|].
      + by rewrite (insert_base_nreq _ _ _ Hc).
      + intros p Hp. right. auto.
    - rewrite bool_decide_false by done. eexists. split; [done|]. by apply sbrel_clock.
  Qed.
  Lemma sbrel_remove n nm s t m a id : abs_ok cap md (mkAbs t m a) -> sbrel n nm s (mkAbs t m a) ->
    exists s', sb_remove s id = Ok (s', bool_decide (is_Some (m !! id))) /\
      sbrel n nm s' (mkAbs t (delete id m) a).
  Proof.
    intros Hok (H1 & H2 & H3 & H4 & H5). unfold sb_remove. cbn in *.
    destruct (m !! id) as [e|] eqn:E.
    - destruct (brel_some _ _ _ _ _ _ H1 E) as (o & -> & _).
      destruct (brel_remove _ _ _ _ _ _ _ _ Hok H1 E) as (c' & Hc & Hb & _). rewrite Hc. cbn [rbind].
      rewrite bool_decide_true by eauto.
      eexists. split; [done|]. split_and!; cbn; [done|by apply qdom_del|by rewrite (remove_base_nreq _ _ _ Hc)|done|].
      intros p Hp. rewrite elem_q_del. destruct (decide (sb_ptr s = Some id)) as [Hq|Hq].
      + split; [by eapply q_prev_in|]. eapply q_prev_ne; [apply H2|done].
      + split; [auto|congruence].
    - rewrite (brel_none _ _ _ _ _ H1 E). rewrite bool_decide_false by (by intros []).
      eexists. split; [done|]. rewrite delete_notin by done. done.
  Qed.

  (** The loop ends, or crashes where everything should stay. *)
  Lemma sb_loop n nm r fuel : forall s t m a, abs_ok cap md (mkAbs t m a) ->
    sbrel n nm s (mkAbs t m a) -> r_size r + md <= cap -> (size m <= fuel)%nat ->
    exists s' m', evict_to (pol_future_or_all thresh cap n nm) cap md (r_size r + md) m m' /\
        sbrel n nm s' (mkAbs t m' a) /\ evict_loop O fuel s r = Ok s' \/
      evict_loop O fuel s r = Err NullDeref.
  Proof.
    induction fuel as [|fuel IH]; intros s t m a Hok HR Hfit Hf; cbn.
    all: pose proof HR as (H1 & _); cbn [a_m] in *.
    all: rewrite (br_size _ _ _ _ H1), (br_md _ _ _ _ H1), (br_occ _ _ _ _ H1); cbn [a_m].
    all: destruct (decide (msum md m + r_size r + md > cap)) as [Hgt|Hle];
      [|exists s, m; left; split_and!; [constructor; lia|done|done]].
    { assert (m = ∅) as -> by (apply map_size_empty_inv; lia). rewrite msum_empty in Hgt. lia. }
    destruct (sbrel_evict _ _ _ _ _ _ r Hok HR) as [(v & s1 & Hv & -> & Hp & HR1)|(-> & _)]; cbn [rbind];
      [|exists s, m; by right].
    destruct (IH s1 t (delete v m) a) as (s' & m' & [(Hm' & HR2 & Hl)|Hl]); auto.
    { by apply abs_ok_delete. }
    { destruct Hv as [e He]. rewrite map_size_delete, He. cbn. lia. }
    - exists s', m'. left. split_and!; [eapply ev_more; [lia|done|done|done]|done|done].
    - exists s', m'. by right.
  Qed.

  (** One call: it completes as the abstract cache does, or crashes. *)
  Lemma sb_step_facts n nm fuel s a c :
    abs_ok cap md a -> sbrel n nm s a -> sieve_call md c -> (size (a_m a) <= fuel)%nat ->
    sb_step thresh fuel s c = Err NullDeref \/
    exists s' o t1 m1 ad1 m2, sb_step thresh fuel s c = Ok (s', o) /\
      abs_step (pol_future_or_all thresh cap (n + is_get c) nm) cap md a c o (mkAbs t1 m1 ad1) /\
      (forall id, refused thresh cap (n + is_get c) nm c (a_m a) id -> m2 !! id = None) /\
      (forall id, ~ refused thresh cap (n + is_get c) nm c (a_m a) id -> m2 !! id = m1 !! id) /\
      sbrel (n + is_get c) (nm + is_missed c o) s' (mkAbs t1 m2 ad1) /\ abs_ok cap md (mkAbs t1 m2 ad1).
  Proof.
    intros Hok HR Hc Hf.
    cut (sb_step thresh fuel s c = Err NullDeref \/ exists s' o t1 m1 ad1 m2, sb_step thresh fuel s c = Ok (s', o) /\
      abs_step (pol_future_or_all thresh cap (n + is_get c) nm) cap md a c o (mkAbs t1 m1 ad1) /\
      (forall id, refused thresh cap (n + is_get c) nm c (a_m a) id -> m2 !! id = None) /\
      (forall id, ~ refused thresh cap (n + is_get c) nm c (a_m a) id -> m2 !! id = m1 !! id) /\
      sbrel (n + is_get c) (nm + is_missed c o) s' (mkAbs t1 m2 ad1) /\ (m2 = m1 \/ exists x, m2 = delete x m1)).
    { intros [H|(s' & o & t1 & m1 & ad1 & m2 & H0 & H1 & H2 & H3 & H4 & H5)]; [by left|right].
      exists s', o, t1, m1, ad1, m2. split_and!; try done.
      assert (abs_ok cap md (mkAbs t1 m1 ad1)) by (eapply abs_step_ok; [done|by destruct c|done]).
      destruct H5 as [->|[x ->]]; [done|by apply abs_ok_delete]. }
    destruct a as [t m ad]. pose proof (abs_ok_md _ _ _ _ _ Hok) as Hmd. cbn [a_m] in Hf.
    assert (Hkept : forall n t r m, m !! r_id r = None ->
      (forall id, id = r_id r /\ m !! id = None /\ ~ r_next r - n <= thresh cap nm n -> kept n nm t r m !! id = None) /\
      (forall id, ~ (id = r_id r /\ m !! id = None /\ ~ r_next r - n <= thresh cap nm n) ->
         kept n nm t r m !! id = <[r_id r := fresh t r]> m !! id) /\
      (kept n nm t r m = <[r_id r := fresh t r]> m \/ exists x, kept n nm t r m = delete x (<[r_id r := fresh t r]> m))).
    { clear. intros n t r m Hn. unfold kept. destruct (decide _) as [Hd|Hd].
      - split_and!; [by intros id (_ & _ & ?)|done|by left].
      - split_and!.
        + by intros id (-> & _).
        + intros id Hx. destruct (decide (id = r_id r)) as [->|Hne]; [exfalso; by apply Hx|].
          by rewrite lookup_insert_ne.
        + right. exists (r_id r). by rewrite delete_insert. }
    destruct c as [r|r upd|r|id|r|r]; cbn [sieve_call] in Hc; try done; cbn [is_get is_missed refused a_m];
      rewrite ?Z.add_0_r.
    - cbn [sb_step]. unfold sb_get, cache_get_base. cbn [op_tick op_find op_can_insert op_insert sb_ops].
      set (s0 := mkSb (c_incr_nreq (sb_c s)) (sb_q s) (sb_ptr s) (sb_miss s)).
      assert (HR0 : sbrel (n + 1) nm s0 (mkAbs t m ad)) by (by apply sbrel_tick).
      destruct (m !! r_id r) as [e|] eqn:E.
      + destruct (sbrel_find_hit _ _ _ _ _ _ _ _ HR0 E) as (s4 & -> & HR4). cbn [rbind]. right.
        eexists _, _, _, _, _, _. split_and!; [done|by constructor| | |rewrite Z.add_0_r; exact HR4|by left].
        * intros id (-> & Hx & _). congruence.
        * done.
      + rewrite (sbrel_find_miss _ _ _ _ _ true HR0 E). cbn [rbind].
        destruct (sbrel_can _ _ _ _ _ _ r HR0) as (s4 & -> & HR4). cbn [rbind].
        assert (Hup : forall s a, sbrel (n + 1) nm s a ->
          sbrel (n + 1) (nm + 1) (mkSb (sb_c s) (sb_q s) (sb_ptr s) (sb_miss s + 1)) a).
        { intros s5 a5 (G1 & G2 & G3 & G4 & G5). split_and!; cbn; [done|done|done|by rewrite G4|done]. }
        destruct (admit ad r) as [ad' ok'] eqn:Ead. cbn [fst snd] in *. destruct ok'; cbn [andb].
        * destruct (decide (r_size r + md <= cap)) as [Hle|Hgt].
          -- rewrite bool_decide_true by done.
             assert (Hok3 : abs_ok cap md (mkAbs t m ad')) by (by eapply abs_ok_adm).
             destruct (sb_loop (n + 1) nm r fuel s4 t m ad' Hok3 HR4 Hle Hf) as (s5 & m' & [(Hev & HR5 & ->)| ->]);
               cbn [rbind]; [|by left].
             destruct (evict_to_ok _ _ _ _ _ _ _ ad' Hev Hok3) as (Hok4 & Hfit & Hsub & _).
             assert (Hn : m' !! r_id r = None).
             { destruct (m' !! r_id r) eqn:E'; [|done].
               rewrite (lookup_weaken _ _ _ _ E' Hsub) in E. done. }
             destruct (sbrel_insert _ _ _ _ _ _ r Hmd HR5 Hn Hc) as (s7 & -> & HR7). cbn [rbind].
             right. destruct (Hkept (n + 1) t r m' Hn) as (K1 & K2 & K3).
             eexists _, _, _, _, _, _. split_and!; [done|eapply AGetMiss; eauto| | |apply Hup; exact HR7|exact K3].
             ++ intros id (-> & Hx & Hy). by apply K1.
             ++ intros id Hx. apply K2. intros (-> & _ & ?). by apply Hx.
          -- rewrite bool_decide_false by done. right. cbn [rbind].
             eexists _, _, _, _, _, m. split_and!; [done|eapply AGetTooBig; eauto; lia|by intros ? (-> & ? & _)|done|apply Hup; by apply sbrel_clock|by left].
        * right. cbn [rbind]. eexists _, _, _, _, _, m.
          split_and!; [done|eapply AGetRefused; eauto|by intros ? (-> & ? & _)|done|apply Hup; by apply sbrel_clock|by left].
    - right. cbn [sb_step step op_find sb_ops]. destruct upd.
      + destruct (m !! r_id r) as [e|] eqn:E.
        * destruct (sbrel_find_hit _ _ _ _ _ _ _ _ HR E) as (s4 & -> & HR4). cbn [rbind].
          eexists _, _, _, _, _, _. split_and!; [done|by constructor|done|done|exact HR4|by left].
        * rewrite (sbrel_find_miss _ _ _ _ _ true HR E). cbn [rbind].
          eexists _, _, _, _, _, m. split_and!; [done|by constructor|done|done|by apply sbrel_clock|by left].
      + rewrite (sbrel_find_false _ _ _ _ _ HR). cbn [rbind].
        eexists _, _, _, _, _, m. split_and!; [done|apply AFind|done|done|by apply sbrel_clock|by left].
    - right. cbn [sb_step step op_find sb_ops op_occupied op_md op_size op_insert].
      rewrite (sbrel_find_false _ _ _ _ _ HR). cbn [rbind a_m].
      destruct (m !! r_id r) as [e|] eqn:E.
      + rewrite bool_decide_true by eauto.
        eexists _, _, _, _, _, m. split_and!; [done|apply AInsertSkip; left; rewrite E; eauto| |done|by apply sbrel_clock|by left].
        by intros id (_ & ? & _).
      + rewrite bool_decide_false by (by intros []). pose proof HR as (H1 & _).
        rewrite (br_size _ _ _ _ H1), (br_md _ _ _ _ H1), (br_occ _ _ _ _ H1); cbn [a_m].
        destruct (decide _) as [Hgt|Hle].
        * eexists _, _, _, _, _, m. split_and!; [done|apply AInsertSkip; right; lia| |done|by apply sbrel_clock|by left].
          by intros id (_ & ? & _).
        * destruct (sbrel_insert _ _ _ _ _ _ r Hmd HR E Hc) as (s7 & -> & HR7). cbn [rbind].
          destruct (Hkept n t r m E) as (K1 & K2 & K3).
          eexists _, _, _, _, _, _. split_and!; [done|apply AInsert; auto; lia|exact K1|exact K2|exact HR7|exact K3].
    - right. cbn [sb_step step op_remove sb_ops].
      destruct (sbrel_remove _ _ _ _ _ _ id Hok HR) as (s4 & -> & HR4). cbn [rbind].
      eexists _, _, _, _, _, _. split_and!; [done|apply ARemove|done|done|by apply sbrel_clock|by left].
    - cbn [sb_step step op_nobj op_evict sb_ops]. pose proof HR as (H1 & _). rewrite (br_nobj _ _ _ _ H1).
      cbn [a_m]. destruct (decide _) as [Hz|Hnz].
      + assert (m = ∅) as -> by (apply map_size_empty_inv; lia). right.
        eexists _, _, _, _, _, ∅. split_and!; [done|apply AEvictEmpty|done|done|by apply sbrel_clock|by left].
      + destruct (sbrel_evict _ _ _ _ _ _ r Hok HR) as [(v & s1 & Hv & -> & Hp & HR1)|(-> & _)]; cbn [rbind];
          [right|by left].
        eexists _, _, _, _, _, _. split_and!; [done|by apply AEvict|done|done|by apply sbrel_clock|by left].
  Qed.


  Lemma sb_run_facts fuel cs : forall n nm s a,
    abs_ok cap md a -> sbrel n nm s a -> Forall (sieve_call md) cs -> (size (a_m a) + length cs <= fuel)%nat ->
    sb_run thresh fuel s cs = Err NullDeref \/
    exists s' os a', sb_run thresh fuel s cs = Ok (s', os) /\
      refusing_run thresh cap md n nm a cs os a' /\
      sbrel (n + n_gets cs) (nm + n_missed cs os) s' a' /\ abs_ok cap md a'.
  Proof.
    induction cs as [|c cs IH]; intros n nm s a Hok HR Hc Hf; cbn [sb_run n_gets n_missed].
    { right. exists s, [], a. cbn. rewrite !Z.add_0_r. split_and!; [done|constructor|done|done]. }
    apply Forall_cons in Hc as [Hc Hcs]. cbn in Hf.
    destruct (sb_step_facts n nm fuel s a c Hok HR Hc ltac:(lia))
      as [->|(s1 & o & t1 & m1 & ad1 & m2 & -> & Ha & Hg & Ho & HR1 & Hok1)]; cbn [rbind]; [by left|].
    assert (Hsz : (size m2 <= size (a_m a) + 1)%nat).
    { pose proof (abs_step_size _ _ _ _ _ _ _ Ha) as Hs1. cbn in Hs1.
      assert (size m2 <= size m1)%nat; [|lia]. rewrite <- !size_dom. apply subseteq_size.
      intros id Hid. rewrite elem_of_dom in *. destruct (decide (is_Some (m1 !! id))) as [|Hn]; [done|].
      destruct Hid as [e He].
      assert (Hd : refused thresh cap (n + is_get c) nm c (a_m a) id \/
                   ~ refused thresh cap (n + is_get c) nm c (a_m a) id).
      { assert (Decision (refused thresh cap (n + is_get c) nm c (a_m a) id)) as Hdec.
        { unfold refused. destruct c; apply _. }
        destruct Hdec; auto. }
      destruct Hd as [Hd|Hd].
      - rewrite (Hg _ Hd) in He. done.
      - rewrite (Ho _ Hd) in He. exfalso. apply Hn. eauto. }
    destruct (IH _ _ _ _ Hok1 HR1 Hcs) as [->|(s' & os & a' & -> & Hrun & HR' & Hok')]; cbn [rbind a_m].
    { cbn. lia. }
    { by left. }
    right. exists s', (o :: os), a'. split_and!; [done|by econstructor| |done].
    by rewrite !Z.add_assoc.
  Qed.
End SB.

Lemma sb_init_rel b cap adm : let md := if b : bool then 1 else 0 in
  sbrel cap md 0 0 (sb_init b cap adm) (abs_init adm).
Proof. split_and!; [apply brel_init|apply qdom_empty|done|done|done]. Qed.
