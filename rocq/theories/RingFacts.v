(** Clock and Sieve meet the sweep specification of SpecRing.v. *)
From stdpp Require Import gmap list numbers fin_maps.
From Verif Require Import Base Driver Abs AbsFacts Sim SpecApi ApiFacts ModelQueue QueueFacts
  ClockFacts SimClock SimSieve SpecRing.
Open Scope Z_scope.

Lemma map_at (c c' : cache) id f q :
  (forall x, x ∈ q -> obj_cnt c' x = if decide (x = id) then f (obj_cnt c x) else obj_cnt c x) ->
  map (fun x => (x, obj_cnt c' x)) q = ring_at id f (map (fun x => (x, obj_cnt c x)) q).
Proof.
  intros H. unfold ring_at. rewrite map_map. apply map_ext_in. intros x Hx.
  apply elem_of_list_In in Hx. cbn. rewrite (H x Hx). by destruct (decide (x = id)).
Qed.

Lemma map_drop (c : cache) id q :
  map (fun x => (x, obj_cnt c x)) (q_del id q) = ring_drop id (map (fun x => (x, obj_cnt c x)) q).
Proof.
  unfold ring_drop, q_del. induction q as [|y q IH]; [done|]. cbn [map].
  destruct (decide (y = id)) as [->|Hne].
  - do 2 (rewrite filter_cons_False by (cbn; naive_solver)). apply IH.
  - do 2 (rewrite filter_cons_True by done). cbn [map]. by rewrite IH.
Qed.

Lemma map_same (c c' : cache) (q : list Z) :
  (forall x, x ∈ q -> obj_cnt c' x = obj_cnt c x) ->
  map (fun x => (x, obj_cnt c' x)) q = map (fun x => (x, obj_cnt c x)) q.
Proof. intros H. apply map_ext_in. intros x Hx. rewrite H; [done|]. by apply elem_of_list_In. Qed.

Lemma rev_q_del id q : rev (q_del id q) = q_del id (rev q).
Proof.
  unfold q_del. induction q as [|y q IH]; [done|]. cbn [rev]. rewrite filter_cons, filter_app.
  rewrite filter_cons, filter_nil. destruct (decide (y <> id)); cbn [rev]; by rewrite IH, ?app_nil_r.
Qed.

Lemma ring_ids_map (f : Z -> Z) (q : list Z) : ring_ids (map (fun x => (x, f x)) q) = q.
Proof. unfold ring_ids. rewrite map_map. by rewrite map_id. Qed.

Lemma elem_map_pair (f : Z -> Z) (q : list Z) p : p ∈ map (fun x => (x, f x)) q -> p.1 ∈ q /\ p.2 = f p.1.
Proof. intros (x & -> & Hx)%elem_of_list_fmap. done. Qed.

Section Clock.
  Context (mf cap : Z) (adm : admissioner) (Hmf : 0 <= mf) (Hcap : 0 <= cap).
  Let O := clock_ops mf.
  Let s0 := clock_init cap adm.

  Lemma clock_reach s : reaches O s0 (req_ok 0) s -> exists t m a, crel mf cap 0 s (mkAbs t m a) /\ abs_ok cap 0 (mkAbs t m a).
  Proof.
    intros H. destruct (reaches_rel pol_any O cap 0 adm (req_ok 0) (crel mf cap 0) s0) with (s := s) as ([t m a] & H1 & H2); eauto.
    - by apply clock_sim.
    - apply clock_init_rel.
    - lia.
  Qed.

  Lemma clock_ring_evict s : reaches O s0 (req_ok 0) s -> q_q s <> [] -> forall r,
    exists v s', op_to_evict O s r = Ok (s, Some v) /\ op_evict O s r = Ok s' /\
      clock_evict_spec (clock_view s) v (clock_view s').
  Proof.
    intros Hs Hq r. destruct (clock_reach s Hs) as (t & m & a & HR & Hok).
    assert (Hne : m <> ∅).
    { intros ->. destruct HR as (_ & [_ H2] & _). cbn in *. destruct (q_q s) as [|x q]; [done|].
      destruct (H2 x) as [[? Hx] _]; [left|]. by rewrite lookup_empty in Hx. }
    destruct (crel_scan mf cap 0 s t m a Hok HR Hne) as (l1 & x & l2 & k & Hrq & Hk & Hl1 & Hl2 & [e He] & Hsc & Hte).
    destruct HR as (H1 & H2 & H3). cbn in *.
    set (d := fun y => _) in Hsc.
    destruct (brel_remove _ _ _ _ _ _ _ _ Hok (brel_dec _ _ _ _ d H1) He) as (c' & Hc & Hb & Ht).
    exists x, (mkQ c' (rev l1 ++ rev l2)). split; [apply Hte|].
    split. { unfold clock_evict. rewrite Hsc. cbn. unfold cache_evict_base. rewrite Hc. cbn.
      rewrite app_assoc, removelast_last. done. }
    assert (Hnd : NoDup (l1 ++ x :: l2)) by (rewrite <- Hrq; apply NoDup_rev'; apply H2).
    apply NoDup_app in Hnd as (Hn1 & Hn2 & Hn3). apply NoDup_cons in Hn3 as [Hn3 Hn4].
    assert (Hin : forall y, y ∈ l1 ++ x :: l2 -> is_Some (c_tbl (q_c s) !! y)).
    { intros y Hy. rewrite <- Hrq, rev_elem in Hy. apply H2 in Hy. eapply brel_is_Some; eauto. }
    assert (Hcnt : forall y, y ∈ l1 ++ l2 -> obj_cnt c' y = cnt (q_c s) y - d y).
    { intros y Hy. unfold obj_cnt. rewrite Ht, lookup_delete_ne.
      - rewrite <- cnt_dec; [done|]. apply Hin. set_solver.
      - intros <-. apply elem_of_app in Hy as [Hy|Hy]; [|done]. apply (Hn2 _ Hy). left. }
    unfold clock_view, clock_evict_spec. cbn. rewrite Hrq, rev_app_distr, !rev_involutive.
    exists (map (fun x => (x, obj_cnt (q_c s) x)) l1), (cnt (q_c s) x),
      (map (fun x => (x, obj_cnt (q_c s) x)) l2).
    split; [by rewrite map_app|]. split_and!.
    - intros p [Hp ->]%elem_map_pair. rewrite Hk. by apply Hl1.
    - intros p [Hp ->]%elem_map_pair. rewrite Hk. by apply Hl2.
    - rewrite map_app. unfold ring_lower. rewrite !map_map. cbn. f_equal; apply map_ext_in;
        intros y Hy%elem_of_list_In; rewrite Hcnt by set_solver; f_equal; unfold d; rewrite decide_True by set_solver.
      + rewrite one_in_notin by (intros Hy'; apply (Hn2 _ Hy'); by right). rewrite Hk. unfold obj_cnt, cnt. lia.
      + rewrite one_in_in by done. rewrite Hk. unfold obj_cnt, cnt. lia.
  Qed.

  (** Hits count up to the maximum and reorder nothing; a new object is the
      newest, with no chances; removal drops one object. *)
  Lemma clock_ring_find s r u : reaches O s0 (req_ok 0) s -> exists s' h, op_find O s r u = Ok (s', h) /\
    clock_view s' = if u then ring_at (r_id r) (fun k => Z.min mf (k + 1)) (clock_view s) else clock_view s.
  Proof.
    intros Hs. destruct (clock_reach s Hs) as (t & m & a & HR & Hok). destruct HR as (H1 & H2 & H3).
    cbn in *. unfold clock_find. destruct u.
    - destruct (m !! r_id r) as [e|] eqn:E.
      + destruct (brel_find_hit _ _ _ _ _ _ _ _ H1 E) as (c' & -> & Hb & o & Ho & Hc').
        cbn. eexists _, _. split; [done|]. unfold clock_view. cbn. apply map_at.
        intros x _. unfold obj_cnt. cbn. subst c'. cbn.
        destruct (decide (x = r_id r)) as [->|Hne].
        * rewrite lookup_alter, lookup_insert, Ho. cbn. specialize (H3 _ _ Ho).
          destruct (decide (o_p1 o < mf)); cbn; lia.
        * by rewrite lookup_alter_ne, lookup_insert_ne by done.
      + rewrite (brel_find_miss _ _ _ _ _ _ H1 E). cbn. eexists _, _. split; [done|].
        unfold clock_view. cbn. unfold ring_at. rewrite map_map. apply map_ext_in.
        intros x Hx%elem_of_list_In. cbn. rewrite decide_False; [done|]. intros ->.
        rewrite rev_elem in Hx. apply H2 in Hx. rewrite E in Hx. by destruct Hx.
    - rewrite (brel_find_false _ _ _ _ _ H1). rewrite andb_false_r. eexists _, _. by split.
  Qed.

  Lemma clock_ring_insert s r s' : reaches O s0 (req_ok 0) s -> absent O s (r_id r) -> req_ok 0 r ->
    op_insert O s r = Ok s' -> clock_view s' = clock_view s ++ [(r_id r, 0)].
  Proof.
    intros Hs Hab Hr. destruct (clock_reach s Hs) as (t & m & a & HR & Hok).
    eapply (absent_iff pol_any O cap 0 (req_ok 0) (crel mf cap 0)) in Hab; [|by apply clock_sim|exact HR].
    destruct HR as (H1 & H2 & H3). cbn in *. unfold clock_insert.
    destruct (brel_insert _ _ _ _ _ _ r H1 Hab Hr) as (c' & -> & Hb & Ht); [lia|].
    cbn. intros [= <-]. unfold clock_view. cbn. rewrite map_app. cbn. f_equal.
    - apply map_same. intros x Hx. unfold obj_cnt. cbn. rewrite Ht.
      assert (x <> r_id r). { intros ->. rewrite rev_elem in Hx. apply H2 in Hx.
        rewrite Hab in Hx. by destruct Hx. }
      by rewrite lookup_alter_ne, lookup_insert_ne by done.
    - unfold obj_cnt. cbn. rewrite Ht, lookup_alter, lookup_insert. done.
  Qed.

  Lemma clock_ring_remove s id : reaches O s0 (req_ok 0) s ->
    exists s' b, op_remove O s id = Ok (s', b) /\ clock_view s' = ring_drop id (clock_view s).
  Proof.
    intros Hs. destruct (clock_reach s Hs) as (t & m & a & HR & Hok).
    destruct HR as (H1 & H2 & H3). cbn in *. unfold q_remove.
    destruct (m !! id) as [e|] eqn:E.
    - destruct (brel_some _ _ _ _ _ _ H1 E) as (o & -> & _).
      destruct (brel_remove _ _ _ _ _ _ _ _ Hok H1 E) as (c' & -> & Hb & Ht).
      cbn. eexists _, _. split; [done|]. unfold clock_view. cbn. rewrite rev_q_del, <- map_drop.
      apply map_same. intros x [_ Hx]%elem_q_del. unfold obj_cnt. rewrite Ht.
      by rewrite lookup_delete_ne by congruence.
    - rewrite (brel_none _ _ _ _ _ H1 E). eexists _, _. split; [done|].
      unfold clock_view. rewrite <- map_drop, q_del_notin; [done|]. rewrite rev_elem.
      intros Hx. apply H2 in Hx. rewrite E in Hx. by destruct Hx.
  Qed.
End Clock.

Section Sieve.
  Context (b : bool) (cap : Z) (adm : admissioner) (Hcap : 0 <= cap).
  Let O := sieve_ops.
  Let md := if b then 1 else 0.
  Let s0 := sieve_init b cap adm.

  Lemma md_pos : 0 <= md. Proof. unfold md. destruct b; lia. Qed.

  Lemma sieve_reach s : reaches O s0 (req_ok md) s -> exists t m a, srel cap md s (mkAbs t m a) /\ abs_ok cap md (mkAbs t m a).
  Proof.
    intros H. destruct (reaches_rel pol_any O cap md adm (req_ok md) (srel cap md) s0) with (s := s) as ([t m a] & H1 & H2); eauto.
    - apply sieve_sim.
    - apply sieve_init_rel.
    - apply md_pos.
  Qed.

  Lemma sieve_ring_evict s : reaches O s0 (req_ok md) s -> v_q s <> [] -> forall r,
    exists v s', op_to_evict O s r = Ok (s, Some v) /\ op_evict O s r = Ok s' /\
      sieve_evict_spec (sieve_view s) (v_ptr s) v (sieve_view s') (v_ptr s').
  Proof.
    intros Hs Hq r. destruct (sieve_reach s Hs) as (t & m & a & HR & Hok).
    assert (Hne : m <> ∅).
    { intros ->. destruct HR as (_ & [_ H2] & _). cbn in *. destruct (v_q s) as [|x q]; [done|].
      destruct (H2 x) as [[? Hx] _]; [left|]. by rewrite lookup_empty in Hx. }
    destruct (srel_scan cap md s t m a HR Hne) as (A & B & l1 & x & l2 & [HS1 HS2] & HL & Hl1 & Hl2 & [e He] & Hin & Hev & Hte).
    destruct HR as (H1 & H2 & H3 & H4 & H5). cbn in *.
    set (d := fun y => _) in Hev.
    destruct (brel_remove _ _ _ _ _ _ _ _ Hok (brel_dec _ _ _ _ d H1) He) as (c' & Hc & Hb & Ht).
    exists x, (mkSieve c' (q_del x (v_q s)) (q_prev x (v_q s))). split; [apply Hte|].
    split. { rewrite Hev. unfold cache_evict_base. rewrite Hc. done. }
    assert (Hnd : NoDup (A ++ B)) by (rewrite <- HS1; apply NoDup_rev'; apply H2).
    assert (Hnd' : NoDup (l1 ++ x :: l2)).
    { rewrite <- HL. by rewrite (Permutation_app_comm B A). }
    apply NoDup_app in Hnd' as (Hn1 & Hn2 & Hn3). apply NoDup_cons in Hn3 as [Hn3 Hn4].
    assert (Hsome : forall y, y ∈ v_q s -> exists o, c_tbl (v_c s) !! y = Some o /\ (o_p1 o = 0 \/ o_p1 o = 1)).
    { intros y Hy. apply H2 in Hy. apply (brel_is_Some _ _ _ _ _ H1) in Hy as [o Ho]. eauto. }
    assert (Hcnt01 : forall y, y ∈ v_q s -> cnt (v_c s) y = 0 \/ cnt (v_c s) y = 1).
    { intros y Hy. destruct (Hsome y Hy) as (o & Ho & Ho1). unfold cnt. by rewrite Ho. }
    assert (Hcnt : forall y, y ∈ v_q s -> y <> x -> obj_cnt c' y = cnt (v_c s) y - d y).
    { intros y Hy Hyx. unfold obj_cnt. rewrite Ht, lookup_delete_ne by congruence.
      rewrite <- cnt_dec; [done|]. destruct (Hsome y Hy) as (o & -> & _). eauto. }
    assert (Hxq : x ∈ v_q s) by (apply Hin; rewrite HL; set_solver).
    set (pr := fun y => (y, obj_cnt (v_c s) y)).
    assert (Hfst : forall l, map fst (map pr l) = l) by (intros l; apply ring_ids_map).
    unfold sieve_evict_spec, sieve_view. fold pr. cbn.
    exists (map pr A), (map pr B). split; [rewrite HS1; apply map_app|]. split.
    { destruct (v_ptr s); [|by rewrite HS2]. destruct HS2 as [B' ->]. done. }
    split.
    - assert (Hview : forall f : Z * Z -> Z * Z,
        (forall y, y ∈ v_q s -> y <> x -> (y, obj_cnt c' y) = f (pr y)) ->
        map (fun y => (y, obj_cnt c' y)) (rev (q_del x (v_q s))) = map f (ring_drop x (map pr (rev (v_q s))))).
      { intros f Hf. unfold pr. rewrite <- map_drop, rev_q_del, map_map. apply map_ext_in.
        intros y [Hy1 Hy2]%elem_of_list_In%elem_q_del. rewrite rev_elem in Hy1. by apply Hf. }
      destruct (Hcnt01 x Hxq) as [Hx0|Hx1].
      + left. exists (map pr l1), (map pr l2). split_and!.
        * rewrite <- map_app, HL, map_app. cbn. unfold pr at 2. unfold obj_cnt. unfold cnt in Hx0. by rewrite Hx0.
        * intros p (y & -> & Hy)%elem_of_list_fmap. cbn. specialize (Hl1 y Hy).
          assert (Hyq : y ∈ v_q s) by (apply Hin; rewrite HL; set_solver).
          destruct (Hcnt01 y Hyq); unfold obj_cnt; unfold cnt in *; lia.
        * apply Hview. intros y Hy Hyx. rewrite Hcnt by done. unfold ring_ids. rewrite Hfst.
          unfold d. rewrite decide_True by (by apply Hin). unfold one_in. cbn.
          destruct (decide (y ∈ l1)) as [Hyl|Hyl].
          -- specialize (Hl1 y Hyl). destruct (Hcnt01 y Hy); f_equal; lia.
          -- unfold pr. f_equal. unfold obj_cnt, cnt in *. lia.
      + right. assert (Hl1e : l1 = []).
        { destruct l1 as [|y l1]; [done|]. specialize (Hl1 y ltac:(left)).
          assert (Hyq : y ∈ v_q s) by (apply Hin; rewrite HL; set_solver).
          destruct (Hcnt01 y Hyq); lia. }
        subst l1. assert (Hall : forall y, y ∈ v_q s -> cnt (v_c s) y = 1).
        { intros y Hy. destruct (Hcnt01 y Hy) as [Hy0|]; [|done]. apply Hin in Hy. rewrite HL in Hy.
          apply elem_of_cons in Hy as [->|Hy]; [done|]. specialize (Hl2 y Hy). lia. }
        exists (map pr l2). split_and!.
        * rewrite <- map_app, HL. cbn. unfold pr at 1. unfold obj_cnt. unfold cnt in Hx1. by rewrite Hx1.
        * intros p (y & -> & Hy)%elem_of_list_fmap. rewrite rev_elem in Hy. apply (Hall _ Hy).
        * apply Hview. intros y Hy Hyx. rewrite Hcnt by done.
          unfold d. rewrite decide_True by (by apply Hin). rewrite one_in_notin by (by inversion 1).
          cbn. f_equal. rewrite (Hall _ Hy). lia.
    - unfold ring_ids. rewrite Hfst.
      pose proof (proj1 H2) as Hnq.
      apply elem_of_list_split in Hxq as (q1 & q2 & Hqq). rewrite Hqq.
      exists (rev q2), (rev q1). split.
      { rewrite rev_app_distr. cbn. by rewrite <- app_assoc. }
      rewrite Hqq in Hnq. destruct q1 as [|y q1 _] using rev_ind.
      + cbn [app rev head] in *. apply NoDup_cons in Hnq as [Hnq _]. by rewrite q_prev_head.
      + rewrite rev_app_distr. cbn [app rev head]. rewrite <- app_assoc in *. cbn [app] in *.
        by rewrite q_prev_mid.
  Qed.

  Lemma sieve_ring_find s r u : reaches O s0 (req_ok md) s -> exists s' h, op_find O s r u = Ok (s', h) /\
    v_ptr s' = v_ptr s /\
    sieve_view s' = if u then ring_at (r_id r) (fun _ => 1) (sieve_view s) else sieve_view s.
  Proof.
    intros Hs. destruct (sieve_reach s Hs) as (t & m & a & HR & Hok). destruct HR as (H1 & H2 & H3 & H4 & H5).
    cbn in *. unfold sieve_find. destruct u.
    - destruct (m !! r_id r) as [e|] eqn:E.
      + destruct (brel_find_hit _ _ _ _ _ _ _ _ H1 E) as (c' & -> & Hb & o & Ho & Hc').
        cbn. eexists _, _. split; [done|]. split; [done|]. unfold sieve_view. cbn. apply map_at.
        intros x _. unfold obj_cnt. cbn. subst c'. cbn.
        destruct (decide (x = r_id r)) as [->|Hne].
        * by rewrite lookup_alter, lookup_insert.
        * by rewrite lookup_alter_ne, lookup_insert_ne by done.
      + rewrite (brel_find_miss _ _ _ _ _ _ H1 E). cbn. eexists _, _. split; [done|]. split; [done|].
        unfold sieve_view. cbn. unfold ring_at. rewrite map_map. apply map_ext_in.
        intros x Hx%elem_of_list_In. cbn. rewrite decide_False; [done|]. intros ->.
        rewrite rev_elem in Hx. apply H2 in Hx. rewrite E in Hx. by destruct Hx.
    - rewrite (brel_find_false _ _ _ _ _ H1). rewrite andb_false_r. eexists _, _. by split.
  Qed.

  Lemma sieve_ring_insert s r s' : reaches O s0 (req_ok md) s -> absent O s (r_id r) -> req_ok md r ->
    op_insert O s r = Ok s' ->
    v_ptr s' = v_ptr s /\ sieve_view s' = sieve_view s ++ [(r_id r, 0)].
  Proof.
    intros Hs Hab Hr. destruct (sieve_reach s Hs) as (t & m & a & HR & Hok).
    eapply (absent_iff pol_any O cap md (req_ok md) (srel cap md)) in Hab; [|by apply sieve_sim|exact HR].
    destruct HR as (H1 & H2 & H3 & H4 & H5). cbn in *. unfold sieve_insert.
    destruct (brel_insert _ _ _ _ _ _ r H1 Hab Hr md_pos) as (c' & -> & Hb & Ht).
    cbn. intros [= <-]. split; [done|]. unfold sieve_view. cbn. rewrite map_app. cbn. f_equal.
    - apply map_same. intros x Hx. unfold obj_cnt. cbn. rewrite Ht.
      assert (x <> r_id r). { intros ->. rewrite rev_elem in Hx. apply H2 in Hx.
        rewrite Hab in Hx. by destruct Hx. }
      by rewrite lookup_alter_ne, lookup_insert_ne by done.
    - unfold obj_cnt. cbn. rewrite Ht, lookup_alter, lookup_insert. done.
  Qed.

  (** Removing the object under the hand moves the hand to the next newer
      object; removing any other leaves it. *)
  Lemma sieve_ring_remove s id : reaches O s0 (req_ok md) s ->
    exists s' h, op_remove O s id = Ok (s', h) /\ sieve_view s' = ring_drop id (sieve_view s) /\
      (v_ptr s <> Some id -> v_ptr s' = v_ptr s) /\
      (v_ptr s = Some id -> exists u w, ring_ids (sieve_view s) = u ++ id :: w /\ v_ptr s' = head w).
  Proof.
    intros Hs. destruct (sieve_reach s Hs) as (t & m & a & HR & Hok).
    destruct HR as (H1 & H2 & H3 & H4 & H5). cbn in *. unfold sieve_remove.
    destruct (m !! id) as [e|] eqn:E.
    - destruct (brel_some _ _ _ _ _ _ H1 E) as (o & -> & _).
      destruct (brel_remove _ _ _ _ _ _ _ _ Hok H1 E) as (c' & -> & Hb & Ht).
      cbn. eexists _, _. split; [done|]. split_and!.
      + unfold sieve_view. cbn. rewrite rev_q_del, <- map_drop.
        apply map_same. intros x [_ Hx]%elem_q_del. unfold obj_cnt. rewrite Ht.
        by rewrite lookup_delete_ne by congruence.
      + intros Hp. cbn. by rewrite decide_False.
      + intros Hp. cbn. rewrite decide_True by done. unfold sieve_view. rewrite ring_ids_map.
        pose proof (H5 _ Hp) as Hxq. pose proof (proj1 H2) as Hnq.
        apply elem_of_list_split in Hxq as (q1 & q2 & Hqq). rewrite Hqq in *.
        exists (rev q2), (rev q1). split.
        { rewrite rev_app_distr. cbn. by rewrite <- app_assoc. }
        destruct q1 as [|y q1 _] using rev_ind.
        * cbn [app rev head] in *. apply NoDup_cons in Hnq as [Hnq _]. by rewrite q_prev_head.
        * rewrite rev_app_distr. cbn [app rev head]. rewrite <- app_assoc in *. cbn [app] in *. by rewrite q_prev_mid.
    - rewrite (brel_none _ _ _ _ _ H1 E). eexists _, _. split; [done|]. split_and!.
      + unfold sieve_view. rewrite <- map_drop, q_del_notin; [done|]. rewrite rev_elem.
        intros Hx. apply H2 in Hx. rewrite E in Hx. by destruct Hx.
      + done.
      + intros Hp. apply H5, H2 in Hp. rewrite E in Hp. by destruct Hp.
  Qed.
End Sieve.
