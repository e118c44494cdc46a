(** CR_LFU: its buckets hold the cached objects by frequency, in the order in
    which they got it. *)
From stdpp Require Import gmap list numbers fin_maps sorting.
From Verif Require Import Base Driver Abs AbsFacts Sim ModelQueue QueueFacts SimQueue ClockFacts SimClock
  ModelLFU SimLFU QList ModelTwoQ ModelS3FIFO ModelCacheus SpecCacheus.
Open Scope Z_scope.

(** In [m] the count of an entry is CR_LFU's frequency. *)
Record crok (cap md : Z) (s : lfu_state) (t : Z) (m : gmap Z entry) : Prop := mkCrok {
  crok_size : c_size (l_c s) = cap;
  crok_md   : c_md (l_c s) = md;
  crok_occ  : c_occ (l_c s) = msum md m;
  crok_nobj : c_nobj (l_c s) = Z.of_nat (size m);
  crok_tbl  : forall id, option_Forall2 (fun o e => o_size o = e_size e /\ o_p1 o = e_cnt e)
                (c_tbl (l_c s) !! id) (m !! id);
  crok_ent  : forall id e, m !! id = Some e ->
                0 <= e_size e /\ e_size e + md < 2 ^ 32 /\ e_last e < t /\ 1 <= e_cnt e <= l_max s;
  crok_bk   : buckets_ok m (l_fm s);
  crok_min  : m <> ∅ -> 1 <= l_min s /\ (forall id e, m !! id = Some e -> l_min s <= e_cnt e) /\
                exists id e, m !! id = Some e /\ e_cnt e = l_min s
}.

(** A new object with frequency [f]. *)
Definition reborn (t : Z) (r : req) (f : Z) : entry := mkEntry (r_size r) t t f (r_next r) (r_size r).

Section CR.
  Context (cap md : Z) (Hmd : 0 <= md).

  Lemma crok_some s t m id e : crok cap md s t m -> m !! id = Some e ->
    exists o, c_tbl (l_c s) !! id = Some o /\ o_size o = e_size e /\ o_p1 o = e_cnt e.
  Proof using All. intros [] He. specialize (crok_tbl0 id). rewrite He in crok_tbl0. inversion crok_tbl0; subst. eauto. Qed.

  Lemma crok_none s t m id : crok cap md s t m -> m !! id = None -> c_tbl (l_c s) !! id = None.
  Proof using All. intros [] He. specialize (crok_tbl0 id). rewrite He in crok_tbl0. by inversion crok_tbl0. Qed.

  Lemma crok_later s t t' m : t <= t' -> crok cap md s t m -> crok cap md s t' m.
  Proof using All. intros ? []. split; try done. intros id e He. specialize (crok_ent0 _ _ He). lia. Qed.

  Lemma cr_find_false s t m r : crok cap md s t m ->
    cr_find s r false = Ok (s, bool_decide (is_Some (m !! r_id r))).
  Proof using All.
    intros HC. unfold cr_find, cache_find_base. destruct (m !! r_id r) as [e|] eqn:E.
    - destruct (crok_some _ _ _ _ _ HC E) as (o & -> & _). rewrite bool_decide_eq_true_2 by eauto. by destruct s.
    - rewrite (crok_none _ _ _ _ HC E). rewrite bool_decide_eq_false_2 by (by intros []). by destruct s.
  Qed.

  Lemma cr_find_miss s t m r u : crok cap md s t m -> m !! r_id r = None -> cr_find s r u = Ok (s, false).
  Proof using All.
    intros HC E. unfold cr_find, cache_find_base. rewrite (crok_none _ _ _ _ HC E). cbn. by destruct s.
  Qed.

  Lemma cr_find_hit s t m r e : crok cap md s t m -> m !! r_id r = Some e ->
    exists s', cr_find s r true = Ok (s', true) /\ crok cap md s' (t + 1) (<[r_id r := touch t r e]> m) /\
      l_c s' = c_upd (cache_find_base (l_c s) r true).1 (r_id r) (fun o => o_set_p1 o (e_cnt e + 1)).
  Proof using All.
    intros HC He. destruct (crok_some _ _ _ _ _ HC He) as (o & Ho & Hsz & Hp).
    destruct HC as [C1 C2 C3 C4 C5 C6 [Hb1 Hb2] C8].
    assert (cache_find_base (l_c s) r true = (c_upd (l_c s) (r_id r) (o_hit r), true)) as Hfb
      by (unfold cache_find_base; by rewrite Ho).
    unfold cr_find. rewrite Hfb. cbn. rewrite lookup_alter, Ho. cbn. rewrite Hp. set (f := e_cnt e + 1). replace (f - 1) with (e_cnt e) by lia.
    destruct (Hb2 _ _ He) as [old Hold]. rewrite Hold. pose proof (Hb1 _ _ Hold) as Hnold.
    set (id := r_id r) in *. set (e' := touch t r e). set (m' := <[id := e']> m).
    assert (Hf : e_cnt e' = f) by done.
    rewrite lookup_insert_ne by lia.
    set (new := match l_fm s !! f with Some nd => nd | None => mkNode 0 [] end).
    set (old' := mkNode (fn_n old - 1) (q_del id (fn_q old))).
    set (new' := mkNode (fn_n new + 1) (fn_q new ++ [id])).
    set (fm := <[f := new']> (<[e_cnt e := old']> (l_fm s))).
    set (mx := if decide (l_max s < f) then f else l_max s).
    assert (Hnold' : node_ok m' (e_cnt e) old').
    { eapply node_ok_del; eauto. intros i x Hx. unfold m'.
      destruct (decide (i = id)) as [->|Hne].
      - rewrite lookup_insert. split; [intros [= <-]; lia|naive_solver].
      - rewrite lookup_insert_ne by done. naive_solver. }
    assert (Hnew : node_ok (delete id m) f new).
    { assert (Hfr : forall i x, e_cnt x = f -> (m !! i = Some x <-> delete id m !! i = Some x)).
      { intros i x Hx. destruct (decide (i = id)) as [->|Hne].
        - rewrite lookup_delete. split; [|done]. intros Hx'. rewrite He in Hx'. injection Hx' as <-. lia.
        - by rewrite lookup_delete_ne. }
      unfold new. destruct (l_fm s !! f) as [nd|] eqn:E.
      - eapply node_ok_frame; [by apply Hb1|done].
      - apply node_ok_empty. intros i x Hx Hcx.
        apply lookup_delete_Some in Hx as [_ Hx]. destruct (Hb2 _ _ Hx) as [? Hc]. congruence. }
    assert (Hnew' : node_ok m' f new').
    { unfold m'. rewrite <- insert_delete_insert. apply node_ok_add; [done|by rewrite lookup_delete|done|].
      intros i x Hx. apply lookup_delete_Some in Hx as [_ Hx]. cbn. specialize (C6 _ _ Hx). lia. }
    assert (Hbk : buckets_ok m' fm).
    { split.
      - intros g nd Hg. unfold fm in Hg.
        apply lookup_insert_Some in Hg as [[<- <-]|[Hne1 Hg]]; [done|].
        apply lookup_insert_Some in Hg as [[<- <-]|[Hne2 Hg]]; [done|].
        eapply node_ok_frame; [by apply Hb1|]. intros i x Hx. unfold m'.
        destruct (decide (i = id)) as [->|Hne].
        + rewrite lookup_insert. split; [rewrite He; intros [= <-]; congruence|]. intros [= <-]. congruence.
        + by rewrite lookup_insert_ne.
      - intros i x Hx. unfold fm. unfold m' in Hx.
        destruct (decide (e_cnt x = f)) as [->|Hne1]; [rewrite lookup_insert; eauto|].
        rewrite lookup_insert_ne by done.
        destruct (decide (e_cnt x = e_cnt e)) as [->|Hne2]; [rewrite lookup_insert; eauto|].
        rewrite lookup_insert_ne by done.
        apply lookup_insert_Some in Hx as [[<- <-]|[_ Hx]]; [done|]. eauto. }
    assert (Hent : forall i x, m' !! i = Some x ->
       0 <= e_size x /\ e_size x + md < 2 ^ 32 /\ e_last x < t + 1 /\ 1 <= e_cnt x <= mx).
    { intros i x Hx. unfold m' in Hx. unfold mx.
      apply lookup_insert_Some in Hx as [[<- <-]|[_ Hx]].
      - specialize (C6 _ _ He). cbn [e' touch e_size e_last e_cnt] in *. destruct (decide _); lia.
      - specialize (C6 _ _ Hx). destruct (decide _); lia. }
    assert (Hne' : m' <> ∅).
    { intros E. assert (m' !! id = None) as Hx by (rewrite E; apply lookup_empty).
      unfold m' in Hx. rewrite lookup_insert in Hx. done. }
    destruct C8 as (M1 & M2 & M3); [intros E; rewrite E in He; by rewrite lookup_empty in He|].
    eexists. split; [done|]. split; [|done]. split; cbn [l_c l_fm l_min l_max]; try done.
    - cbn. rewrite C3. unfold m'. rewrite (msum_update _ _ _ e) by done. cbn. lia.
    - cbn. rewrite C4. unfold m'. rewrite map_size_insert, He. done.
    - intros i. cbn. unfold m'. destruct (decide (i = id)) as [->|Hne].
      + rewrite !lookup_alter, Ho, lookup_insert. cbn. constructor. cbn. rewrite Hsz. split; [done|]. lia.
      + rewrite !lookup_alter_ne, lookup_insert_ne by done. apply C5.
    - intros _. change (fn_n old') with (fn_n old - 1).
      destruct (decide (l_min s = e_cnt e /\ fn_n old - 1 = 0)) as [[Hm Hz]|Hnz].
      + assert (Hnone : forall i x, m' !! i = Some x -> e_cnt x <> e_cnt e).
        { intros i x Hx Heq. assert (fn_n old' > 0); [|cbn in *; lia]. apply (node_pos _ _ _ Hnold'). eauto. }
        destruct (lfu_update_min_spec m' fm (l_min s) mx) as (Ha & _ & Hc); [done|lia| |].
        { intros i x Hx. split; [|by apply (Hent i)].
          assert (l_min s <= e_cnt x).
          { unfold m' in Hx. apply lookup_insert_Some in Hx as [[<- <-]|[_ Hx]]; [lia|eauto]. }
          specialize (Hnone _ _ Hx). lia. }
        destruct (Hc Hne') as (i & x & Hx & Hcx). split; [|split; eauto].
        specialize (Hent _ _ Hx). lia.
      + split; [done|]. split.
        * intros i x Hx. unfold m' in Hx.
          apply lookup_insert_Some in Hx as [[<- <-]|[_ Hx]]; [|eauto]. specialize (M2 _ _ He). lia.
        * destruct M3 as (i & x & Hx & Hcx).
          destruct (decide (e_cnt e = l_min s)) as [Hem|Hem].
          -- assert (fn_n old' > 0) as Hp0.
             { destruct Hnold' as (Hl & _). destruct (decide (fn_n old - 1 = 0)); [naive_solver|]. cbn in *. lia. }
             apply (node_pos _ _ _ Hnold') in Hp0 as (j & y & Hy & Hcy). exists j, y. split; [done|lia].
          -- exists i, x. split; [|done]. unfold m'. rewrite lookup_insert_ne; [done|]. intros <-. congruence.
  Qed.

  (** The frequency a new object starts with. *)
  Definition memory (h : option qstate) (id : Z) : Z :=
    match h with
    | None => 1
    | Some h => match c_tbl (q_c h) !! id with Some o => o_p1 o + 1 | None => 1 end
    end.

  Lemma cr_insert_spec s t m h r : crok cap md s t m -> m !! r_id r = None -> req_ok md r ->
    1 <= memory h (r_id r) -> (m = ∅ -> memory h (r_id r) = 1 \/ l_min s = -1) ->
    exists s', cr_insert s h r = Ok s' /\ crok cap md s' (t + 1) (<[r_id r := reborn t r (memory h (r_id r))]> m) /\
      c_tbl (l_c s') = <[r_id r := o_set_p1 (obj_of_req r) (memory h (r_id r))]> (c_tbl (l_c s)).
  Proof using All.
    intros HC Hn [Hr1 Hr2] Hf1 Hf2. pose proof (crok_none _ _ _ _ HC Hn) as Ht.
    destruct HC as [C1 C2 C3 C4 C5 C6 [Hb1 Hb2] C8].
    unfold cr_insert, cache_insert_base. rewrite Ht. cbn [rbind]. fold (memory h (r_id r)).
    set (f := memory h (r_id r)) in *. set (id := r_id r) in *. set (e := reborn t r f). set (m' := <[id := e]> m).
    assert (Hu : u32 (r_size r) = r_size r) by (unfold u32; apply Z.mod_small; lia).
    set (new := match l_fm s !! f with Some nd => nd | None => mkNode 0 [] end).
    eexists. split; [done|]. split; [|cbn; rewrite <- insert_insert with (m := c_tbl (l_c s)) (i := id) (y := obj_of_req r); by rewrite alter_insert, insert_insert].
    assert (Hnew : node_ok m f new).
    { unfold new. destruct (l_fm s !! f) as [nd|] eqn:E; [by apply Hb1|].
      apply node_ok_empty. intros i x Hx Hcx. destruct (Hb2 _ _ Hx) as [? Hc]. congruence. }
    split; cbn [l_c l_fm l_min l_max]; try done.
    - cbn. rewrite C3, Hu, C2. unfold m'. rewrite msum_insert by done. cbn. lia.
    - cbn. rewrite C4. unfold m'. rewrite map_size_insert, Hn. lia.
    - intros i. cbn. unfold m'. destruct (decide (i = id)) as [->|Hne].
      + rewrite lookup_alter, !lookup_insert. cbn. constructor. cbn. by rewrite Hu.
      + rewrite lookup_alter_ne, !lookup_insert_ne by done. apply C5.
    - intros i x Hx. unfold m' in Hx. apply lookup_insert_Some in Hx as [[<- <-]|[_ Hx]].
      + cbn. destruct (decide _); lia.
      + specialize (C6 _ _ Hx). destruct (decide _); lia.
    - split.
      + intros g nd Hg. apply lookup_insert_Some in Hg as [[<- <-]|[Hne1 Hg]].
        * apply node_ok_add; [done|done|done|]. intros i x Hx. specialize (C6 _ _ Hx). cbn. lia.
        * eapply node_ok_frame; [by apply Hb1|]. intros i x Hx. unfold m'.
          destruct (decide (i = id)) as [->|Hne].
          -- rewrite lookup_insert. split; [congruence|]. intros [= <-]. cbn in Hx. congruence.
          -- by rewrite lookup_insert_ne.
      + intros i x Hx. unfold m' in Hx. apply lookup_insert_Some in Hx as [[<- <-]|[_ Hx]]; cbn.
        * rewrite lookup_insert. eauto.
        * destruct (decide (e_cnt x = f)) as [->|Hne]; [rewrite lookup_insert; eauto|].
          rewrite lookup_insert_ne by done. eauto.
    - intros _. set (mn := if decide (f = 1) then 1 else l_min s).
      destruct (decide (m = ∅)) as [Em|Em].
      + assert ((if decide (mn > f \/ mn = -1) then f else mn) = f) as ->.
        { unfold mn. destruct (Hf2 Em) as [->|Hm1]; [by destruct (decide (1 = 1))|].
          destruct (decide (f = 1)) as [->|]; [done|]. rewrite decide_True by (by right). done. }
        split; [done|]. split.
        * intros i x Hx. unfold m' in Hx. rewrite Em in Hx.
          apply lookup_insert_Some in Hx as [[<- <-]|[_ Hx]]; [cbn; lia|]. by rewrite lookup_empty in Hx.
        * exists id, e. unfold m'. by rewrite lookup_insert.
      + destruct (C8 Em) as (M1 & M2 & i & x & Hx & Hcx).
        assert (Hi : i <> id) by (intros ->; congruence).
        destruct (decide (mn > f \/ mn = -1)) as [Hd|Hd].
        * assert (l_min s > f) by (unfold mn in Hd; destruct (decide (f = 1)); lia).
          split; [done|]. split.
          -- intros j y Hy. unfold m' in Hy. apply lookup_insert_Some in Hy as [[<- <-]|[_ Hy]]; [cbn; lia|].
             specialize (M2 _ _ Hy). lia.
          -- exists id, e. unfold m'. by rewrite lookup_insert.
        * unfold mn in *. destruct (decide (f = 1)) as [E1|E1].
          -- split; [done|]. split.
             ++ intros j y Hy. unfold m' in Hy. apply lookup_insert_Some in Hy as [[<- <-]|[_ Hy]]; [cbn; lia|].
                specialize (C6 _ _ Hy). lia.
             ++ exists id, e. unfold m'. by rewrite lookup_insert.
          -- split; [done|]. split.
             ++ intros j y Hy. unfold m' in Hy. apply lookup_insert_Some in Hy as [[<- <-]|[_ Hy]]; [cbn; lia|]. eauto.
             ++ exists i, x. unfold m'. by rewrite lookup_insert_ne.
  Qed.

  (** The node of the lowest frequency. *)
  Lemma cr_min_node s t m : crok cap md s t m -> m <> ∅ ->
    exists nd q v e, l_fm s !! l_min s = Some nd /\ fn_q nd = q ++ [v] /\ node_ok m (l_min s) nd /\
      m !! v = Some e /\ e_cnt e = l_min s /\ pol_cr m v.
  Proof using All.
    intros HC Hne. destruct HC as [C1 C2 C3 C4 C5 C6 [Hb1 Hb2] C8].
    destruct (C8 Hne) as (M1 & M2 & id & e & He & Hc).
    destruct (Hb2 _ _ He) as [nd Hnd]. rewrite Hc in Hnd. pose proof (Hb1 _ _ Hnd) as HN.
    pose proof HN as (Hn1 & Hn2 & Hn3 & Hn4).
    assert (Hin : id ∈ fn_q nd) by (apply Hn3; eauto).
    destruct (fn_q nd) as [|v q _] eqn:Eq using rev_ind; [by inversion Hin|].
    assert (v ∈ q ++ [v]) as Hv by (apply elem_of_app; right; left). apply Hn3 in Hv as (ev & Hev & Hfv).
    exists nd, q, v, ev. split_and!; auto.
    intros e1 id' e' Hv' Hid'. rewrite Hev in Hv'. injection Hv' as <-.
    pose proof (M2 _ _ Hid') as Hle.
    destruct (decide (e_cnt e' = l_min s)) as [Heq|]; [right|left; lia]. split; [lia|].
    assert (id' ∈ q ++ [v]) as Hin' by (apply Hn3; eauto).
    apply elem_of_app in Hin' as [Hin'|Hin'%elem_of_list_singleton]; [|subst; rewrite Hev in Hid'; injection Hid' as <-; lia].
    assert (HL : last_lt m id' v).
    { clear -Hn4 Hin'. induction q as [|x q IH]; [by inversion Hin'|]. cbn in Hn4. inversion Hn4 as [|? ? Hs HF]; subst.
      apply elem_of_cons in Hin' as [->|Hin']; [|auto]. rewrite Forall_forall in HF. apply HF.
      apply elem_of_app. right. left. }
    specialize (HL _ _ Hid' Hev). lia.
  Qed.

  Lemma cr_to_evict_spec s t m r : crok cap md s t m -> m <> ∅ ->
    exists v e, cr_to_evict s r = Ok (s, Some v) /\ m !! v = Some e /\ pol_cr m v.
  Proof using All.
    intros HC Hne. destruct (cr_min_node _ _ _ HC Hne) as (nd & q & v & e & Hnd & Hq & _ & He & _ & Hp).
    exists v, e. unfold cr_to_evict. rewrite Hnd, Hq, last_snoc. done.
  Qed.

  Lemma q_del_snoc v q : v ∉ q -> q_del v (q ++ [v]) = q.
  Proof using.
    intros Hv. assert (forall l, v ∉ l -> q_del v l = l) as Hid.
    { intros l. induction l as [|x l IH]; [done|]. intros Hx. apply not_elem_of_cons in Hx as [? ?]. unfold q_del.
      rewrite filter_cons_True by done. f_equal. by apply IH. }
    unfold q_del. rewrite filter_app. fold (q_del v q). rewrite Hid by done.
    rewrite filter_cons_False by tauto. by rewrite filter_nil, app_nil_r.
  Qed.

  Lemma cr_take_min m fm f nd id e : buckets_ok m fm -> m !! id = Some e -> e_cnt e = f -> fm !! f = Some nd ->
    buckets_ok (delete id m) (<[f := mkNode (fn_n nd - 1) (q_del id (fn_q nd))]> fm).
  Proof using. intros Hb He <- Hnd. by eapply lrel_take. Qed.

  (** Dropping the object from index and counters. *)
  Lemma cr_drop s t m id e : crok cap md s t m -> m !! id = Some e ->
    exists c', cache_remove_obj_base (l_c s) id = Ok c' /\ c_size c' = cap /\ c_md c' = md /\
      c_occ c' = msum md (delete id m) /\ c_nobj c' = Z.of_nat (size (delete id m)) /\
      c_tbl c' = delete id (c_tbl (l_c s)) /\ c_adm c' = c_adm (l_c s) /\ c_nreq c' = c_nreq (l_c s).
  Proof using All.
    intros HC He. destruct (crok_some _ _ _ _ _ HC He) as (o & Ho & Hsz & Hp).
    destruct HC as [C1 C2 C3 C4 C5 C6 _ _]. specialize (C6 _ _ He).
    unfold cache_remove_obj_base. rewrite Ho. eexists. split; [done|]. cbn.
    assert (u32 (o_size o + c_md (l_c s)) = e_size e + md) as ->.
    { rewrite Hsz, C2. unfold u32. apply Z.mod_small. lia. }
    split; [done|]. split; [done|]. split; [|split; [|done]].
    - rewrite C3, (msum_delete _ _ _ e) by done. lia.
    - rewrite C4, map_size_delete, He. assert (size m <> 0%nat); [|lia].
      rewrite map_size_non_empty_iff. intros ->. by rewrite lookup_empty in He.
  Qed.

  Lemma cr_evict_spec s t m h h' v e r : crok cap md s t m ->
    cr_to_evict s r = Ok (s, Some v) -> m !! v = Some e -> cr_note h v (e_cnt e) = Ok h' ->
    exists s', cr_evict s h = Ok (s', h') /\ crok cap md s' t (delete v m) /\
      (delete v m = ∅ -> l_min s' = -1) /\ c_tbl (l_c s') = delete v (c_tbl (l_c s)) /\
      c_adm (l_c s') = c_adm (l_c s) /\ c_nreq (l_c s') = c_nreq (l_c s).
  Proof using All.
    intros HC Hv0 He Hh. assert (Hne : m <> ∅) by (intros ->; by rewrite lookup_empty in He).
    destruct (cr_min_node _ _ _ HC Hne) as (nd & q & v' & e' & Hnd & Hq & HN & He' & Hce & _).
    unfold cr_to_evict in Hv0. rewrite Hnd, Hq, last_snoc in Hv0. injection Hv0 as ->.
    rewrite He in He'. injection He' as <-.
    destruct (crok_some _ _ _ _ _ HC He) as (o & Ho & Hsz & Hp).
    destruct (cr_drop _ _ _ _ _ HC He) as (c' & Hc' & D1 & D2 & D3 & D4 & D5 & D6 & D7).
    unfold cr_evict. rewrite Hnd, Hq, last_snoc, Ho, Hp, Hh. cbn [rbind]. rewrite Hc'. cbn [rbind].
    eexists. split; [done|].
    destruct HC as [C1 C2 C3 C4 C5 C6 Hb C8].
    pose proof HN as (Hn1 & Hn2 & Hn3 & Hn4).
    assert (Hvq : v ∉ q). { rewrite Hq in Hn2. apply NoDup_app in Hn2 as (_ & Hd & _). intros Hx. apply (Hd _ Hx). left. }
    pose proof (cr_take_min _ _ _ _ _ _ Hb He Hce Hnd) as Hb'. rewrite Hq, q_del_snoc in Hb' by done.
    rewrite removelast_snoc. set (nd' := mkNode (fn_n nd - 1) q) in *. set (fm := <[l_min s := nd']> (l_fm s)) in *.
    assert (HN' : node_ok (delete v m) (l_min s) nd') by (apply Hb'; unfold fm; by rewrite lookup_insert).
    destruct (C8 Hne) as (M1 & M2 & _).
    assert (HL : length (q ++ [v]) = 1%nat <-> fn_n nd' = 0).
    { destruct HN' as (Hl & _). rewrite Hl. cbn [fn_q nd']. rewrite app_length. cbn. lia. }
    assert (Hm2 : forall i x, delete v m !! i = Some x -> m !! i = Some x) by (intros i x Hx; by apply lookup_delete_Some in Hx as [_ ?]).
    assert (HU : length (q ++ [v]) = 1%nat ->
      (forall i x, delete v m !! i = Some x -> lfu_update_min fm (l_min s) (l_max s) <= e_cnt x) /\
      (delete v m = ∅ -> lfu_update_min fm (l_min s) (l_max s) = l_min s) /\
      (delete v m <> ∅ -> lfu_update_min fm (l_min s) (l_max s) > l_min s /\
        exists i x, delete v m !! i = Some x /\ e_cnt x = lfu_update_min fm (l_min s) (l_max s))).
    { intros Hl. apply HL in Hl.
      assert (Habove : forall i x, delete v m !! i = Some x -> l_min s < e_cnt x <= l_max s).
      { intros i x Hx. assert (e_cnt x <> l_min s).
        { intros Hq'. assert (fn_n nd' > 0); [|lia]. apply (node_pos _ _ _ HN'). eauto. }
        apply Hm2 in Hx. specialize (M2 _ _ Hx). specialize (C6 _ _ Hx). lia. }
      destruct (lfu_update_min_spec (delete v m) fm (l_min s) (l_max s)) as (Ha & Hb2 & Hc2); [done|lia|done|].
      split; [done|]. split; [done|]. intros Hne2. destruct (Hc2 Hne2) as (i & x & Hx & Hcx). split; [|eauto].
      apply Habove in Hx. lia. }
    split; [|split; [|done]].
    - split; cbn [l_c l_fm l_min l_max]; try done.
      + intros i. rewrite D5. destruct (decide (i = v)) as [->|Hi]; [rewrite !lookup_delete; constructor|].
        rewrite !lookup_delete_ne by done. apply C5.
      + intros i x Hx. apply Hm2 in Hx. eauto.
      + intros Hne2. destruct (decide _) as [Hl|Hl].
        * destruct (HU Hl) as (Ha & _ & Hc2). destruct (Hc2 Hne2) as (Hgt & Hex). rewrite decide_False by lia.
          split; [lia|]. split; [done|done].
        * split; [done|]. split; [intros i x Hx; eauto|]. apply (node_pos _ _ _ HN').
          destruct HN' as (Hl' & _). rewrite Hl'. cbn [fn_q nd']. rewrite app_length in Hl. cbn in Hl. lia.
    - intros He2. cbn [l_min]. destruct (decide _) as [Hl|Hl].
      + destruct (HU Hl) as (_ & Hb2 & _). rewrite Hb2 by done. by rewrite decide_True.
      + exfalso. assert (fn_n nd' > 0) as Hp0.
        { destruct HN' as (Hl' & _). rewrite Hl'. cbn [fn_q nd']. rewrite app_length in Hl. cbn in Hl. lia. }
        apply (node_pos _ _ _ HN') in Hp0 as (i & x & Hx & _). rewrite He2 in Hx. by rewrite lookup_empty in Hx.
  Qed.

  Lemma cr_remove_miss s t m h id : crok cap md s t m -> m !! id = None -> cr_remove s h id = Ok (s, h, false).
  Proof using All. intros HC Hn. unfold cr_remove. by rewrite (crok_none _ _ _ _ HC Hn). Qed.

  Lemma cr_remove_hit s t m h h' id e : crok cap md s t m -> m !! id = Some e -> cr_note h id (e_cnt e) = Ok h' ->
    exists s', cr_remove s h id = Ok (s', h', true) /\ crok cap md s' t (delete id m) /\
      c_tbl (l_c s') = delete id (c_tbl (l_c s)) /\ c_adm (l_c s') = c_adm (l_c s) /\ c_nreq (l_c s') = c_nreq (l_c s).
  Proof using All.
    intros HC He Hh. assert (Hne : m <> ∅) by (intros ->; by rewrite lookup_empty in He).
    destruct (crok_some _ _ _ _ _ HC He) as (o & Ho & Hsz & Hp).
    destruct (cr_drop _ _ _ _ _ HC He) as (c' & Hc' & D1 & D2 & D3 & D4 & D5 & D6 & D7).
    destruct (cr_min_node _ _ _ HC Hne) as (mnd & _ & _ & _ & Hmnd & _).
    destruct HC as [C1 C2 C3 C4 C5 C6 Hb C8].
    destruct (C8 Hne) as (M1 & M2 & j & ej & Hj & Hcj).
    destruct (proj2 Hb _ _ He) as [nd Hnd].
    unfold cr_remove. rewrite Ho, Hp, Hh. cbn [rbind]. rewrite Hnd, Hc'. cbn [rbind].
    pose proof (lrel_take _ _ _ _ _ Hb He Hnd) as Hb'.
    set (nd' := mkNode (fn_n nd - 1) (q_del id (fn_q nd))) in *. set (fm := <[e_cnt e := nd']> (l_fm s)) in *.
    assert (exists mnd', fm !! l_min s = Some mnd') as [mnd' Hmnd'].
    { unfold fm. destruct (decide (l_min s = e_cnt e)) as [->|]; [rewrite lookup_insert; eauto|].
      rewrite lookup_insert_ne by done. eauto. }
    rewrite Hmnd'. eexists. split; [done|]. split; [|done].
    pose proof (proj1 Hb' _ _ Hmnd') as HN'.
    assert (Hm2 : forall i x, delete id m !! i = Some x -> m !! i = Some x) by (intros i x Hx; by apply lookup_delete_Some in Hx as [_ ?]).
    split; cbn [l_c l_fm l_min l_max]; try done.
    - intros i. rewrite D5. destruct (decide (i = id)) as [->|Hi]; [rewrite !lookup_delete; constructor|].
      rewrite !lookup_delete_ne by done. apply C5.
    - intros i x Hx. apply Hm2 in Hx. eauto.
    - intros Hne2. destruct (decide (fn_n mnd' = 0)) as [Hz|Hz].
      + assert (Habove : forall i x, delete id m !! i = Some x -> l_min s < e_cnt x <= l_max s).
        { intros i x Hx. assert (e_cnt x <> l_min s).
          { intros Hq'. assert (fn_n mnd' > 0); [|lia]. apply (node_pos _ _ _ HN'). eauto. }
          apply Hm2 in Hx. specialize (M2 _ _ Hx). specialize (C6 _ _ Hx). lia. }
        destruct (lfu_update_min_spec (delete id m) fm (l_min s) (l_max s)) as (Ha & _ & Hc2); [done|lia|done|].
        destruct (Hc2 Hne2) as (i & x & Hx & Hcx). split; [|split; [done|eauto]]. apply Habove in Hx. lia.
      + split; [done|]. split; [intros i x Hx; eauto|]. apply (node_pos _ _ _ HN').
        destruct HN' as (Hl' & _). lia.
  Qed.

  Lemma cr_init_ok (b : bool) adm : md = (if b then 16 else 0) -> crok cap md (cr_init b cap adm) 0 ∅.
  Proof using All.
    intros E. split; cbn; try done.
    - intros id. rewrite !lookup_empty. constructor.
    - split.
      + intros f nd [<- <-]%lookup_singleton_Some. apply node_ok_empty. intros id e. by rewrite lookup_empty.
      + intros id e. by rewrite lookup_empty.
  Qed.
End CR.
