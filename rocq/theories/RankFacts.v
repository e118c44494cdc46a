(** The ranked caches (ModelRank.v) follow the specification (SpecRank.v). *)
From stdpp Require Import gmap list numbers fin_maps.
From Verif Require Import Base Driver Abs AbsFacts Sim SimClock ModelRank SpecRank.
Open Scope Z_scope.

Lemma least_none l : least l = None -> l = [].
Proof. destruct l; cbn; [done|]. destruct (least l); [destruct (decide _)|]; done. Qed.

Lemma least_spec l x : least l = Some x ->
  x ∈ l /\ forall y, y ∈ l -> x.2.1.2 < y.2.1.2 \/ x.2.1.2 = y.2.1.2 /\ x.2.2 <= y.2.2.
Proof.
  revert x. induction l as [|a l IH]; intros x; cbn; [done|].
  destruct (least l) as [b|] eqn:E.
  - destruct (IH b eq_refl) as [Hb Hl]. destruct (decide _) as [Hlt|Hge]; intros [= <-].
    + split; [by constructor|]. intros y [->|Hy]%elem_of_cons; [|auto].
      destruct Hlt as [?|[? ?]]; [by left|right; split; [done|lia]].
    + split; [by constructor|]. intros y [->|Hy]%elem_of_cons; [right; split; [done|lia]|].
      specialize (Hl y Hy). unfold node_lt in Hge. lia.
  - apply least_none in E as ->. intros [= <-]. split; [by constructor|].
    intros y [->|Hy]%elem_of_cons; [right; split; [done|lia]|]. by apply elem_of_nil in Hy.
Qed.

Lemma pq_begin_spec pq h nd : pq_begin pq = Some (h, nd) ->
  pq !! h = Some nd /\
  forall h' nd', pq !! h' = Some nd' -> nd.1.2 < nd'.1.2 \/ nd.1.2 = nd'.1.2 /\ nd.2 <= nd'.2.
Proof.
  intros H. apply least_spec in H as [H1 H2]. split; [by apply elem_of_map_to_list|].
  intros h' nd' H'. apply (H2 (h', nd')). by apply elem_of_map_to_list.
Qed.

Lemma pq_begin_some (pq : gmap Z (Z * Z * Z)) h nd : pq !! h = Some nd -> is_Some (pq_begin pq).
Proof.
  intros H. unfold pq_begin. destruct (least _) eqn:E; [eauto|].
  apply least_none in E. apply map_to_list_empty_iff in E as ->. by rewrite lookup_empty in H.
Qed.

(** A node with a vtime no other node has is always a new one. *)
Lemma pq_emplace_fresh pq next nd :
  (forall h nd', pq !! h = Some nd' -> nd'.2 < nd.2) ->
  pq_emplace pq next nd = (<[next := nd]> pq, next, next + 1).
Proof.
  intros H. unfold pq_emplace. destruct (list_find _ _) as [[i [h nd']]|] eqn:E; [|done].
  apply list_find_Some in E as (Hi & [H1 H2] & _).
  apply elem_of_list_lookup_2, elem_of_map_to_list in Hi. specialize (H _ _ Hi).
  cbn in *. unfold node_lt in *. lia.
Qed.

Section RankFacts.
  Context (pri : Z -> Z -> Z -> Z) (rm : rank -> Z -> res (rank * bool)) (cap md : Z).
  Context (Hmd : 0 <= md).
  Notation O := (rank_ops_with pri rm).

  (** All vtimes in the set are at most [b]. *)
  Record rrel (b : Z) (s : rank) (g : gspec) : Prop := {
    rr_b : brel cap md (rk_c s) (g_a g);
    rr_L : rk_L s = g_L g;
    rr_it : forall id e, a_m (g_a g) !! id = Some e ->
              exists h p v, rk_it s !! id = Some h /\ rk_pq s !! h = Some (id, p, v);
    rr_pq : forall h id p v, rk_pq s !! h = Some (id, p, v) ->
              rk_it s !! id = Some h /\ g_rk g !! id = Some p /\ is_Some (a_m (g_a g) !! id) /\
              v <= b /\ h < rk_next s;
    rr_ord : forall h1 id1 p1 v1 e1 h2 id2 p2 v2 e2,
              rk_pq s !! h1 = Some (id1, p1, v1) -> rk_pq s !! h2 = Some (id2, p2, v2) ->
              a_m (g_a g) !! id1 = Some e1 -> a_m (g_a g) !! id2 = Some e2 ->
              e_last e1 < e_last e2 -> v1 < v2;
    rr_cnt : forall id o e, c_tbl (rk_c s) !! id = Some o -> a_m (g_a g) !! id = Some e ->
              o_p1 o = e_cnt e;
    rr_dom : forall id, is_Some (g_rk g !! id) <-> is_Some (a_m (g_a g) !! id)
  }.

  Lemma rrel_pr b s g id e h p v : rrel b s g -> a_m (g_a g) !! id = Some e ->
    rk_it s !! id = Some h -> rk_pq s !! h = Some (id, p, v) -> g_rk g !! id = Some p.
  Proof. intros H He Hi Hp. by destruct (rr_pq _ _ _ H _ _ _ _ Hp) as (_ & ? & _). Qed.

  Lemma rrel_pop b s t m a rk L id e h p v L' : 
    abs_ok cap md (mkAbs t m a) ->
    rrel b s (mkG (mkAbs t m a) rk L) -> m !! id = Some e ->
    rk_it s !! id = Some h -> rk_pq s !! h = Some (id, p, v) ->
    exists c', cache_remove_obj_base (rk_c s) id = Ok c' /\
      c_nreq c' = c_nreq (rk_c s) /\
      rrel b (mkRank c' (delete h (rk_pq s)) (delete id (rk_it s)) (rk_next s) L')
             (mkG (mkAbs t (delete id m) a) (delete id rk) L').
  Proof.
    intros Hok H He Hi Hp.
    destruct (brel_remove cap md _ _ _ _ id e Hok (rr_b _ _ _ H) He) as (c' & Hc & Hb & Ht).
    exists c'. split; [done|]. split.
    { unfold cache_remove_obj_base in Hc. destruct (c_tbl _ !! id); [|done]. by injection Hc as <-. }
    destruct H as [Rb RL Rit Rpq Rord Rcnt Rdom]. cbn in *.
    constructor; cbn; auto.
    - intros id' e' He'. apply lookup_delete_Some in He' as [Hne He'].
      destruct (Rit _ _ He') as (h' & p' & v' & Hi' & Hp'). exists h', p', v'.
      rewrite lookup_delete_ne by done. split; [done|].
      rewrite lookup_delete_ne; [done|]. intros <-. congruence.
    - intros h' id' p' v' Hp'. apply lookup_delete_Some in Hp' as [Hne Hp'].
      destruct (Rpq _ _ _ _ Hp') as (Hi' & Hr' & Hm' & Hv' & Hh').
      assert (id <> id') by (intros <-; congruence).
      rewrite !lookup_delete_ne by done. auto.
    - intros h1 id1 p1 v1 e1 h2 id2 p2 v2 e2 H1 H2 He1 He2.
      apply lookup_delete_Some in H1 as [_ H1], H2 as [_ H2], He1 as [_ He1], He2 as [_ He2].
      eauto.
    - intros id' o e'. rewrite Ht. intros [_ Ho]%lookup_delete_Some [_ He']%lookup_delete_Some. eauto.
    - intros id'. destruct (decide (id' = id)) as [->|Hne].
      + rewrite !lookup_delete. split; intros []; done.
      + rewrite !lookup_delete_ne by done. auto.
  Qed.

  Lemma rank_evict_ok b s t m a rk L r :
    abs_ok cap md (mkAbs t m a) -> rrel b s (mkG (mkAbs t m a) rk L) -> m <> ∅ ->
    exists s' v p, rank_evict s r = Ok s' /\ lowest m rk v p /\ is_Some (m !! v) /\
      c_nreq (rk_c s') = c_nreq (rk_c s) /\
      rrel b s' (mkG (mkAbs t (delete v m) a) (delete v rk) p).
  Proof.
    intros Hok H Hne. destruct (map_choose m Hne) as (i & ei & Hi).
    destruct (rr_it _ _ _ H _ _ Hi) as (hi & pi & vi & Hii & Hpi).
    destruct (pq_begin_some _ _ _ Hpi) as [[h [[id p] v]] Hb].
    unfold rank_evict. rewrite Hb.
    apply pq_begin_spec in Hb as [Hp Hmin].
    destruct (rr_pq _ _ _ H _ _ _ _ Hp) as (Hit & Hrk & [e He] & _). cbn in *.
    destruct (rrel_pop b s t m a rk L id e h p v p Hok H He Hit Hp) as (c' & -> & Hn & H').
    cbn. eexists _, id, p. split_and!; [done| |by eauto|done|exact H'].
    exists e. split_and!; [done|done|]. intros id' e' p' He' Hp'.
    destruct (rr_it _ _ _ H _ _ He') as (h' & p'' & v' & Hi' & Hq').
    pose proof (rrel_pr _ _ _ _ _ _ _ _ H He' Hi' Hq') as Hr'. cbn in Hr'.
    rewrite Hr' in Hp'. injection Hp' as ->.
    destruct (Hmin _ _ Hq') as [Hl|[Heq Hl]]; cbn in *; [by left|]. right. split; [done|].
    destruct (decide (e_last e <= e_last e')) as [|Hgt]; [done|].
    pose proof (rr_ord _ _ _ H _ _ _ _ _ _ _ _ _ _ Hq' Hp He' He ltac:(lia)). lia.
  Qed.

  Lemma rank_loop_ok b r fuel : forall s t m a rk L,
    abs_ok cap md (mkAbs t m a) -> rrel b s (mkG (mkAbs t m a) rk L) -> r_size r + md <= cap ->
    (size m <= fuel)%nat ->
    exists s' m' rk' L', evict_loop O fuel s r = Ok s' /\
      g_room cap md (r_size r + md) m rk L m' rk' L' /\ m' ⊆ m /\
      abs_ok cap md (mkAbs t m' a) /\ c_nreq (rk_c s') = c_nreq (rk_c s) /\
      msum md m' + (r_size r + md) <= cap /\
      rrel b s' (mkG (mkAbs t m' a) rk' L').
  Proof.
    induction fuel as [|fuel IH]; intros s t m a rk L Hok H Hfit Hf; cbn;
      rewrite (br_size _ _ _ _ (rr_b _ _ _ H)), (br_md _ _ _ _ (rr_b _ _ _ H)),
        (br_occ _ _ _ _ (rr_b _ _ _ H)); cbn.
    - assert (m = ∅) as -> by (apply map_size_empty_inv; lia).
      rewrite msum_empty. rewrite decide_False by lia.
      eexists s, ∅, rk, L. split_and!; auto. constructor. rewrite msum_empty. lia.
    - destruct (decide _) as [Hgt|Hle].
      + assert (m <> ∅) as Hne by (intros ->; rewrite msum_empty in Hgt; lia).
        destruct (rank_evict_ok b s t m a rk L r Hok H Hne)
          as (s2 & v & p & Hev & Hlow & Hv & Hn & H2).
        cbn [op_evict rank_ops_with]. rewrite Hev. cbn.
        destruct (IH s2 t (delete v m) a (delete v rk) p) as (s' & m' & rk' & L' & Hl & Hr & Hsub & Hok' & Hn' & Hfit' & H').
        * by apply abs_ok_delete.
        * done.
        * done.
        * rewrite map_size_delete_Some by done. lia.
        * exists s', m', rk', L'. split_and!; auto; try congruence.
          -- eapply room_more; eauto. lia.
          -- etrans; [exact Hsub|]. apply delete_subseteq.
      + eexists s, m, rk, L. split_and!; auto; try lia. constructor. lia.
  Qed.

  Lemma rrel_weaken b b' s g : rrel b s g -> b <= b' -> rrel b' s g.
  Proof.
    intros [] Hb. constructor; auto. intros h id p v Hp.
    destruct (rr_pq0 _ _ _ _ Hp) as (?&?&?&?&?). split_and!; auto. lia.
  Qed.

  Lemma rrel_clock b s t m a rk L t' :
    rrel b s (mkG (mkAbs t m a) rk L) -> rrel b s (mkG (mkAbs t' m a) rk L).
  Proof. intros []. constructor; cbn in *; auto. by eapply brel_clock. Qed.

  Lemma rank_find_hit b s t m a rk L r e :
    abs_ok cap md (mkAbs t m a) ->
    rrel b s (mkG (mkAbs t m a) rk L) -> b < c_nreq (rk_c s) -> m !! r_id r = Some e ->
    exists s', rank_find pri s r true = Ok (s', true) /\
      c_nreq (rk_c s') = c_nreq (rk_c s) /\
      rrel (c_nreq (rk_c s)) s'
        (mkG (mkAbs (t + 1) (<[r_id r := touch t r e]> m) a)
             (<[r_id r := pri L (e_cnt e + 1) (e_size e)]> rk) L).
  Proof.
    intros Hok H Hb He. unfold rank_find.
    destruct (brel_find_hit cap md _ _ _ _ r e (rr_b _ _ _ H) He) as (c' & -> & Hbr & o & Ho & ->).
    cbn. rewrite lookup_insert. cbn.
    destruct (rr_it _ _ _ H _ _ He) as (h & p & v & Hi & Hp). rewrite Hi, Hp.
    destruct (brel_some _ _ _ _ _ _ (rr_b _ _ _ H) He) as (o' & Ho' & Hor & _).
    assert (o' = o) as -> by congruence.
    pose proof (rr_cnt _ _ _ H _ _ _ Ho He) as Hcnt.
    rewrite (rr_L _ _ _ H), Hcnt, Hor. cbn.
    rewrite pq_emplace_fresh.
    2:{ intros h' [[id' p'] v'] Hp'. apply lookup_delete_Some in Hp' as [_ Hp'].
        destruct (rr_pq _ _ _ H _ _ _ _ Hp') as (_ & _ & _ & Hv & _). cbn. lia. }
    eexists. split; [done|]. split; [done|].
    assert (Hfr : rk_pq s !! rk_next s = None).
    { destruct (rk_pq s !! rk_next s) as [[[id' p'] v']|] eqn:E; [|done].
      destruct (rr_pq _ _ _ H _ _ _ _ E) as (_ & _ & _ & _ & Hlt). lia. }
    destruct H as [Rb RL Rit Rpq Rord Rcnt Rdom]. cbn in *.
    destruct Hok as (_ & Hlast & _). cbn in Hlast.
    constructor; cbn; auto.
    - apply brel_upd; [done|exact Hbr].
    - intros id' e' He'. apply lookup_insert_Some in He' as [[<- <-]|[Hne He']].
      + rewrite lookup_insert. eexists _, _, _. split; [done|]. by rewrite lookup_insert.
      + destruct (Rit _ _ He') as (h' & p' & v' & Hi' & Hp').
        rewrite lookup_insert_ne by done. exists h', p', v'. split; [done|].
        rewrite lookup_insert_ne by (intros <-; congruence).
        rewrite lookup_delete_ne; [done|]. intros <-. congruence.
    - intros h' id' p' v' [[<- [= <- <- <-]]|[Hne [Hne' Hp']%lookup_delete_Some]]%lookup_insert_Some.
      + rewrite !lookup_insert. split_and!; eauto; lia.
      + destruct (Rpq _ _ _ _ Hp') as (Hi' & Hr' & Hm' & Hv' & Hh').
        assert (r_id r <> id') by (intros <-; congruence).
        rewrite !lookup_insert_ne by done. split_and!; auto; lia.
    - intros h1 id1 p1 v1 e1 h2 id2 p2 v2 e2 H1 H2 He1 He2 Hlt.
      apply lookup_insert_Some in H1 as [[<- H1]|[Hne1 [Hd1 H1]%lookup_delete_Some]];
      apply lookup_insert_Some in H2 as [[<- H2]|[Hne2 [Hd2 H2]%lookup_delete_Some]].
      + injection H1 as <- <- <-. injection H2 as <- <- <-.
        rewrite lookup_insert in He1, He2. simplify_eq. lia.
      + injection H1 as <- <- <-. rewrite lookup_insert in He1. injection He1 as <-.
        destruct (Rpq _ _ _ _ H2) as (Hi2 & _).
        assert (r_id r <> id2) by (intros <-; congruence).
        rewrite lookup_insert_ne in He2 by done. cbn in Hlt. specialize (Hlast _ _ He2). lia.
      + injection H2 as <- <- <-. destruct (Rpq _ _ _ _ H1) as (_ & _ & _ & Hv & _). lia.
      + destruct (Rpq _ _ _ _ H1) as (Hi1 & _). destruct (Rpq _ _ _ _ H2) as (Hi2 & _).
        assert (r_id r <> id1) by (intros <-; congruence).
        assert (r_id r <> id2) by (intros <-; congruence).
        rewrite lookup_insert_ne in He1, He2 by done. eauto.
    - intros id' o' e'. rewrite lookup_alter_Some.
      intros [(<- & o1 & Ho1 & ->)|(Hne & Ho1)] He'.
      + rewrite lookup_insert in He'. injection He' as <-. cbn. done.
      + rewrite lookup_insert_ne in Ho1 by done. rewrite lookup_insert_ne in He' by done. eauto.
    - intros id'. destruct (decide (id' = r_id r)) as [->|Hne].
      + rewrite !lookup_insert. split; eauto.
      + rewrite !lookup_insert_ne by done. auto.
  Qed.

  Lemma rank_insert_ok b s t m a rk L r :
    abs_ok cap md (mkAbs t m a) ->
    rrel b s (mkG (mkAbs t m a) rk L) -> b < c_nreq (rk_c s) -> m !! r_id r = None ->
    req_ok md r ->
    exists s', rank_insert pri s r = Ok s' /\
      c_nreq (rk_c s') = c_nreq (rk_c s) /\
      rrel (c_nreq (rk_c s)) s'
        (mkG (mkAbs (t + 1) (<[r_id r := fresh t r]> m) a)
             (<[r_id r := pri L 1 (r_size r)]> rk) L).
  Proof.
    intros Hok H Hb He Hr. unfold rank_insert.
    destruct (brel_insert cap md _ _ _ _ r (rr_b _ _ _ H) He Hr Hmd) as (c' & Hc & Hbr & Ht).
    assert (Hn : c_nreq c' = c_nreq (rk_c s)).
    { unfold cache_insert_base in Hc. destruct (c_tbl _ !! _); [done|]. by injection Hc as <-. }
    rewrite Hc. cbn. rewrite lookup_alter, Ht, lookup_insert. cbn. rewrite Hn.
    assert (Hu : u32 (r_size r) = r_size r).
    { unfold u32. apply Z.mod_small. unfold req_ok in Hr. lia. }
    rewrite Hu, (rr_L _ _ _ H). cbn.
    rewrite pq_emplace_fresh.
    2:{ intros h' [[id' p'] v'] Hp'.
        destruct (rr_pq _ _ _ H _ _ _ _ Hp') as (_ & _ & _ & Hv & _). cbn. lia. }
    eexists. split; [done|]. split; [done|].
    assert (Hfr : rk_pq s !! rk_next s = None).
    { destruct (rk_pq s !! rk_next s) as [[[id' p'] v']|] eqn:E; [|done].
      destruct (rr_pq _ _ _ H _ _ _ _ E) as (_ & _ & _ & _ & Hlt). lia. }
    destruct H as [Rb RL Rit Rpq Rord Rcnt Rdom]. cbn in *.
    destruct Hok as (_ & Hlast & _). cbn in Hlast.
    assert (Hni : forall h id p v, rk_pq s !! h = Some (id, p, v) -> r_id r <> id).
    { intros h id p v Hp <-. destruct (Rpq _ _ _ _ Hp) as (_ & _ & [? Hm] & _). congruence. }
    constructor; cbn; auto.
    - apply brel_upd; [done|exact Hbr].
    - intros id' e' He'. apply lookup_insert_Some in He' as [[<- <-]|[Hne He']].
      + rewrite lookup_insert. eexists _, _, _. split; [done|]. by rewrite lookup_insert.
      + destruct (Rit _ _ He') as (h' & p' & v' & Hi' & Hp').
        rewrite lookup_insert_ne by done. exists h', p', v'. split; [done|].
        rewrite lookup_insert_ne by (intros <-; congruence). done.
    - intros h' id' p' v' [[<- [= <- <- <-]]|[Hne Hp']]%lookup_insert_Some.
      + rewrite !lookup_insert. split_and!; eauto; lia.
      + destruct (Rpq _ _ _ _ Hp') as (Hi' & Hr' & Hm' & Hv' & Hh').
        pose proof (Hni _ _ _ _ Hp').
        rewrite !lookup_insert_ne by done. split_and!; auto; lia.
    - intros h1 id1 p1 v1 e1 h2 id2 p2 v2 e2 H1 H2 He1 He2 Hlt.
      apply lookup_insert_Some in H1 as [[<- H1]|[Hne1 H1]];
      apply lookup_insert_Some in H2 as [[<- H2]|[Hne2 H2]].
      + injection H1 as <- <- <-. injection H2 as <- <- <-.
        rewrite lookup_insert in He1, He2. simplify_eq. lia.
      + injection H1 as <- <- <-. rewrite lookup_insert in He1. injection He1 as <-.
        rewrite lookup_insert_ne in He2 by eauto. cbn in Hlt. specialize (Hlast _ _ He2). lia.
      + injection H2 as <- <- <-. destruct (Rpq _ _ _ _ H1) as (_ & _ & _ & Hv & _). lia.
      + rewrite lookup_insert_ne in He1, He2 by eauto. eauto.
    - intros id' o' e'. rewrite lookup_alter_Some, Ht.
      intros [(<- & o1 & Ho1 & ->)|(Hne & Ho1)] He'.
      + rewrite lookup_insert in He'. injection He' as <-. cbn. done.
      + rewrite lookup_insert_ne in Ho1 by done. rewrite lookup_insert_ne in He' by done. eauto.
    - intros id'. destruct (decide (id' = r_id r)) as [->|Hne].
      + rewrite !lookup_insert. split; eauto.
      + rewrite !lookup_insert_ne by done. auto.
  Qed.

  (** The calls a client may make: requests, lookups that do not update,
      evictions, and removals if [rmok]. *)
  Definition rcall (rmok : bool) (c : call) : Prop :=
    match c with
    | CGet r => req_ok md r
    | CFind _ u => u = false
    | CEvict _ => True
    | CRemove _ => rmok = true
    | CInsert _ | CToEvict _ => False
    end.

  Notation rok s g := (rrel (c_nreq (rk_c s)) s g).

  Context (rmok : bool).
  Context (Hrm : rmok = true -> rm = rank_remove).

  Lemma rank_step fuel s g c :
    abs_ok cap md (g_a g) -> rok s g -> rcall rmok c -> (size (a_m (g_a g)) <= fuel)%nat ->
    exists s' o g', step O fuel s c = Ok (s', o) /\ g_step pri cap md g c o g' /\ rok s' g' /\
      abs_ok cap md (g_a g') /\ (size (a_m (g_a g')) <= size (a_m (g_a g)) + 1)%nat.
  Proof.
    intros Hok H Hc Hf. destruct g as [[t m a] rk L]. cbn in Hok, Hf.
    destruct c as [r|r u|r|id|r|r]; cbn in Hc; try done.
    - (* get *)
      cbn. unfold cache_get_base. cbn.
      set (s0 := mkRank (c_incr_nreq (rk_c s)) _ _ _ _).
      assert (Hs0 : rrel (c_nreq (rk_c s)) s0 (mkG (mkAbs t m a) rk L)).
      { destruct H; constructor; cbn in *; auto. by apply brel_tick. }
      assert (Hn0 : c_nreq (rk_c s0) = c_nreq (rk_c s) + 1) by done.
      destruct (m !! r_id r) as [e|] eqn:E.
      + destruct (rank_find_hit _ s0 t m a rk L r e Hok Hs0) as (s' & -> & Hn & H'); [lia|done|].
        cbn. eexists _, _, _. split_and!; [done|by constructor|by rewrite Hn|cbn|cbn].
        * by apply abs_ok_touch.
        * rewrite map_size_insert_Some by eauto. lia.
      + unfold rank_find. rewrite (brel_find_miss cap md _ _ r true (rr_b _ _ _ Hs0) E). cbn.
        unfold rank_can_insert. cbn.
        assert (Hs1 : brel cap md (c_incr_nreq (rk_c s)) (mkAbs t m a)) by apply Hs0.
        destruct (brel_can cap md _ _ _ _ r Hs1) as (c' & -> & Hb' & ->). cbn.
        destruct (admit a r) as [a' ok] eqn:Ead. cbn in *.
        set (s1 := mkRank (c_set_adm _ _) _ _ _ _).
        assert (Hs2 : rrel (c_nreq (rk_c s)) s1 (mkG (mkAbs t m a') rk L)).
        { destruct H; constructor; cbn in *; auto. }
        assert (Hn1 : c_nreq (rk_c s1) = c_nreq (rk_c s) + 1) by done.
        destruct ok; cbn.
        * destruct (decide (r_size r + md <= cap)) as [Hle|Hgt].
          -- rewrite bool_decide_true by done.
             destruct (rank_loop_ok _ r fuel s1 t m a' rk L Hok Hs2 Hle Hf)
               as (s3 & m' & rk' & L' & -> & Hroom & Hsub & Hok3 & Hn3 & Hfit & H3). cbn.
             assert (E' : m' !! r_id r = None).
             { destruct (m' !! r_id r) eqn:E'; [|done].
               rewrite (lookup_weaken _ _ _ _ E' Hsub) in E. done. }
             destruct (rank_insert_ok _ s3 t m' a' rk' L' r Hok3 H3) as (s4 & -> & Hn4 & H4); auto; [lia|].
             cbn. eexists _, _, _. split_and!; [done|by eapply GMiss; eauto|by rewrite Hn4|cbn|cbn].
             ++ by eapply abs_ok_fresh.
             ++ rewrite map_size_insert_None by done.
                pose proof (subseteq_size _ _ (subseteq_dom _ _ Hsub)) as Hd.
                rewrite !size_dom in Hd. lia.
          -- rewrite bool_decide_false by done.
             eexists _, _, _. split_and!; [done|eapply GTooBig; eauto; lia| |cbn|cbn; lia].
             ++ eapply rrel_clock, rrel_weaken; [exact Hs2|lia].
             ++ by eapply abs_ok_later.
        * eexists _, _, _. split_and!; [done|eapply GRefused; eauto| |cbn|cbn; lia].
          -- eapply rrel_clock, rrel_weaken; [exact Hs2|lia].
          -- by eapply abs_ok_later.
    - (* find *)
      subst u. cbn. unfold rank_find. rewrite (brel_find_false cap md _ _ r (rr_b _ _ _ H)).
      rewrite andb_false_r. cbn.
      eexists _, _, _. split_and!; [done|constructor| |cbn; by eapply abs_ok_later|cbn; lia].
      eapply (rrel_clock _ _ t). destruct H; constructor; auto.
    - (* remove *)
      rewrite (Hrm Hc). cbn. unfold rank_remove. destruct (m !! id) as [e|] eqn:E.
      + destruct (brel_some _ _ _ _ _ _ (rr_b _ _ _ H) E) as (o & -> & _).
        destruct (rr_it _ _ _ H _ _ E) as (h & p & v & Hi & Hp). rewrite Hi, Hp.
        destruct (rrel_pop _ s t m a rk L id e h p v L Hok H E Hi Hp) as (c' & -> & Hn & H').
        cbn. eexists _, _, _. split_and!; [reflexivity| | |cbn|cbn].
        * replace true with (bool_decide (is_Some (m !! id))); [constructor|].
          apply bool_decide_eq_true. eauto.
        * cbn. rewrite Hn, (rr_L _ _ _ H). by eapply rrel_clock.
        * eapply abs_ok_later. by apply abs_ok_delete.
        * cbn. pose proof (size_delete_le m id). lia.
      + erewrite (brel_none cap md _ _ id (rr_b _ _ _ H)) by done. cbn.
        eexists _, _, _. split_and!; [reflexivity| | |cbn|cbn].
        * replace false with (bool_decide (is_Some (m !! id))); [constructor|].
          apply bool_decide_eq_false. rewrite E. by intros [].
        * assert (Hr : rk !! id = None).
          { destruct (rk !! id) eqn:E2; [|done].
            destruct (proj1 (rr_dom _ _ _ H id)) as [? Hx]; cbn in *; [by eauto|congruence]. }
          rewrite (delete_notin m id E), (delete_notin rk id Hr). by eapply rrel_clock.
        * eapply abs_ok_later. by apply abs_ok_delete.
        * cbn. pose proof (size_delete_le m id). lia.
    - (* evict *)
      cbn. rewrite (br_nobj _ _ _ _ (rr_b _ _ _ H)). cbn.
      destruct (decide _) as [Hz|Hnz].
      + assert (m = ∅) as -> by (apply map_size_empty_inv; lia).
        eexists _, _, _. split_and!; [done|apply GEvictEmpty|by eapply rrel_clock|by eapply abs_ok_later|cbn; lia].
      + assert (m <> ∅) as Hne by (intros ->; rewrite map_size_empty in Hnz; lia).
        destruct (rank_evict_ok _ s t m a rk L r Hok H Hne) as (s2 & v & p & -> & Hlow & Hv & Hn & H2).
        cbn. eexists _, _, _. split_and!; [done|by constructor| |cbn|cbn].
        * rewrite Hn. by eapply rrel_clock.
        * eapply abs_ok_later. by apply abs_ok_delete.
        * cbn. pose proof (size_delete_le m v). lia.
  Qed.

  Lemma rank_run fuel cs : forall s g,
    abs_ok cap md (g_a g) -> rok s g -> Forall (rcall rmok) cs ->
    (size (a_m (g_a g)) + length cs <= fuel)%nat ->
    exists s' os g', run O fuel s cs = Ok (s', os) /\ g_run pri cap md g cs os g' /\ rok s' g' /\
      abs_ok cap md (g_a g').
  Proof.
    induction cs as [|c cs IH]; intros s g Hok H Hc Hf; cbn.
    - eexists _, _, _. split_and!; [done|constructor|done|done].
    - apply Forall_cons in Hc as [Hc Hcs]. cbn in Hf.
      destruct (rank_step fuel s g c Hok H Hc) as (s1 & o & g1 & Hs & Hg & H1 & Hok1 & Hsz); [lia|].
      rewrite Hs. cbn.
      destruct (IH s1 g1 Hok1 H1 Hcs) as (s2 & os & g2 & Hr2 & Hg2 & H2 & Hok2); [lia|].
      rewrite Hr2. cbn. eexists _, _, _. split_and!; [done|econstructor; eauto|done|done].
  Qed.

  Lemma rank_init_ok L0 adm (consider : bool) : md = (if consider then 8 else 0) ->
    rok (rank_init consider cap L0 adm) (g_start L0 adm).
  Proof.
    intros Hm. unfold rank_init. rewrite <- Hm. constructor; cbn; auto; try (intros *; rewrite lookup_empty; done).
    - apply brel_init.
    - intros id. rewrite !lookup_empty. split; intros []; done.
  Qed.
End RankFacts.
