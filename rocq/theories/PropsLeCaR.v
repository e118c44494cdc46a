(** C61: LeCaR is the two-expert machine of SpecLeCaR.v. *)
From stdpp Require Import gmap list numbers fin_maps sorting.
From Verif Require Import Base Driver ModelQueue ModelLFU SimLFU ModelLeCaR SpecLeCaR LeCaRFacts LeCaRSim.
Open Scope Z_scope.

Section Props.
  Context {W : Type} (upd : bool -> Z -> W -> W) (pick : W -> nat -> bool).
  Context (cap md : Z) (Hcap : 0 <= cap) (Hmd : 0 <= md) (adm : admissioner) (w0 : W).
  Notation O := (lc_ops upd pick).
  Notation s0 := (lc_init cap md adm w0).
  Notation a0 := (lspec0 w0 adm).

  (** The machine and the cache after the same program of allowed calls. *)
  Definition lreach (s : lecar W) (a : lspec W) : Prop :=
    exists cs os fuel, l_oks upd pick cap md a0 cs /\
      run O fuel s0 cs = Ok (s, os) /\ l_run upd pick cap md a0 cs = (a, os).


  Lemma evict_loop_fuel r fuel : forall fuel' s s', (fuel <= fuel')%nat ->
    evict_loop O fuel s r = Ok s' -> evict_loop O fuel' s r = Ok s'.
  Proof.
    induction fuel as [|fuel IH]; intros fuel' s s' Hf E.
    - cbn [evict_loop] in E. destruct (decide _) as [H|H] eqn:Ed; [done|]. injection E as <-.
      destruct fuel'; cbn [evict_loop]; by rewrite Ed.
    - destruct fuel' as [|fuel']; [lia|]. cbn [evict_loop] in *. destruct (decide _); [|done].
      destruct (op_evict O s r) as [s1|]; [|done]. cbn [rbind] in *. apply IH; [lia|done].
  Qed.
  Lemma run_fuel cs : forall fuel fuel' s x, (fuel <= fuel')%nat ->
    run O fuel s cs = Ok x -> run O fuel' s cs = Ok x.
  Proof.
    induction cs as [|c cs IH]; intros fuel fuel' s x Hf E; [done|]. cbn [run] in *.
    assert (S : forall y, step O fuel s c = Ok y -> step O fuel' s c = Ok y).
    { intros y. destruct c; cbn [step]; try done. unfold cache_get_base.
      destruct (op_find O _ _ _) as [[s1 hit]|]; [|done]. cbn [rbind]. destruct hit; [done|].
      destruct (op_can_insert O s1 _) as [[s2 ok]|]; [|done]. cbn [rbind]. destruct ok; [|done].
      destruct (evict_loop O fuel s2 _) as [s3|] eqn:E3; [|done]. rewrite (evict_loop_fuel _ _ fuel' _ _ Hf E3). done. }
    destruct (step O fuel s c) as [[s1 o]|] eqn:E1; [|done]. rewrite (S _ eq_refl). cbn [rbind] in *.
    destruct (run O fuel s1 cs) as [y|] eqn:E2; [|done]. by rewrite (IH fuel fuel' _ _ Hf E2).
  Qed.

  Lemma reach_rel s a : lreach s a -> lrel cap md s a.
  Proof using Hcap Hmd.
    intros (cs & os & fuel & Hok & E1 & E2).
    destruct (run_ok upd pick cap md Hcap Hmd cs _ _ (max fuel (length cs)) (init_ok cap md Hcap Hmd adm w0) Hok) as (s' & E & H).
    { cbn. lia. }
    rewrite (run_fuel cs fuel (max fuel (length cs)) _ _ ltac:(lia) E1) in E. injection E as -> Eos. by rewrite E2 in H.
  Qed.

  (** Every program of allowed calls runs without fault, answers as the machine
      does, and leaves the cache in the state of the machine. *)
  Theorem C61_lecar_partial cs fuel : l_oks upd pick cap md a0 cs -> (length cs <= fuel)%nat ->
    exists s os a, run O fuel s0 cs = Ok (s, os) /\ l_run upd pick cap md a0 cs = (a, os) /\
      lc_q s = map lo_id (ls_l a) /\ lc_gl s = map lg_id (ls_gl a) /\ lc_gf s = map lg_id (ls_gf a) /\
      lc_w s = ls_w a /\ lc_draws s = ls_draws a /\
      op_occupied O s = l_bytes (ls_l a) /\ op_nobj O s = Z.of_nat (length (ls_l a)) /\
      (forall id, is_Some (c_tbl (lc_c s) !! id) <-> id ∈ map lo_id (ls_l a) ++ ghosts a).
  Proof using Hcap Hmd.
    intros Hok Hf.
    destruct (run_ok upd pick cap md Hcap Hmd cs _ _ fuel (init_ok cap md Hcap Hmd adm w0) Hok) as (s & E & H); [cbn; lia|].
    destruct (l_run upd pick cap md a0 cs) as [a os]. cbn [fst snd] in *. exists s, os, a.
    split; [done|]. split; [done|]. split; [apply (lr_q _ _ _ _ H)|]. split; [apply (lr_gl _ _ _ _ H)|].
    split; [apply (lr_gf _ _ _ _ H)|]. split; [apply (lr_w _ _ _ _ H)|]. split; [apply (lr_w _ _ _ _ H)|].
    split; [apply (lr_occ _ _ _ _ H)|]. split; [apply (lr_occ _ _ _ _ H)|].
    intros id. assert (Q := rel_none cap md s a id H). rewrite l_find_none in Q. change (map lo_id (ls_l a)) with (lo_id <$> ls_l a).
    destruct (c_tbl (lc_c s) !! id) as [o|]; split.
    - intros _. destruct (decide (id ∈ (lo_id <$> ls_l a) ++ ghosts a)) as [?|N]; [done|].
      apply not_elem_of_app in N. by apply Q in N.
    - by eexists.
    - intros [? ?]. done.
    - intros Hi. apply elem_of_app in Hi. destruct Q as [Q _]. specialize (Q eq_refl). tauto.
  Qed.

  (** The cache stays within its size, each ghost list within half of it; no
      object is cached twice, or cached and remembered. *)
  Theorem C61_bounds_partial s a : lreach s a ->
    op_occupied O s <= cap /\ lc_gbl s = g_bytes (ls_gl a) /\ lc_gbl s <= cap / 2 /\
    lc_gbf s = g_bytes (ls_gf a) /\ lc_gbf s <= cap / 2 /\
    NoDup (lc_q s ++ lc_gl s ++ lc_gf s ++ ls_both a).
  Proof using Hcap Hmd.
    intros Hs. assert (H := reach_rel s a Hs).
    destruct (lr_gl _ _ _ _ H) as (G1 & G2 & G3). destruct (lr_gf _ _ _ _ H) as (F1 & F2 & F3).
    destruct (lr_nd _ _ _ _ H) as (N1 & N2 & N3 & N4).
    assert (U : forall id e e', mem (ls_l a) (ls_gl a) (ls_gf a) (ls_both a) id e ->
                             mem (ls_l a) (ls_gl a) (ls_gf a) (ls_both a) id e' -> e = e').
    { intros id e e'. apply (tbl_unique _ _ _ _ _ _ _ _ _ (lr_tbl _ _ _ _ H)). }
    assert (UL : forall id, id ∈ lo_id <$> ls_l a -> exists w n, mem (ls_l a) (ls_gl a) (ls_gf a) (ls_both a) id (ECached w n)).
    { intros id Hi. apply elem_of_list_fmap in Hi as ([i w n] & -> & Hx). by exists w, n. }
    assert (UG : forall id, id ∈ lg_id <$> ls_gl a -> exists w n, mem (ls_l a) (ls_gl a) (ls_gf a) (ls_both a) id (EL w n)).
    { intros id Hi. apply elem_of_list_fmap in Hi as ([i w n] & -> & Hx). by exists w, n. }
    assert (UF : forall id, id ∈ lg_id <$> ls_gf a -> exists w n, mem (ls_l a) (ls_gl a) (ls_gf a) (ls_both a) id (EF w n)).
    { intros id Hi. apply elem_of_list_fmap in Hi as ([i w n] & -> & Hx). by exists w, n. }
    split. { cbn. rewrite (proj1 (lr_occ _ _ _ _ H)). apply (lr_cap _ _ _ _ H). }
    split; [done|]. split; [lia|]. split; [done|]. split; [lia|].
    rewrite (lr_q _ _ _ _ H), G1, F1. apply NoDup_app. split; [done|]. split.
    { intros id Hi Hx. destruct (UL id Hi) as (w & n & M). rewrite !elem_of_app in Hx. destruct Hx as [Hx|[Hx|Hx]].
      - destruct (UG id Hx) as (? & ? & M'). by discriminate (U _ _ _ M M').
      - destruct (UF id Hx) as (? & ? & M'). by discriminate (U _ _ _ M M').
      - by discriminate (U _ _ EBoth M Hx). }
    apply NoDup_app. split; [done|]. split.
    { intros id Hi Hx. destruct (UG id Hi) as (w & n & M). rewrite !elem_of_app in Hx. destruct Hx as [Hx|Hx].
      - destruct (UF id Hx) as (? & ? & M'). by discriminate (U _ _ _ M M').
      - by discriminate (U _ _ EBoth M Hx). }
    apply NoDup_app. split; [done|]. split; [|done].
    intros id Hi Hx. destruct (UF id Hi) as (w & n & M). by discriminate (U _ _ EBoth M Hx).
  Qed.

  (** Evict takes one object: the least recently used of all, or the least
      recently used of those accessed least often, as the random choice says
      when the two differ. *)
  Theorem C61_victim_partial s a r : lreach s a -> lc_q s <> [] ->
    exists s' l1 x l2, op_evict O s r = Ok s' /\ ls_l a = l1 ++ x :: l2 /\
      lc_q s' = map lo_id (l1 ++ l2) /\ op_occupied O s' = op_occupied O s - lo_w x /\
      ((l2 = [] /\ pick (lc_w s) (lc_draws s) = true) \/
       ((forall y, y ∈ ls_l a -> lo_n x <= lo_n y) /\ (forall y, y ∈ l2 -> lo_n x < lo_n y) /\
        (pick (lc_w s) (lc_draws s) = false \/ l2 = []))).
  Proof using Hcap Hmd.
    intros Hs Hq. assert (H := reach_rel s a Hs).
    assert (Hne : ls_l a <> []). { intros E. apply Hq. rewrite (lr_q _ _ _ _ H), E. done. }
    destruct (evict_ok pick cap md Hcap Hmd s a r H Hne) as (s' & E & H' & _).
    destruct (lr_nd _ _ _ _ H) as (N1 & _). destruct (lr_w _ _ _ _ H) as (Ew & Ed & _). rewrite Ew, Ed.
    assert (Dr : forall l1 x l2, ls_l a = l1 ++ x :: l2 -> l_drop (lo_id x) (ls_l a) = l1 ++ l2).
    { intros l1 x l2 El. rewrite El in N1 |- *. rewrite fmap_app, fmap_cons in N1. apply NoDup_app in N1 as (M1 & M2 & M3).
      apply NoDup_cons in M3 as [M3 _]. unfold l_drop. rewrite filter_app, filter_cons_False by (intros Q; by apply Q).
      fold (l_drop (lo_id x) l1). fold (l_drop (lo_id x) l2). rewrite !l_drop_absent; [done|done|].
      intros Hi. apply (M2 _ Hi). by left. }
    assert (Occ : forall l1 x l2, ls_l a = l1 ++ x :: l2 -> l_bytes (l1 ++ l2) = l_bytes (ls_l a) - lo_w x).
    { intros l1 x l2 El. rewrite <- (Dr _ _ _ El). apply l_bytes_drop; [done|]. rewrite El. apply elem_of_app. right. by left. }
    destruct (lfu_choice_some _ _ _ (lr_min _ _ _ _ H) Hne) as (y & Ey & Hy).
    assert (exists x l, ls_l a = l ++ [x]) as (x & l & El).
    { destruct (ls_l a) as [|x l _] using rev_ind; [done|eauto]. }
    assert (Ex : lru_choice (ls_l a) = Some x) by (unfold lru_choice; rewrite El; apply last_snoc).
    (* the split at the choice of the LFU expert *)
    assert (exists l1 l2, ls_l a = l1 ++ y :: l2 /\ (forall z, z ∈ ls_l a -> lo_n y <= lo_n z) /\ (forall z, z ∈ l2 -> lo_n y < lo_n z)) as (l1 & l2 & Ey' & L1 & L2).
    { unfold lfu_choice in Ey. set (P := fun x => Forall (fun y => lo_n x <= lo_n y) (ls_l a)) in Ey.
      assert (HP : P y). { apply last_Some_elem_of in Ey. by apply elem_of_list_filter in Ey as [? _]. }
      assert (G : forall l, last (filter P l) = Some y -> exists l1 l2, l = l1 ++ y :: l2 /\ forall z, z ∈ l2 -> ~ P z).
      { induction l0 as [|z l0 IH] using rev_ind; [done|]. rewrite filter_app, filter_cons, filter_nil.
        destruct (decide (P z)) as [p|p].
        - rewrite last_snoc. intros [= ->]. exists l0, []. split; [done|]. intros z Hz. by apply elem_of_nil in Hz.
        - rewrite app_nil_r. intros Hl. destruct (IH Hl) as (l1 & l2 & -> & Hn). exists l1, (l2 ++ [z]).
          split; [by rewrite <- app_assoc|]. intros u Hu. apply elem_of_app in Hu as [Hu|Hu]; [by apply Hn|].
          apply elem_of_list_singleton in Hu as ->. done. }
      destruct (G _ Ey) as (l1 & l2 & E1 & E2). exists l1, l2. split; [done|].
      unfold P in HP. rewrite Forall_forall in HP. split; [exact HP|].
      intros z Hz. assert (Hz' : z ∈ ls_l a) by (rewrite E1; apply elem_of_app; right; by right).
      destruct (Z.eq_dec (lo_n y) (lo_n z)) as [Eq|Ne]; [|specialize (HP z Hz'); lia].
      exfalso. apply (E2 z Hz). unfold P. apply Forall_forall. intros u Hu. rewrite <- Eq. by apply HP. }
    unfold l_evict in H'. rewrite Ex, Ey in H'.
    assert (Eocc : op_occupied O s = l_bytes (ls_l a)) by apply (lr_occ _ _ _ _ H).
    destruct (decide (lo_id x = lo_id y)) as [Exy|Nxy].
    - assert (x = y) as -> . { apply (elem_same x y (ls_l a)); try done. rewrite El. apply elem_of_app. right. by left. }
      exists s', l1, y, l2. split; [done|]. split; [done|].
      split; [rewrite (lr_q _ _ _ _ H'); cbn [ls_l]; by rewrite (Dr _ _ _ Ey')|].
      split. { transitivity (l_bytes (l_drop (lo_id y) (ls_l a))); [apply (lr_occ _ _ _ _ H')|]. rewrite (Dr _ _ _ Ey'), Eocc. by apply Occ. }
      right. split; [done|]. split; [done|]. right.
      destruct l2 as [|z l2 _] using rev_ind; [done|]. exfalso. rewrite El in Ey'.
      change (l1 ++ y :: l2 ++ [z]) with (l1 ++ (y :: l2) ++ [z]) in Ey'. rewrite app_assoc in Ey'. apply app_inj_tail in Ey' as [E1 E2].
      specialize (L2 z ltac:(apply elem_of_app; right; by left)). rewrite E2 in L2. lia.
    - destruct (pick (ls_w a) (ls_draws a)) eqn:Ep.
      + exists s', l, x, []. split; [done|]. split; [done|].
        split; [rewrite (lr_q _ _ _ _ H'); cbn [ls_l]; by rewrite (Dr _ _ _ El)|].
        split. { transitivity (l_bytes (l_drop (lo_id x) (ls_l a))); [apply (lr_occ _ _ _ _ H')|]. rewrite (Dr _ _ _ El), Eocc. by apply Occ. }
        left. done.
      + exists s', l1, y, l2. split; [done|]. split; [done|].
        split; [rewrite (lr_q _ _ _ _ H'); cbn [ls_l]; by rewrite (Dr _ _ _ Ey')|].
        split. { transitivity (l_bytes (l_drop (lo_id y) (ls_l a))); [apply (lr_occ _ _ _ _ H')|]. rewrite (Dr _ _ _ Ey'), Eocc. by apply Occ. }
        right. split; [done|]. split; [done|]. by left.
  Qed.

  (** to_evict announces the choice of the expert that its own random number
      picks, and evicts nothing. *)
  Theorem C61_announce_partial s a r : lreach s a -> lc_q s <> [] ->
    exists s' x, op_to_evict O s r = Ok (s', Some (lo_id x)) /\ lc_q s' = lc_q s /\ op_occupied O s' = op_occupied O s /\
      (if pick (lc_w s) (lc_draws s) then lru_choice (ls_l a) else lfu_choice (ls_l a)) = Some x.
  Proof using Hcap Hmd.
    intros Hs Hq. assert (H := reach_rel s a Hs).
    assert (Hne : ls_l a <> []). { intros E. apply Hq. rewrite (lr_q _ _ _ _ H), E. done. }
    cbn [op_to_evict lc_ops]. unfold lc_to_evict. destruct (pick _ _).
    - destruct (last (ls_l a)) as [x|] eqn:E; [|by apply last_None in E].
      assert (Eq : last (lc_q s) = Some (lo_id x)) by (by rewrite (lr_q _ _ _ _ H), fmap_last, E).
      eexists _, x. rewrite Eq. split; [done|]. done.
    - destruct (lfu_choice_some _ _ _ (lr_min _ _ _ _ H) Hne) as (y & Ey & _).
      eexists _, y. rewrite (rel_lfu cap md s a H Hne), Ey. cbn [rbind fmap option_fmap option_map]. split; [done|]. done.
  Qed.

  Lemma evict_w a : ls_w (l_evict pick cap a) = ls_w a.
  Proof.
    unfold l_evict. destruct (lru_choice _); [|done]. destruct (lfu_choice _); [|done].
    destruct (decide _); [done|]. by destruct (pick _ _).
  Qed.
  Lemma room_w n w a : ls_w (l_room pick cap n w a) = ls_w a.
  Proof.
    revert a. induction n as [|n IH]; intros a; [done|]. cbn [l_room]. destruct (decide _); [|done].
    by rewrite IH, evict_w.
  Qed.
  Lemma access_w s a id : lrel cap md s a ->
    let w := ls_w (l_access upd a id).1 in
    w = ls_w a \/
    (exists g, g ∈ ls_gl a /\ lg_id g = id /\ w = upd true (ls_now a - lg_t g) (ls_w a)) \/
    (exists g, g ∈ ls_gf a /\ lg_id g = id /\ w = upd false (ls_now a - lg_t g) (ls_w a)).
  Proof.
    intros H. destruct (lr_nd _ _ _ _ H) as (_ & N2 & N3 & _). unfold l_access.
    destruct (l_find id (ls_l a)); [by left|].
    destruct (g_find id (ls_gl a)) as [g|] eqn:E2.
    { right. left. exists g. apply g_find_elem in E2 as [? ?]; done. }
    destruct (g_find id (ls_gf a)) as [g|] eqn:E3; [|by left].
    right. right. exists g. apply g_find_elem in E3 as [? ?]; done.
  Qed.

  (** The weights change only when a call asks for an object that one of the
      experts evicted, and then by the update for that expert, for the time
      that has passed since. *)
  Theorem C61_weights_partial s a c fuel s' o : lreach s a -> l_ok md a c ->
    (length (lc_q s) <= fuel)%nat -> step O fuel s c = Ok (s', o) ->
    lc_w s' = lc_w s \/
    exists (r : req) (e : bool) g, (c = CGet r \/ c = CFind r true) /\ lg_id g = r_id r /\
      g ∈ (if e then ls_gl a else ls_gf a) /\
      lc_w s' = upd e (c_nreq (lc_c s') - lg_t g) (lc_w s).
  Proof using Hcap Hmd.
    intros Hs Hok Hf E. assert (H := reach_rel s a Hs). rewrite (lr_q _ _ _ _ H), fmap_length in Hf.
    destruct (step_ok upd pick cap md Hcap Hmd s a c fuel H Hok Hf) as (s1 & E1 & H1 & _).
    rewrite E in E1. injection E1 as -> ->.
    rewrite (proj1 (lr_w _ _ _ _ H)), (proj1 (lr_w _ _ _ _ H1)), (proj1 (lr_now _ _ _ _ H1)).
    clear E H1. destruct c as [r|r u|r|id|r|r]; cbn [l_call].
    - unfold l_get. destruct Hok as (_ & Hn & _). assert (HA := access_w _ _ (r_id r) (rel_tick cap md s a H Hn)).
      cbn in HA. destruct (l_access upd (tick a) (r_id r)) as [a1 hit] eqn:EA. cbn [fst] in HA.
      assert (En : ls_now a1 = ls_now a + 1).
      { unfold l_access in EA. destruct (l_find _ _); [injection EA as <- <-; done|].
        destruct (g_find _ _); [injection EA as <- <-; done|]. destruct (g_find _ _); injection EA as <- <-; done. }
      assert (Q : let a2 := (let '(a, b) := if hit then (a1, true)
                   else let '(adm, ok) := admit (ls_adm a1) r in
                        if (ok && bool_decide (r_size r + md <= cap))%bool
                        then (l_insert md (l_room pick cap (length (ls_l (set_adm a1 adm))) (r_size r + md) (set_adm a1 adm)) r, false)
                        else (set_adm a1 adm, false) in (a, OBool b)).1 in ls_w a2 = ls_w a1 /\ ls_now a2 = ls_now a1).
      { assert (RN : forall n w b, ls_now (l_room pick cap n w b) = ls_now b).
        { induction n as [|n IH]; intros w b; [done|]. cbn [l_room]. destruct (decide _); [|done].
          rewrite IH. apply (evict_same pick cap b). }
        destruct hit; [done|]. destruct (admit _ r) as [ad ok]. destruct (_ && _)%bool; [|done].
        cbn. by rewrite room_w, RN. }
      cbn zeta in Q. destruct Q as [Q1 Q2]. rewrite Q1, Q2, En. destruct HA as [HA|[(g & Hg & Hi & HA)|(g & Hg & Hi & HA)]].
      + by left.
      + right. exists r, true, g. auto.
      + right. exists r, false, g. auto.
    - destruct u; [|by left]. assert (HA := access_w _ _ (r_id r) H). cbn in HA.
      destruct (l_access upd a (r_id r)) as [a1 hit] eqn:EA. cbn [fst] in HA |- *.
      assert (En : ls_now a1 = ls_now a).
      { unfold l_access in EA. destruct (l_find _ _); [injection EA as <- <-; done|].
        destruct (g_find _ _); [injection EA as <- <-; done|]. destruct (g_find _ _); injection EA as <- <-; done. }
      rewrite En. destruct HA as [HA|[(g & Hg & Hi & HA)|(g & Hg & Hi & HA)]].
      + by left.
      + right. exists r, true, g. auto.
      + right. exists r, false, g. auto.
    - left. destruct (cached a (r_id r)); [done|]. by destruct (decide _).
    - by left.
    - left. apply evict_w.
    - by left.
  Qed.
End Props.

(** * Cases *)

Definition lrq (id sz : Z) : req := mkReq id sz 0 0 0.
Definition lg (id sz : Z) : call := CGet (lrq id sz).
(** A weight that counts the ghost hits of the two experts, and a coin that
    prefers the expert with fewer of them. *)
Definition xupd (e : bool) (t : Z) (w : Z * Z) : Z * Z := if e then (w.1 + t, w.2) else (w.1, w.2 + t).
Definition xpick (w : Z * Z) (n : nat) : bool := Z.leb w.1 w.2.

(** Object 1 is accessed twice, 2 and 3 once.  4 needs room: the LRU expert
    says 1, the LFU expert says 2; the coin follows LRU.  The access to 1 is a
    ghost hit, after which the coin follows LFU. *)
Definition l_prog : list call :=
  [lg 1 1; lg 1 1; lg 2 1; lg 3 1; CFind (lrq 3 1) true; lg 4 1; lg 1 1; CEvict (lrq 0 0); CInsert (lrq 9 1); CRemove 9].

(** The allowed calls, decided. *)
Section Allowed.
  Context {W : Type} (upd : bool -> Z -> W -> W) (pick : W -> nat -> bool) (cap md : Z).
  Definition few (a : lspec W) (id : Z) : bool :=
    match l_find id (ls_l a) with Some x => bool_decide (lo_n x < 2 ^ 22 - 1) | None => true end.
  Definition req_okb (r : req) : bool := bool_decide (0 <= r_size r) && bool_decide (r_size r + md < 2 ^ 32).
  Definition l_okb (a : lspec W) (c : call) : bool :=
    match c with
    | CGet r => req_okb r && bool_decide (ls_now a < 2 ^ 39 - 1) && few a (r_id r)
    | CFind r u => if u : bool then few a (r_id r) else true
    | CInsert r => req_okb r && bool_decide (r_id r ∉ ghosts a)
    | CRemove id => bool_decide (id ∉ ghosts a)
    | CEvict _ => true
    | CToEvict _ => false
    end.
  Fixpoint l_oksb (a : lspec W) (cs : list call) : bool :=
    match cs with
    | [] => true
    | c :: cs => l_okb a c && l_oksb (l_call upd pick cap md a c).1 cs
    end.
  Lemma few_ok a id : few a id = true -> forall x, l_find id (ls_l a) = Some x -> lo_n x < 2 ^ 22 - 1.
  Proof. unfold few. intros H x E. rewrite E in H. by apply bool_decide_eq_true in H. Qed.
  Lemma req_okb_ok r : req_okb r = true -> req_ok md r.
  Proof. unfold req_okb. rewrite andb_true_iff, !bool_decide_eq_true. done. Qed.
  Lemma l_oksb_ok cs : forall a, l_oksb a cs = true -> l_oks upd pick cap md a cs.
  Proof.
    induction cs as [|c cs IH]; intros a; [done|]. cbn [l_oksb l_oks]. rewrite andb_true_iff. intros [H1 H2].
    split; [|by apply IH]. destruct c as [r|r [|]|r|id|r|r]; cbn [l_okb l_ok] in *; try done.
    - apply andb_true_iff in H1 as [H1 H3]. apply andb_true_iff in H1 as [H1 H4]. split; [by apply req_okb_ok|].
      split; [by apply bool_decide_eq_true in H4|]. by apply few_ok.
    - by apply few_ok.
    - apply andb_true_iff in H1 as [H1 H3]. split; [by apply req_okb_ok|]. by apply bool_decide_eq_true in H3.
    - by apply bool_decide_eq_true in H1.
  Qed.
End Allowed.

Example l_prog_ok : l_oks xupd xpick 3 0 (lspec0 (0, 0) AdmNone) l_prog.
Proof. apply l_oksb_ok. vm_compute. reflexivity. Qed.
Example C61_lecar_ex : exists s os, run (lc_ops xupd xpick) 10 (lc_init 3 0 AdmNone (0, 0)) l_prog = Ok (s, os) /\
  lc_q s = [1; 3] /\ lc_gl s = [] /\ lc_gf s = [4] /\ lc_w s = (1, 0) /\ lc_gbf s = 1.
Proof. eexists _, _. split; [vm_compute; reflexivity|]. vm_compute. repeat split. Qed.

(** The LFU expert's choice leaves although another object is older: after the
    ghost hit of [l_prog] the coin is with LFU, and 4 leaves before 3. *)
Example C61_announce_ex : exists s os, run (lc_ops xupd xpick) 10 (lc_init 3 0 AdmNone (0, 0)) l_prog = Ok (s, os) /\ lc_q s <> [].
Proof. eexists _, _. split; [vm_compute; reflexivity|]. by vm_compute. Qed.
Example C61_victim_ex : exists s os s', 
  run (lc_ops xupd xpick) 10 (lc_init 3 0 AdmNone (0, 0)) (take 7 l_prog) = Ok (s, os) /\ lc_q s = [1; 4; 3] /\
  op_evict (lc_ops xupd xpick) s (lrq 0 0) = Ok s' /\ lc_q s' = [1; 3].
Proof.
  eexists _, _, _. split; [vm_compute; reflexivity|]. split; [vm_compute; reflexivity|].
  split; [vm_compute; reflexivity|]. vm_compute. reflexivity.
Qed.

(** * Where LeCaR fails *)

Definition lc_at (cap : Z) : lecar (Z * Z) := lc_init cap 0 AdmNone (0, 0).
Definition lops := lc_ops xupd xpick.

(** remove has no test for ghosts.  Object 1 is not in the cache, yet remove
    answers true, and the counters say that the cache is empty although it
    holds object 2.  The next get then caches two objects of one byte in a
    cache of one byte. *)
Theorem C61_remove_ghost_refuted : exists s os s1 s2,
  run lops 9 (lc_at 1) [lg 1 1; lg 2 1] = Ok (s, os) /\
  op_find lops s (lrq 1 1) false = Ok (s, false) /\
  op_remove lops s 1 = Ok (s1, true) /\
  op_nobj lops s1 = 0 /\ op_occupied lops s1 = 0 /\ op_find lops s1 (lrq 2 1) false = Ok (s1, true) /\
  cache_get_base lops 9 s1 (lrq 3 1) = Ok (s2, false) /\
  op_find lops s2 (lrq 2 1) false = Ok (s2, true) /\ op_find lops s2 (lrq 3 1) false = Ok (s2, true).
Proof.
  eexists _, _, _, _. split; [vm_compute; reflexivity|]. split; [vm_compute; reflexivity|].
  split; [vm_compute; reflexivity|]. split; [vm_compute; reflexivity|]. split; [vm_compute; reflexivity|].
  split; [vm_compute; reflexivity|]. split; [vm_compute; reflexivity|]. split; vm_compute; reflexivity.
Qed.

(** A direct insert of an object that find does not see but the hash table
    remembers puts it there twice. *)
Theorem C61_insert_ghost_refuted : exists s os,
  run lops 9 (lc_at 2) [lg 1 2; lg 2 1] = Ok (s, os) /\
  op_find lops s (lrq 1 1) false = Ok (s, false) /\ op_occupied lops s + 1 <= 2 /\
  op_insert lops s (lrq 1 1) = Err DupInsert.
Proof.
  eexists _, _. split; [vm_compute; reflexivity|]. split; [vm_compute; reflexivity|].
  split; [vm_compute; done|]. vm_compute. reflexivity.
Qed.

(** to_evict announces the choice of the LFU expert, evict then takes the LRU
    tail. *)
Theorem C61_to_evict_refuted : exists s os s1 s2,
  run (lc_ops xupd (fun _ _ => false)) 9 (lc_at 2) [lg 1 1; lg 1 1; lg 2 1] = Ok (s, os) /\
  lc_q s = [2; 1] /\
  op_to_evict (lc_ops xupd (fun _ _ => false)) s (lrq 0 0) = Ok (s1, Some 2) /\
  op_evict (lc_ops xupd (fun _ _ => false)) s1 (lrq 0 0) = Ok s2 /\ lc_q s2 = [2].
Proof.
  eexists _, _, _, _. split; [vm_compute; reflexivity|]. split; [vm_compute; reflexivity|].
  split; [vm_compute; reflexivity|]. split; vm_compute; reflexivity.
Qed.

(** ** Objects that both experts chose are remembered for ever *)

Fixpoint one_by_one (i : Z) (k : nat) : list call :=
  match k with O => [] | S k => lg i 1 :: one_by_one (i + 1) k end.

Section Leak.
  Context {W : Type} (upd : bool -> Z -> W -> W) (pick : W -> nat -> bool) (w : W).
  Notation at_time both now i := (mkLS [mkLO (i - 1) 1 1] [] [] both w 0 now AdmNone).

  Lemma leak_step i both now : (forall j, j ∈ both -> j < i - 1) -> 
    l_call upd pick 1 0 (at_time both now i) (lg i 1) = (at_time ((i - 1) :: both) (now + 1) (i + 1), OBool false).
  Proof.
    intros Hb. cbn [l_call lg]. unfold l_get, l_access. cbn [tick ls_l ls_gl ls_gf ls_both ls_w ls_draws ls_now ls_adm lrq r_id].
    unfold l_find, g_find. cbn [list_find lo_id]. rewrite decide_False by lia. cbn [fmap option_fmap option_map mbind option_bind].
    assert (E : filter (fun y => y <> i) both = both).
    { apply (q_del_absent i both). intros H. specialize (Hb i H). lia. }
    rewrite E. cbn [admit set_adm ls_l ls_adm ls_gl ls_gf ls_both ls_w ls_draws ls_now andb].
    rewrite bool_decide_true by (cbn; lia). cbn [l_room length ls_l l_bytes foldr lo_w lrq r_size].
    rewrite decide_True by (unfold l_bytes; cbn; lia). unfold l_evict. cbn [set_adm ls_l lru_choice last].
    assert (EL : lfu_choice [mkLO (i - 1) 1 1] = Some (mkLO (i - 1) 1 1)).
    { unfold lfu_choice. rewrite filter_cons_True; [done|]. constructor; [lia|constructor]. }
    rewrite EL. cbn [lo_id]. rewrite decide_True by done. cbn [ls_gl ls_gf ls_both ls_w ls_draws ls_now ls_adm].
    assert (ED : l_drop (i - 1) [mkLO (i - 1) 1 1] = []).
    { unfold l_drop. rewrite filter_cons_False; [done|]. cbn. tauto. }
    rewrite ED. unfold l_insert, set_l. cbn. repeat f_equal. lia.
  Qed.

  Lemma leak_run k : forall i both now, (forall j, j ∈ both -> j < i - 1) -> 0 <= now -> now + Z.of_nat k < 2 ^ 39 - 1 ->
    l_oks upd pick 1 0 (at_time both now i) (one_by_one i k) /\
    exists both', (l_run upd pick 1 0 (at_time both now i) (one_by_one i k)).1 =
        at_time both' (now + Z.of_nat k) (i + Z.of_nat k) /\
      (forall j, j ∈ both' <-> j ∈ both \/ i - 1 <= j < i - 1 + Z.of_nat k).
  Proof.
    induction k as [|k IH]; intros i both now Hb Hn Hk.
    - split; [done|]. exists both. cbn [one_by_one l_run fst]. rewrite !Z.add_0_r. split; [done|]. intros j. split; [auto|]. intros [?|?]; [done|lia].
    - cbn [one_by_one l_oks l_run]. rewrite (leak_step i both now Hb). cbn [fst snd].
      destruct (IH (i + 1) ((i - 1) :: both) (now + 1)) as (H1 & both' & H2 & H3).
      { intros j Hj. apply elem_of_cons in Hj as [->|Hj]; [lia|]. specialize (Hb j Hj). lia. } { lia. } { lia. }
      split.
      { split; [|exact H1]. cbn [l_ok lg]. split; [split; cbn; lia|]. split; [cbn; lia|].
        intros x. unfold l_find. cbn [ls_l list_find lo_id lrq r_id]. rewrite decide_False by lia. done. }
      destruct (l_run upd pick 1 0 _ (one_by_one (i + 1) k)) as [a os]. cbn [fst] in *. exists both'. split.
      { rewrite H2. replace (now + 1 + Z.of_nat k) with (now + Z.of_nat (S k)) by lia.
        by replace (i + 1 + Z.of_nat k) with (i + Z.of_nat (S k)) by lia. }
      intros j. rewrite H3, elem_of_cons. split; [intros [[->|?]|?]; [right; lia|by left|right; lia]|].
      intros [?|?]; [tauto|]. destruct (decide (j = i - 1)) as [->|]; [tauto|]. right. lia.
  Qed.
End Leak.

(** For every [k] (up to the width of the clock) a client reaches a state in
    which the cache holds one object of one byte, and the hash table all the
    [k] objects there ever were; no ghost list counts them. *)
Theorem C61_ghosts_unbounded_refuted (k : nat) : Z.of_nat k < 2 ^ 39 - 3 -> exists cs s os,
  l_oks xupd xpick 1 0 (lspec0 (0, 0) AdmNone) cs /\
  run lops (length cs) (lc_at 1) cs = Ok (s, os) /\
  op_nobj lops s = 1 /\ op_occupied lops s = 1 /\ lc_gbl s = 0 /\ lc_gbf s = 0 /\
  forall i, 1 <= i <= Z.of_nat k -> is_Some (c_tbl (lc_c s) !! i).
Proof.
  intros Hk. set (cs := lg 1 1 :: one_by_one 2 k).
  destruct (leak_run xupd xpick (0, 0) k 2 [] 1) as (H1 & both & H2 & H3).
  { intros j Hj. by apply elem_of_nil in Hj. } { lia. } { lia. }
  assert (E0 : (l_call xupd xpick 1 0 (lspec0 (0, 0) AdmNone) (lg 1 1)) =
    (mkLS [mkLO (2 - 1) 1 1] [] [] [] (0, 0) 0 1 AdmNone, OBool false)) by (vm_compute; reflexivity).
  assert (Hok : l_oks xupd xpick 1 0 (lspec0 (0, 0) AdmNone) cs).
  { unfold cs. cbn [l_oks]. split; [|by rewrite E0].
    assert (Q : l_oksb xupd xpick 1 0 (lspec0 (0, 0) AdmNone) [lg 1 1] = true) by (vm_compute; reflexivity).
    apply l_oksb_ok in Q. by destruct Q as [Q _]. }
  destruct (C61_lecar_partial xupd xpick 1 0 ltac:(lia) ltac:(lia) AdmNone (0, 0) cs (length cs) Hok ltac:(lia))
    as (s & os & a & Er & Ea & Eq & Eg & Ef & _ & _ & Eo & En & Et).
  assert (Ea' : a = mkLS [mkLO (2 + Z.of_nat k - 1) 1 1] [] [] both (0, 0) 0 (1 + Z.of_nat k) AdmNone).
  { transitivity (l_run xupd xpick 1 0 (lspec0 (0, 0) AdmNone) cs).1; [by rewrite Ea|]. unfold cs. cbn [l_run]. rewrite E0.
    rewrite <- H2. by destruct (l_run _ _ _ _ _ _). }
  exists cs, s, os. split; [done|]. split; [exact Er|].
  assert (Hs : lreach xupd xpick 1 0 AdmNone (0, 0) s a) by (exists cs, os, (length cs); done).
  destruct (C61_bounds_partial xupd xpick 1 0 ltac:(lia) ltac:(lia) AdmNone (0, 0) s a Hs) as (_ & B1 & _ & B2 & _ & _).
  rewrite Ea' in Eo, En, B1, B2. split; [exact En|]. split; [exact Eo|]. split; [exact B1|]. split; [exact B2|].
  intros i Hi. apply Et. rewrite Ea'. apply elem_of_app. right. unfold ghosts. cbn. apply H3. right. lia.
Qed.

(** ** The access counter has 23 bits *)

Section Count.
  Context {W : Type} (upd : bool -> Z -> W -> W) (pick : W -> nat -> bool) (w : W).
  Notation at_count n now := (mkLS [mkLO 1 1 n] [] [] [] w 0 now AdmNone).

  Lemma count_run k : forall n now, 0 <= now -> now + Z.of_nat k < 2 ^ 39 - 1 -> n + Z.of_nat k <= 2 ^ 22 - 1 ->
    l_oks upd pick 1 0 (at_count n now) (replicate k (lg 1 1)) /\
    (l_run upd pick 1 0 (at_count n now) (replicate k (lg 1 1))).1 = at_count (n + Z.of_nat k) (now + Z.of_nat k).
  Proof.
    assert (E0 : forall n now, l_call upd pick 1 0 (at_count n now) (lg 1 1) = (at_count (n + 1) (now + 1), OBool true)).
    { intros n now. cbn [l_call lg]. unfold l_get, l_access. cbn [tick ls_l lrq r_id].
      assert (EF : l_find 1 [mkLO 1 1 n] = Some (mkLO 1 1 n)) by (apply l_find_elem; [apply NoDup_singleton|split; [by left|done]]).
      rewrite EF. unfold set_l. cbn [lo_w lo_n]. assert (ED : l_drop 1 [mkLO 1 1 n] = []).
      { unfold l_drop. rewrite filter_cons_False; [done|]. cbn. tauto. }
      rewrite ED. done. }
    induction k as [|k IH]; intros n now Hn Hk Hc.
    - split; [done|]. cbn [replicate l_run fst]. by rewrite !Z.add_0_r.
    - cbn [replicate l_oks l_run]. rewrite E0. cbn [fst snd].
      destruct (IH (n + 1) (now + 1) ltac:(lia) ltac:(lia) ltac:(lia)) as [H1 H2]. split.
      + split; [|exact H1]. cbn [l_ok lg]. split; [split; cbn; lia|]. split; [cbn; lia|]. intros x Hx.
        assert (EF : l_find 1 [mkLO 1 1 n] = Some (mkLO 1 1 n)) by (apply l_find_elem; [apply NoDup_singleton|split; [by left|done]]).
        cbn [lrq r_id ls_l] in Hx. rewrite EF in Hx. injection Hx as <-. cbn. lia.
      + destruct (l_run upd pick 1 0 _ (replicate k (lg 1 1))) as [a os]. cbn [fst] in *. rewrite H2.
        replace (n + 1 + Z.of_nat k) with (n + Z.of_nat (S k)) by lia. by replace (now + 1 + Z.of_nat k) with (now + Z.of_nat (S k)) by lia.
  Qed.
End Count.

(** An object is inserted and hit 2^22 - 2 times, and then once more: the
    counter becomes negative, and min_freq moves from 2^22 - 1 to 2^64 - 2^22,
    by a loop that tries every frequency in between, some 1.8e19 of them. *)
Theorem C61_count_refuted : exists k s os s' o,
  Z.of_nat k = 2 ^ 22 - 1 /\
  run lops k (lc_at 1) (replicate k (lg 1 1)) = Ok (s, os) /\ lc_min s = 2 ^ 22 - 1 /\
  cache_get_base lops 1 s (lrq 1 1) = Ok (s', true) /\
  c_tbl (lc_c s') !! 1 = Some o /\ o_p1 o = - 2 ^ 22 /\ lc_min s' = 2 ^ 64 - 2 ^ 22.
Proof.
  destruct (Z_of_nat_complete (2 ^ 22 - 2) ltac:(lia)) as [k Hk]. exists (S k).
  set (cs := replicate (S k) (lg 1 1)).
  destruct (count_run xupd xpick (0, 0) k 1 1 ltac:(lia) ltac:(lia) ltac:(lia)) as [H1 H2].
  assert (E0 : (l_call xupd xpick 1 0 (lspec0 (0, 0) AdmNone) (lg 1 1)) =
    (mkLS [mkLO 1 1 1] [] [] [] (0, 0) 0 1 AdmNone, OBool false)) by (vm_compute; reflexivity).
  assert (Hok : l_oks xupd xpick 1 0 (lspec0 (0, 0) AdmNone) cs).
  { unfold cs. cbn [replicate l_oks]. split; [|by rewrite E0].
    assert (Q : l_oksb xupd xpick 1 0 (lspec0 (0, 0) AdmNone) [lg 1 1] = true) by (vm_compute; reflexivity).
    apply l_oksb_ok in Q. by destruct Q as [Q _]. }
  assert (Ea' : (l_run xupd xpick 1 0 (lspec0 (0, 0) AdmNone) cs).1 = mkLS [mkLO 1 1 (2 ^ 22 - 1)] [] [] [] (0, 0) 0 (1 + Z.of_nat k) AdmNone).
  { unfold cs. cbn [replicate l_run]. rewrite E0. replace (2 ^ 22 - 1) with (1 + Z.of_nat k) by lia. rewrite <- H2.
    by destruct (l_run _ _ _ _ _ _). }
  destruct (run_ok xupd xpick 1 0 ltac:(lia) ltac:(lia) cs _ _ (S k) (init_ok 1 0 ltac:(lia) ltac:(lia) AdmNone (0, 0)) Hok) as (s & E & H).
  { unfold cs. rewrite replicate_length. cbn. lia. }
  rewrite Ea' in H. destruct (l_run xupd xpick 1 0 (lspec0 (0, 0) AdmNone) cs) as [a os]. cbn [fst snd] in *. clear Ea' a H1 H2 E0 Hok.
  set (x := mkLO 1 1 (2 ^ 22 - 1)) in *.
  assert (Hx : x ∈ [x]) by by left.
  destruct (mi_min _ _ _ (lr_min _ _ _ _ H) ltac:(discriminate)) as (y & Hy & Hmin).
  apply elem_of_list_singleton in Hy as ->. cbn [x lo_n] in Hmin.
  destruct (mi_all _ _ _ (lr_min _ _ _ _ H) x Hx) as [_ [_ Hmax]]. cbn [x lo_n] in Hmax.
  destruct (mi_bnd _ _ _ (lr_min _ _ _ _ H)) as [_ [_ Hmax']].
  assert (Ht := proj2 (proj1 (lr_tbl _ _ _ _ H) 1 (ECached 1 (2 ^ 22 - 1))) Hx).
  apply fmap_Some in Ht as (o & Ho & Hd).
  assert (Hg : lc_ghost o = false /\ o_p1 o = 2 ^ 22 - 1).
  { unfold den in Hd. destruct (lc_ghost o); repeat destruct (decide _); try discriminate. injection Hd as _ Hd. done. }
  destruct Hg as [Hg Hp].
  assert (Hnd : NoDup (lo_id <$> [x])) by apply NoDup_singleton.
  destruct (unbucket_ok [x] _ _ _ x (lr_buck _ _ _ _ H) (lr_min _ _ _ _ H) Hnd Hx) as (fm & mn & Eu & Hb & _ & Em).
  assert (ED : l_drop (lo_id x) [x] = []).
  { unfold l_drop. rewrite filter_cons_False; [done|]. cbn. tauto. }
  rewrite ED in Hb, Em. specialize (Em eq_refl). cbn [x lo_id lo_n] in Eu.
  assert (En : c_nobj (lc_c s) = 1) by apply (lr_occ _ _ _ _ H).
  set (c1 := c_upd (c_incr_nreq (lc_c s)) 1 (fun o => o_set_freq (o_set_next o (r_next (lrq 1 1))) (o_freq o + 1))).
  set (o1 := o_set_freq (o_set_next o (r_next (lrq 1 1))) (o_freq o + 1)).
  assert (E1 : c_tbl c1 !! 1 = Some o1) by (unfold c1, c_upd; cbn; by rewrite lookup_alter, Ho).
  assert (G1 : lc_ghost o1 = false) by exact Hg. assert (P1 : o_p1 o1 = 2 ^ 22 - 1) by exact Hp.
  assert (N1 : c_nobj c1 = 1) by exact En. clearbody o1.
  assert (EF : cache_find_base (c_incr_nreq (lc_c s)) (lrq 1 1) true = (c1, true)).
  { unfold cache_find_base. cbn [c_incr_nreq c_tbl lrq r_id]. by rewrite Ho. }
  clearbody c1.
  set (c2 := c_upd c1 1 (fun o => o_set_p1 o (- 2 ^ 22))).
  eexists s, os, (mkLC c2 _ _ (2 ^ 64 - 2 ^ 22) _ _ _ _ _ _ _ _), (o_set_p1 o1 (- 2 ^ 22)).
  split; [lia|]. split; [exact E|]. split; [done|]. split.
  { unfold cache_get_base, lops. cbn [lc_ops op_tick op_find]. unfold lc_find. cbn [lc_set_c lc_c].
    rewrite EF. cbn [lrq r_id]. rewrite E1. cbn [negb]. rewrite G1. unfold lc_key.
    cbn [lc_set_c lc_fm lc_min lc_max lc_q lc_gl lc_gbl lc_gf lc_gbf lc_w lc_draws lc_gen].
    rewrite P1. change (u64 (2 ^ 22 - 1)) with (2 ^ 22 - 1). rewrite Eu. cbn [rbind].
    change (sx23 (2 ^ 22 - 1 + 1)) with (- 2 ^ 22). change (u64 (- 2 ^ 22)) with (2 ^ 64 - 2 ^ 22). fold c2.
    rewrite (decide_True (P := lc_max s < 2 ^ 64 - 2 ^ 22)) by lia.
    rewrite (decide_True (P := c_nobj c2 = 1)) by exact N1.
    unfold lc_update_min. rewrite (lfu_search_found _ _ _ (2 ^ 64 - 2 ^ 22)).
    - cbn [rbind]. rewrite decide_False by lia. reflexivity.
    - lia.
    - unfold lc_bucket. eexists. split; [apply lookup_insert|]. cbn [fn_n].
      destruct (fm !! (2 ^ 64 - 2 ^ 22)) as [nd|] eqn:El; cbn [default fn_n]; [|lia].
      destruct (bk_node _ _ Hb _ _ El) as [_ Q]. change (Datatypes.id nd) with nd. cbn in Q. lia.
    - intros j nd Hj. unfold lc_bucket. rewrite lookup_insert_ne by lia. intros Hn.
      destruct (bk_node _ _ Hb _ _ Hn) as [_ Q]. cbn in Q. lia. }
  cbn [lc_c lc_min]. split; [|split; reflexivity].
  unfold c2, c_upd. cbn. by rewrite lookup_alter, E1.
Qed.
