(** C79: QDLPv0 is the machine of SpecQDLPv0.v; what a user sees of it; where it
    fails. *)
From stdpp Require Import gmap list numbers fin_maps.
From Verif Require Import Base Driver ModelQueue ModelSLRU SpecLPSFIFO LPSFIFOFacts ModelQDLPv0 SpecQDLPv0 QDLPv0Facts.
Open Scope Z_scope.

(** What is in the cache: id, bytes charged and hits of each object. *)
Definition see (c : cache) (id : Z) : lob :=
  match c_tbl c !! id with Some o => mkLob id (o_size o + c_md c) (o_p2 o) | None => mkLob id 0 0 end.
Definition q_fifo (s : qdl) : list lob := see (ql_c s) <$> ql_f s.         (* newest first *)
Definition q_clock (s : qdl) : list lob := see (ql_c s) <$> rev (ql_k s).  (* oldest first *)
Definition q_ghost (s : qdl) : list lob := see (ql_c s) <$> ql_g s.        (* newest first *)
Definition q_held (s : qdl) : list lob := q_fifo s ++ q_clock s.

(** Programs of get, find and evict. *)
Definition plain (md : Z) (c : call) : Prop :=
  match c with CGet r => req_ok md r | CFind _ _ | CEvict _ => True | _ => False end.
Definition qd_reaches (fs cap md : Z) (adm : admissioner) (s : qdl) : Prop :=
  exists cs os fuel, Forall (plain md) cs /\ (2 * length cs <= fuel)%nat /\ run qdl_ops fuel (qdl_init cap md fs adm) cs = Ok (s, os).

Lemma see_lin c cid l : Forall (lin c cid) l -> see c <$> bids l = l.
Proof.
  induction 1 as [|x l (o & E & E1 & E2 & E3 & E4) Hl IH]; [done|]. cbn [bids fmap list_fmap]. f_equal; [|exact IH].
  unfold see. rewrite E, E3, E2. by destruct x.
Qed.

Lemma sweep_some l : forall b b' a' x, sweep b l = Some (b', a', x) -> exists p q, l = p ++ x :: q /\ Forall (fun y => b_fr y > 0) p /\ b_fr x <= 0.
Proof.
  induction l as [|y l IH]; intros b b' a' x E; [done|]. cbn [sweep] in E. destruct (decide (b_fr y > 0)) as [Hy|Hy].
  - destruct (IH _ _ _ _ E) as (p & q & -> & Hp & Hx). exists (y :: p), q. split; [done|]. split; [by apply Forall_cons|done].
  - injection E as _ <-. exists [], l. split; [done|]. split; [done|]. lia.
Qed.
Lemma sweep_none l : forall b, sweep b l = None -> Forall (fun y => b_fr y > 0) l.
Proof.
  induction l as [|y l IH]; intros b E; [done|]. cbn [sweep] in E. destruct (decide (b_fr y > 0)) as [Hy|Hy]; [|done].
  apply Forall_cons. split; [done|]. by eapply IH.
Qed.
Lemma clock_victim b a b' a' x : clock_out b a = Some (b', a', x) ->
  exists y, y ∈ b ++ a /\ b_id y = b_id x /\ (b_fr y <= 0 \/ Forall (fun z => b_fr z > 0) (b ++ a)).
Proof.
  unfold clock_out. destruct (sweep b a) as [[[b1 a1] x1]|] eqn:E1.
  - intros X. injection X as -> -> ->. apply sweep_some in E1 as (p & q & -> & _ & Hx). exists x. split; [|split; [done|by left]].
    rewrite !elem_of_app, elem_of_cons. tauto.
  - apply sweep_none in E1. intros E2. apply sweep_some in E2 as (p & q & E & Hp & Hx).
    assert (Hin : x ∈ b ++ (cold <$> a)) by (rewrite E, elem_of_app, elem_of_cons; tauto).
    destruct (decide (Forall (fun z => b_fr z > 0) b)) as [Hb|Hb].
    + assert (Hall : Forall (fun z => b_fr z > 0) (b ++ a)) by (by apply Forall_app).
      apply elem_of_app in Hin as [Hin|Hin].
      * exists x. split; [apply elem_of_app; by left|]. split; [done|]. by right.
      * apply elem_of_list_fmap in Hin as (y & -> & Hy). exists y. split; [apply elem_of_app; by right|]. split; [done|]. by right.
    + exists x. split; [|split; [done|by left]]. apply elem_of_app. left.
      destruct (app_eq_inv _ _ _ _ E) as [(k & -> & Ek)|(k & -> & Ek)].
      * destruct k as [|z k]; [exfalso; apply Hb; by rewrite app_nil_r|]. cbn in Ek. injection Ek as -> _. rewrite elem_of_app, elem_of_cons. tauto.
      * exfalso. apply Hb. by apply Forall_app in Hp as [? _].
Qed.

Section Props.
  Context (fs cap md : Z) (Hfs : 0 <= fs <= cap) (Hmd : 0 <= md) (adm : admissioner).
  Local Notation ks := (cap - fs).
  Local Notation d0 := (mkQD [] [] [] [] false adm).
  Local Notation reaches := (qd_reaches fs cap md adm).

  Lemma view_ok s d : drel fs ks cap md s d -> q_fifo s = d_f d /\ q_clock s = d_k d /\ q_ghost s = d_g d.
  Proof.
    intros []. unfold q_fifo, q_clock, q_ghost. rewrite dr_f, dr_k, dr_g, rev_involutive. split; [|split]; by eapply see_lin.
  Qed.

  (** On every program for which the machine says what happens, the code does just
      that: the same answers, and the same objects with the same hits in the same
      order in the FIFO, the Clock and the ghosts. *)
  Theorem C79_refines cs fuel d os : Forall (qd_call md) cs -> (2 * length cs <= fuel)%nat ->
    d_run fs ks cap md d0 cs = Some (d, os) ->
    exists s, run qdl_ops fuel (qdl_init cap md fs adm) cs = Ok (s, os) /\
      q_fifo s = d_f d /\ q_clock s = d_b d ++ d_a d /\ q_ghost s = d_g d /\
      op_occupied qdl_ops s = bbytes (d_f d ++ d_b d ++ d_a d) /\ op_nobj qdl_ops s = Z.of_nat (length (d_f d ++ d_b d ++ d_a d)).
  Proof using Hfs Hmd.
    intros Hc Hf E. pose proof (run_ok fs ks cap md ltac:(lia) ltac:(lia) Hmd fuel cs _ _ (init_ok fs cap md adm) ltac:(unfold dinv; cbn; lia) Hc ltac:(cbn; lia)) as X.
    rewrite E in X. destruct X as (s & Er & H & I & _). exists s. split; [done|]. destruct (view_ok _ _ H) as (V1 & V2 & V3).
    split; [done|]. split; [done|]. split; [done|]. split; [apply (dr_occ _ _ _ _ _ _ H)|apply (dr_nobj _ _ _ _ _ _ H)].
  Qed.

  Lemma plain_call cs : Forall (plain md) cs -> Forall (qd_call md) cs.
  Proof. intros H. eapply Forall_impl; [exact H|]. intros [] X; done. Qed.

  Lemma plain_some cs : forall s d, drel fs ks cap md s d -> dinv ks cap d -> Forall (plain md) cs -> is_Some (d_run fs ks cap md d cs).
  Proof using Hfs Hmd.
    induction cs as [|c cs IH]; intros s d H I Hc; [done|]. apply Forall_cons in Hc as [Hc Hcs]. cbn [d_run].
    assert (Hs : is_Some (d_call fs ks cap md d c)).
    { destruct c as [r|r u|r|id|r|r]; try done; cbn [d_call].
      - destruct (get_ok fs ks cap md ltac:(lia) ltac:(lia) Hmd s d r _ H I Hc (Nat.le_refl _)) as (d' & b & s' & -> & _). done.
      - destruct u; [|done]. by destruct (d_lookup d (r_id r)).
      - destruct (decide (d_held d = [])) as [|Hne]; [done|].
        destruct (evict_ok fs ks cap md s d r H Hne ltac:(lia) ltac:(lia)) as (d' & s' & -> & _). done. }
    destruct Hs as [[d1 o] E]. rewrite E.
    assert (Hq : qd_call md c) by (by destruct c).
    pose proof (call_ok fs ks cap md ltac:(lia) ltac:(lia) Hmd s d c _ H I Hq (Nat.le_refl _)) as X. rewrite E in X. destruct X as (s1 & _ & H1 & I1 & _).
    destruct (IH s1 d1 H1 I1 Hcs) as [[d2 os] ->]. done.
  Qed.

  (** No program of gets, finds and evicts fails. *)
  Theorem C79_completes_partial cs fuel : Forall (plain md) cs -> (2 * length cs <= fuel)%nat ->
    exists s os, run qdl_ops fuel (qdl_init cap md fs adm) cs = Ok (s, os).
  Proof using Hfs Hmd.
    intros Hc Hf. destruct (plain_some cs _ _ (init_ok fs cap md adm) ltac:(unfold dinv; cbn; lia) Hc) as [[d os] E].
    destruct (C79_refines cs fuel d os (plain_call _ Hc) Hf E) as (s & Es & _). eauto.
  Qed.

  Lemma reaches_inv s : reaches s -> exists d, drel fs ks cap md s d /\ dinv ks cap d.
  Proof using Hfs Hmd.
    intros (cs & os & fuel & Hc & Hf & Er).
    destruct (plain_some cs _ _ (init_ok fs cap md adm) ltac:(unfold dinv; cbn; lia) Hc) as [[d os'] E].
    pose proof (run_ok fs ks cap md ltac:(lia) ltac:(lia) Hmd fuel cs _ _ (init_ok fs cap md adm) ltac:(unfold dinv; cbn; lia) (plain_call _ Hc) ltac:(cbn; lia)) as X.
    rewrite E in X. destruct X as (s' & Er' & H & I & _). rewrite Er in Er'. injection Er' as <- <-. eauto.
  Qed.

  (** In every such state no object is in two places, the bytes counted are those
      of the FIFO and the Clock and fit the capacity, and the ghosts fit theirs. *)
  Theorem C79_invariant_partial s : reaches s ->
    NoDup (b_id <$> (q_fifo s ++ q_clock s ++ q_ghost s)) /\ op_occupied qdl_ops s = bbytes (q_held s) /\
    op_nobj qdl_ops s = Z.of_nat (length (q_held s)) /\ bbytes (q_held s) <= cap /\ bbytes (q_ghost s) <= ks /\
    Forall (fun x => b_fr x = 0 \/ b_fr x = 1) (q_clock s).
  Proof using Hfs Hmd.
    intros H. destruct (reaches_inv s H) as (d & HD & [I1 I2]). destruct (view_ok _ _ HD) as (V1 & V2 & V3). unfold q_held. rewrite V1, V2, V3.
    split; [apply (dr_nd _ _ _ _ _ _ HD)|]. split; [apply (dr_occ _ _ _ _ _ _ HD)|]. split; [apply (dr_nobj _ _ _ _ _ _ HD)|].
    split; [done|]. split; [done|]. eapply Forall_impl; [apply (dr_bk _ _ _ _ _ _ HD)|]. intros x Hx. cbn in *. lia.
  Qed.

  (** get: a hit iff the object is in the FIFO or the Clock.  A hit moves nothing:
      it is counted in the FIFO, marks the object in the Clock.  A missed object
      that is accepted becomes the newest of the Clock if it was a ghost, and of
      the FIFO otherwise; nothing else comes in.  A refused one changes nothing,
      except that it is no ghost any more. *)
  Theorem C79_get_partial s r fuel : reaches s -> req_ok md r -> (2 * length (q_held s) <= fuel)%nat ->
    exists s', step qdl_ops fuel s (CGet r) = Ok (s', OBool (bool_decide (r_id r ∈ b_id <$> q_held s))) /\
      (r_id r ∈ b_id <$> q_held s ->
         q_fifo s' = (fun x => if decide (b_id x = r_id r) then mkLob (b_id x) (b_sz x) (b_fr x + 1) else x) <$> q_fifo s /\
         q_clock s' = (fun x => if decide (b_id x = r_id r) then mkLob (b_id x) (b_sz x) 1 else x) <$> q_clock s /\
         q_ghost s' = q_ghost s) /\
      (r_id r ∉ b_id <$> q_held s ->
         if ((admit (c_adm (ql_c s)) r).2 && bool_decide (r_size r + md <= cap))%bool then
           (if decide (r_id r ∈ b_id <$> q_ghost s)
            then last (q_clock s') = Some (mkLob (r_id r) (r_size r + md) 0)
            else head (q_fifo s') = Some (mkLob (r_id r) (r_size r + md) 0)) /\
           (forall id, id ∈ b_id <$> q_held s' -> id = r_id r \/ id ∈ b_id <$> q_held s)
         else q_fifo s' = q_fifo s /\ q_clock s' = q_clock s /\ q_ghost s' = filter (fun x => b_id x <> r_id r) (q_ghost s)).
  Proof using Hfs Hmd.
    intros Hre Hr Hf. destruct (reaches_inv s Hre) as (d & H & I). destruct (view_ok _ _ H) as (V1 & V2 & V3). unfold q_held in *. rewrite V1, V2, V3 in *.
    change (d_f d ++ d_k d) with (d_held d) in *.
    assert (Hsz : (d_size d <= fuel)%nat) by (unfold d_held in Hf; rewrite app_length in Hf; unfold d_size; lia).
    destruct (get_ok fs ks cap md ltac:(lia) ltac:(lia) Hmd s d r fuel H I Hr Hsz) as (d' & b & s' & E1 & E2 & H' & I' & _).
    destruct (view_ok _ _ H') as (W1 & W2 & W3). exists s'. rewrite W1, W2, W3. cbn [step]. rewrite E2. cbn [rbind].
    unfold d_get in E1. set (dd := mkQD _ _ _ _ _ _) in E1. unfold d_lookup in E1. change (d_held dd) with (d_held d) in E1. change (d_g dd) with (d_g d) in E1.
    change (b_id <$> d_held d) with (bids (d_held d)). change (b_id <$> d_g d) with (bids (d_g d)).
    destruct (decide (r_id r ∈ bids (d_held d))) as [Hin|Hin].
    - injection E1 as <- <-. rewrite bool_decide_eq_true_2 by done. split; [done|]. split; [|done]. intros _. unfold d_k. cbn [d_f d_b d_a d_g dd]. rewrite <- fmap_app.
      split; [|split; [|done]]; apply list_fmap_ext; intros i x _; unfold bump, mark; by destruct (decide (b_id x = r_id r)) as [->|].
    - rewrite bool_decide_eq_false_2 by done. rewrite (dr_adm _ _ _ _ _ _ H).
      set (d1 := if decide (r_id r ∈ bids (d_g d)) then mkQD (d_f d) (d_b d) (d_a d) (without (r_id r) (d_g d)) true (d_adm d) else dd).
      assert (Ed1 : (if decide (r_id r ∈ bids (d_g d)) then (mkQD (d_f dd) (d_b dd) (d_a dd) (without (r_id r) (d_g d)) true (d_adm dd), false) else (dd, false)) = (d1, false))
        by (unfold d1; by destruct (decide _)).
      rewrite Ed1 in E1. assert (Ea : d_adm d1 = d_adm d) by (unfold d1; by destruct (decide _)).
      assert (Eh : d_held d1 = d_held d) by (unfold d1; by destruct (decide _)).
      assert (Ef : d_f d1 = d_f d /\ d_k d1 = d_k d) by (unfold d1; by destruct (decide _)). destruct Ef as [Ef Ek].
      assert (Eg : d_g d1 = filter (fun x => b_id x <> r_id r) (d_g d)).
      { unfold d1. destruct (decide (r_id r ∈ bids (d_g d))) as [|Hng]; [done|]. cbn [dd d_g]. symmetry. by apply without_notin. }
      assert (Ehot : d_hot d1 = bool_decide (r_id r ∈ bids (d_g d))) by (unfold d1; by destruct (decide _); [rewrite bool_decide_eq_true_2|rewrite bool_decide_eq_false_2]).
      rewrite Ea in E1. destruct (admit (d_adm d) r) as [adm1 ok]. cbn [snd] in *.
      destruct (ok && bool_decide (r_size r + md <= cap))%bool eqn:Eok.
      + set (d2 := mkQD _ _ _ _ _ _) in E1. destruct (d_room _ _ _ _ _ d2) as [d3|] eqn:E3; [|done]. injection E1 as <- <-. split; [done|]. split; [done|]. intros _.
        apply andb_true_iff in Eok as [_ Ew]. apply bool_decide_eq_true_1 in Ew.
        destruct (find_ok _ _ _ _ _ _ r (drel_tick _ _ _ _ s d H)) as (s1 & _ & H1). fold dd in H1.
        assert (Hl : (d_lookup dd (r_id r)).1 = d1).
        { unfold d_lookup. change (d_held dd) with (d_held d). rewrite decide_False by done. change (d_g dd) with (d_g d). by rewrite Ed1. }
        rewrite Hl in H1. apply (drel_adm _ _ _ _ _ _ adm1) in H1. fold d2 in H1.
        destruct (room_ok fs ks cap md ltac:(lia) ltac:(lia) (2 * length (d_f d2) + length (d_k d2)) _ d2 r (d_size d2) H1 Ew (Nat.le_refl _) (Nat.le_refl _))
          as (d3' & s3 & E3' & _ & _ & _ & L1 & L2 & L3 & L4 & L5 & L6 & L7).
        rewrite E3 in E3'. injection E3' as <-.
        assert (Hot3 : d_hot d3 = bool_decide (r_id r ∈ bids (d_g d))) by (rewrite L6; exact Ehot).
        assert (Held : forall id, id ∈ bids (d_held d3) -> id ∈ bids (d_held d)) by (intros id X; rewrite <- Eh; apply (L3 id X)).
        unfold d_place. rewrite Hot3. destruct (decide (r_id r ∈ bids (d_g d))) as [Hg|Hg].
        * rewrite bool_decide_eq_true_2 by done. unfold d_k. cbn [d_f d_b d_a]. split; [by rewrite app_assoc, last_snoc|].
          intros id. change (b_id <$> ?l) with (bids l). rewrite !bids_app, !elem_of_app. specialize (Held id). unfold d_held, d_k in Held.
          rewrite (bids_app (d_f d3)), (bids_app (d_b d3)), !elem_of_app in Held. cbn [bids fmap list_fmap b_id]. rewrite elem_of_list_singleton. tauto.
        * rewrite bool_decide_eq_false_2 by done. unfold d_k. cbn [d_f d_b d_a]. split; [done|].
          intros id. cbn [app fmap list_fmap b_id]. rewrite elem_of_cons. intros [->|X]; [by left|right]. by apply Held.
      + injection E1 as <- <-. split; [done|]. split; [done|]. intros _. rewrite <- Eg, <- Ef, <- Ek. done.
  Qed.

  (** evict, as soon as something is cached.  If the FIFO is over its share or the
      Clock empty, the oldest object x of the FIFO goes: without hits it leaves
      the cache and is the newest ghost if it fits there at all; with hits it
      becomes the newest of the Clock, and if the Clock has the room nothing
      leaves.  Otherwise exactly one object leaves, from the Clock: one without
      mark, unless all were marked. *)
  Theorem C79_evict_partial s r fuel : reaches s -> q_held s <> [] ->
    exists s', step qdl_ops fuel s (CEvict r) = Ok (s', OUnit) /\
      if decide (bbytes (q_fifo s) > fs \/ q_clock s = []) then
        exists l x, q_fifo s = l ++ [x] /\ q_fifo s' = l /\
          (b_fr x = 0 -> q_clock s' = q_clock s /\ (exists lost, x :: q_ghost s = q_ghost s' ++ lost) /\
             (b_sz x <= ks -> head (q_ghost s') = Some x)) /\
          (b_fr x > 0 -> q_ghost s' = q_ghost s /\ bbytes (q_clock s') <= ks /\
             (forall id, id ∈ b_id <$> q_clock s' -> id = b_id x \/ id ∈ b_id <$> q_clock s) /\
             (bbytes (q_clock s) + b_sz x <= ks -> q_clock s' = q_clock s ++ [mkLob (b_id x) (b_sz x) 0]))
      else
        q_fifo s' = q_fifo s /\ q_ghost s' = q_ghost s /\
        exists l1 y l2, q_clock s = l1 ++ y :: l2 /\ b_id <$> q_clock s' = b_id <$> (l1 ++ l2) /\
          (b_fr y = 0 \/ Forall (fun z => b_fr z = 1) (q_clock s)).
  Proof using Hfs Hmd.
    intros Hre Hne. destruct (reaches_inv s Hre) as (d & H & I). destruct (view_ok _ _ H) as (V1 & V2 & V3). unfold q_held in *. rewrite V1, V2, V3 in *.
    change (d_f d ++ d_k d) with (d_held d) in *.
    destruct (evict_ok fs ks cap md s d r H Hne ltac:(lia) ltac:(lia)) as (d' & s' & E1 & E2 & H' & _).
    exists s'. split.
    { cbn [step op_nobj qdl_ops op_evict]. rewrite decide_False; [by rewrite E2|]. rewrite (dr_nobj _ _ _ _ _ _ H). destruct (d_held d); [done|cbn; lia]. }
    destruct (view_ok _ _ H') as (W1 & W2 & W3). rewrite W1, W2, W3. unfold d_evict in E1.
    destruct (decide (bbytes (d_f d) > fs \/ d_k d = [])) as [Hc|Hc].
    - destruct (last_cases (d_f d)) as [Ef|(l & x & Ef)]; [by rewrite Ef in E1|]. exists l, x. split; [done|].
      assert (El : last (d_f d) = Some x) by (rewrite Ef; apply last_snoc).
      assert (Er : removelast (d_f d) = l) by (rewrite Ef; apply removelast_last). rewrite El, Er in E1.
      assert (Hx0 : 0 <= b_fr x) by (pose proof (dr_bf _ _ _ _ _ _ H) as B; rewrite Ef, Forall_app, Forall_cons in B; tauto).
      destruct (decide (b_fr x > 0)) as [Hp|Hp].
      + pose proof (to_clock fs ks cap md s d l x H Ef) as H1. set (d1 := mkQD _ _ _ _ _ _) in H1.
        assert (Ek : d_k d1 = d_k d ++ [cold x]) by (unfold d_k; cbn; by rewrite app_assoc).
        destruct (clock_loop fs ks cap md (S (S (length (d_k d)))) _ d1 H1 ltac:(rewrite Ek, app_length; cbn; lia) ltac:(lia)) as (b & a & s1 & G1 & G2 & G3 & G4 & G5 & G6).
        cbn [d1 d_b d_a] in G1. rewrite G1 in E1. injection E1 as <-. cbn [d_f d_g]. split; [done|]. split; [lia|]. intros _.
        change (d_k (mkQD l b a (d_g d) (d_hot d) (d_adm d))) with (b ++ a). split; [done|]. split; [done|]. split.
        * intros id Hid. apply (elem_of_submseteq _ _ _ Hid) in G5. rewrite Ek, bids_app in G5. apply elem_of_app in G5 as [X|X]; [by right|left].
          by apply elem_of_list_singleton in X.
        * intros Hfit. cbn [clock_fit] in G1. rewrite decide_False in G1; [injection G1 as <- <-; unfold d_k; by rewrite app_assoc|].
          rewrite app_assoc. change (d_b d ++ d_a d) with (d_k d). rewrite bbytes_app. cbn [cold bbytes foldr b_sz]. fold (bbytes (d_k d)). lia.
      + injection E1 as <-. cbn [d_f d_g]. split; [done|]. split; [|lia]. intros _. split; [done|]. split.
        * exists (spill ks (x :: d_g d)).2. exact (proj2 (spill_app ks (x :: d_g d))).
        * intros Hfit. cbn [spill]. rewrite decide_True by done. by destruct (spill _ (d_g d)).
    - assert (Hkne : d_k d <> []) by (intros E; apply Hc; by right).
      destruct (clock_evict_ok fs ks cap md s d H Hkne) as (b & a & x & s1 & G1 & _ & _ & G2 & G3 & _).
      rewrite G1 in E1. injection E1 as <-. cbn [d_f d_g]. split; [done|]. split; [done|].
      destruct (clock_victim _ _ _ _ _ G1) as (y & Hy & Hid & Hm). change (d_b d ++ d_a d) with (d_k d) in *.
      apply elem_of_list_split in Hy as (l1 & l2 & El). exists l1, y, l2. split; [done|]. split.
      + change (d_k (mkQD (d_f d) b a (d_g d) (d_hot d) (d_adm d))) with (b ++ a). change (bids (b ++ a) = bids (l1 ++ l2)). rewrite G3, El, !bids_app.
        cbn [bids fmap list_fmap]. rewrite <- Hid. apply unlink_mid. destruct (nd_parts d (dr_nd _ _ _ _ _ _ H)) as (_ & Nk & _). by rewrite El, bids_app in Nk.
      + pose proof (dr_bk _ _ _ _ _ _ H) as B. unfold bits in B. destruct Hm as [Hm|Hm].
        * left. rewrite El, Forall_app, Forall_cons in B. lia.
        * right. rewrite Forall_forall in *. intros z Hz. specialize (B z Hz). specialize (Hm z Hz). cbn in *. lia.
  Qed.

  (** remove of an object that is not in the Clock *)
  Theorem C79_remove_partial s id fuel : reaches s -> id ∉ b_id <$> q_clock s ->
    exists s', step qdl_ops fuel s (CRemove id) = Ok (s', OBool (bool_decide (id ∈ b_id <$> (q_fifo s ++ q_ghost s)))) /\
      q_fifo s' = filter (fun x => b_id x <> id) (q_fifo s) /\ q_clock s' = q_clock s /\
      q_ghost s' = filter (fun x => b_id x <> id) (q_ghost s) /\ op_occupied qdl_ops s' = bbytes (q_held s').
  Proof using Hfs Hmd.
    intros Hre Hk. destruct (reaches_inv s Hre) as (d & H & I). destruct (view_ok _ _ H) as (V1 & V2 & V3). rewrite V1, V2, V3 in *.
    pose proof (call_ok fs ks cap md ltac:(lia) ltac:(lia) Hmd s d (CRemove id) (d_size d) H I Logic.I (Nat.le_refl _)) as X. cbn [d_call] in X.
    rewrite decide_False in X by done. destruct X as (s' & Es & H' & _). exists s'. split; [exact Es|]. destruct (view_ok _ _ H') as (W1 & W2 & W3).
    unfold q_held. rewrite W1, W2, W3. split; [done|]. split; [done|]. split; [done|]. apply (dr_occ _ _ _ _ _ _ H').
  Qed.
End Props.

(** * A run: 5 bytes, 1 for the FIFO.  2 and 3 have a hit when they leave the FIFO
    and move to the Clock; 1 and 4 leave without one, and 4, asked for again while
    it is a ghost, enters the Clock. *)
Definition rq (id : Z) : req := mkReq id 1 0 0 0.
Ltac calls := repeat (apply Forall_cons_2; [first [exact Logic.I|unfold plain, qd_call, req_ok; cbn; lia]|]); apply Forall_nil_2.
Definition prog : list call := CGet <$> (rq <$> [1; 2; 3; 2; 3; 4; 5; 6; 7; 8; 4; 2; 9]).
Definition st (fs cap : Z) (cs : list call) : qdl :=
  match run qdl_ops 100 (qdl_init cap 0 fs AdmNone) cs with Ok (s, _) => s | Err _ => qdl_init cap 0 fs AdmNone end.
Example prog_ex :
  (q_fifo (st 1 5 prog), q_clock (st 1 5 prog), q_ghost (st 1 5 prog)) =
  ([mkLob 9 1 0; mkLob 8 1 0], [mkLob 2 1 1; mkLob 3 1 0; mkLob 4 1 0], [mkLob 7 1 0; mkLob 6 1 0; mkLob 5 1 0; mkLob 1 1 0]).
Proof. vm_compute. reflexivity. Qed.
Example prog_reaches_ex : qd_reaches 1 5 0 AdmNone (st 1 5 prog).
Proof.
  destruct (C79_completes_partial 1 5 0 ltac:(lia) ltac:(lia) AdmNone prog 100) as (s & os & E).
  { unfold prog. cbn; calls. } { cbn; lia. }
  unfold st. rewrite E. exists prog, os, 100%nat. split; [unfold prog; cbn; calls|]. split; [cbn; lia|done].
Qed.
(** The FIFO is over its share: its oldest object leaves.  Then it is not: the
    hand passes 2, which is marked, and takes 3. *)
Definition prog2 : list call := prog ++ [CEvict (rq 0); CEvict (rq 0)].
Example prog2_ex :
  (q_fifo (st 1 5 prog2), q_clock (st 1 5 prog2), ql_hand (st 1 5 prog2)) = ([mkLob 9 1 0], [mkLob 2 1 0; mkLob 4 1 0], HAt 4).
Proof. vm_compute. reflexivity. Qed.
(** The machine is defined on this program and agrees. *)
Example prog2_machine_ex :
  match d_run 1 4 5 0 (mkQD [] [] [] [] false AdmNone) prog2 with
  | Some (d, _) => (d_f d, d_b d, d_a d) = ([mkLob 9 1 0], [mkLob 2 1 0], [mkLob 4 1 0])
  | None => False
  end.
Proof. vm_compute. reflexivity. Qed.

(** * Where it fails *)

(** Removing the object under the hand leaves the hand pointing to freed memory,
    which the next eviction reads. *)
Theorem C79_hand_refuted : exists fs cap cs,
  0 <= fs <= cap /\ Forall (qd_call 0) cs /\ run qdl_ops 100 (qdl_init cap 0 fs AdmNone) cs = Err UseAfterFree.
Proof.
  exists 1, 5, (prog2 ++ [CRemove 4; CEvict (rq 0)]). split; [lia|]. split; [unfold prog2, prog; cbn; calls|]. vm_compute. reflexivity.
Qed.

(** remove says true for an object that is not cached. *)
Theorem C79_remove_refuted : exists fs cap cs s os,
  0 <= fs <= cap /\ Forall (plain 0) cs /\ run qdl_ops 100 (qdl_init cap 0 fs AdmNone) cs = Ok (s, os) /\
  (exists s', step qdl_ops 100 s (CFind (rq 7) false) = Ok (s', OBool false)) /\
  (exists s', step qdl_ops 100 s (CRemove 7) = Ok (s', OBool true)).
Proof.
  destruct (run qdl_ops 100 (qdl_init 5 0 1 AdmNone) prog) as [[s os]|] eqn:E; [|by vm_compute in E].
  exists 1, 5, prog, s, os. split; [lia|]. split; [unfold prog; cbn; calls|]. split; [done|].
  vm_compute in E. injection E as <- _. split; eexists; vm_compute; reflexivity.
Qed.

(** insert of an object that is not cached, with room for it, puts a second entry
    for it into the hash table if it is a ghost. *)
Theorem C79_insert_refuted : exists fs cap cs s os,
  0 <= fs <= cap /\ Forall (plain 0) cs /\ run qdl_ops 100 (qdl_init cap 0 fs AdmNone) cs = Ok (s, os) /\
  7 ∉ b_id <$> q_held s /\ op_occupied qdl_ops s + 1 <= cap /\ step qdl_ops 100 s (CInsert (rq 7)) = Err DupInsert.
Proof.
  destruct (run qdl_ops 100 (qdl_init 5 0 1 AdmNone) (prog ++ [CEvict (rq 0)])) as [[s os]|] eqn:E; [|by vm_compute in E].
  exists 1, 5, (prog ++ [CEvict (rq 0)]), s, os. split; [lia|]. split; [unfold prog; cbn; calls|]. split; [done|].
  vm_compute in E. injection E as <- _. split; [apply (bool_decide_eq_true_1 (7 ∉ _)); vm_compute; reflexivity|]. split; vm_compute; done.
Qed.

(** to_evict names an object that stays; it aborts if the FIFO is empty. *)
Theorem C79_to_evict_refuted : exists fs cap cs s os,
  0 <= fs <= cap /\ Forall (plain 0) cs /\ run qdl_ops 100 (qdl_init cap 0 fs AdmNone) cs = Ok (s, os) /\
  (exists s', step qdl_ops 100 s (CToEvict (rq 0)) = Ok (s', OVictim (Some 9))) /\
  (exists s', step qdl_ops 100 s (CEvict (rq 0)) = Ok (s', OUnit) /\ 9 ∈ b_id <$> q_held s').
Proof.
  destruct (run qdl_ops 100 (qdl_init 5 0 1 AdmNone) (prog ++ [CEvict (rq 0)])) as [[s os]|] eqn:E; [|by vm_compute in E].
  exists 1, 5, (prog ++ [CEvict (rq 0)]), s, os. split; [lia|]. split; [unfold prog; cbn; calls|]. split; [done|].
  vm_compute in E. injection E as <- _. split; [eexists; vm_compute; reflexivity|].
  eexists. split; [vm_compute; reflexivity|]. apply (bool_decide_eq_true_1 (9 ∈ _)). vm_compute. reflexivity.
Qed.
Theorem C79_to_evict_abort_refuted : exists fs cap cs s os,
  0 <= fs <= cap /\ Forall (plain 0) cs /\ run qdl_ops 100 (qdl_init cap 0 fs AdmNone) cs = Ok (s, os) /\
  q_held s <> [] /\ step qdl_ops 100 s (CToEvict (rq 0)) = Err AssertFail.
Proof.
  destruct (run qdl_ops 100 (qdl_init 5 0 0 AdmNone) [CGet (rq 1); CGet (rq 1); CEvict (rq 0)]) as [[s os]|] eqn:E; [|by vm_compute in E].
  eexists 0, 5, _, s, os. split; [lia|]. split; [|split; [exact E|]]; [cbn; calls|].
  vm_compute in E. injection E as <- _. split; [vm_compute; done|]. vm_compute. reflexivity.
Qed.

(** An eviction that evicts nothing: the object only moves to the Clock. *)
Theorem C79_evict_refuted : exists fs cap cs s os,
  0 <= fs <= cap /\ Forall (plain 0) cs /\ run qdl_ops 100 (qdl_init cap 0 fs AdmNone) cs = Ok (s, os) /\
  q_held s <> [] /\ exists s', step qdl_ops 100 s (CEvict (rq 0)) = Ok (s', OUnit) /\ b_id <$> q_held s' = b_id <$> q_held s.
Proof.
  destruct (run qdl_ops 100 (qdl_init 5 0 0 AdmNone) [CGet (rq 1); CGet (rq 1)]) as [[s os]|] eqn:E; [|by vm_compute in E].
  eexists 0, 5, _, s, os. split; [lia|]. split; [|split; [exact E|]]; [cbn; calls|].
  vm_compute in E. injection E as <- _. split; [vm_compute; done|]. eexists. split; vm_compute; reflexivity.
Qed.

(** The Clock can be over its share: a ghost that comes back is put there without
    cutting it. *)
Definition rz (id sz : Z) : req := mkReq id sz 0 0 0.
Theorem C79_clock_share_refuted : exists fs cap cs s os,
  0 <= fs <= cap /\ Forall (plain 0) cs /\ run qdl_ops 100 (qdl_init cap 0 fs AdmNone) cs = Ok (s, os) /\
  bbytes (q_clock s) > cap - fs.
Proof.
  destruct (run qdl_ops 100 (qdl_init 4 0 2 AdmNone) (CGet <$> [rz 1 1; rz 2 1; rz 3 2; rz 4 1; rz 1 1; rz 2 1; rz 3 2])) as [[s os]|] eqn:E; [|by vm_compute in E].
  eexists 2, 4, _, s, os. split; [lia|]. split; [|split; [exact E|]]; [cbn; calls|].
  vm_compute in E. injection E as <- _. vm_compute. reflexivity.
Qed.

(** fifo-ratio above 1 is taken: the share of the Clock is negative then, and the
    first object that should move there makes the code follow a null pointer. *)
Theorem C79_ratio_refuted : exists fs cap cs,
  0 < cap < fs /\ Forall (plain 0) cs /\ run qdl_ops 100 (qdl_init cap 0 fs AdmNone) cs = Err NullDeref.
Proof.
  exists 4, 2, (CGet <$> [rz 1 1; rz 1 1; rz 2 1; rz 3 1]). split; [lia|]. split; [cbn; calls|]. vm_compute. reflexivity.
Qed.
