(** C77: LP_SFIFO is the machine of SpecLPSFIFO.v on every program of calls;
    what follows from it for the cached objects; and where the file falls short
    of the contract of a cache (refutations at the end). *)
From stdpp Require Import gmap list numbers fin_maps.
From Verif Require Import Base Driver ModelQueue QueueFacts QList ModelTwoQ ModelSLRU ModelSegV0 ModelLPSFIFO SpecLPSFIFO LPSFIFOFacts.
Open Scope Z_scope.

(** The objects of each FIFO, newest first, with size and SFIFO.freq. *)
Definition seg_view (q : qstate) : list lob :=
  (fun id => match c_tbl (q_c q) !! id with Some o => mkLob id (o_size o) (o_p1 o) | None => mkLob id 0 0 end) <$> q_q q.
Definition lps_view (s : segv0) : list (list lob) := seg_view <$> v0_q s.

Lemma vb_view m q l : vb m q l -> seg_view q = l.
Proof.
  intros (ql & H & <-). unfold seg_view, bv. rewrite (qok_q _ _ _ _ H). unfold ids. rewrite <- list_fmap_compose.
  apply list_fmap_ext. intros i [id o] Hi. cbn.
  assert (c_tbl (q_c q) !! id = Some o) as ->; [|done].
  apply (qok_lookup _ _ _ _ H id o). by eapply elem_of_list_lookup_2.
Qed.
Lemma bst_view ms cap s a : bstate ms cap s a -> lps_view s = bs_segs a.
Proof.
  intros [[H _] _ _ _ _]. unfold lps_view. induction H as [|q l qs segs Hq H IH]; [done|].
  cbn. by rewrite IH, (vb_view _ _ _ Hq).
Qed.

Definition lps_call (c : call) : Prop := call_ok (req_ok 0) c.
Definition not_evict (c : call) : Prop := match c with CEvict _ => False | _ => True end.
Definition held (s : segv0) : list lob := concat (lps_view s).

Section Props.
  (** [ms]: the sizes of the segments *)
  Context (ms : list Z) (cap : Z) (adm : admissioner).
  Context (Hms : Forall (fun m => 0 <= m) ms) (Hn : ms <> []) (Hsum : foldr Z.add 0 ms <= cap).

  Definition lps_reaches (s : segv0) : Prop :=
    exists s0 cs fuel os, lps_init cap (length ms) ms adm = Ok s0 /\ Forall lps_call cs /\ Z.of_nat (length cs) < 2 ^ 31 - 1 /\
      (2 * length cs <= fuel)%nat /\ run lps_ops fuel s0 cs = Ok (s, os).

  Lemma cap_nn : 0 <= cap.
  Proof using Hms Hsum.
    enough (0 <= foldr Z.add 0 ms) by lia. clear -Hms. induction ms as [|m l IH]; cbn; [lia|]. apply Forall_cons in Hms as [? ?]. specialize (IH H0). lia.
  Qed.
  Lemma nils : concat (replicate (length ms) []) = ([] : list lob).
  Proof using. clear. generalize (length ms). induction n; [done|]. cbn. done. Qed.

  Lemma brun_none cs : forall a k s, bstate ms cap s a -> binv ms cap k (bs_segs a) -> 0 <= k -> k + Z.of_nat (length cs) < 2 ^ 31 ->
    Forall lps_call cs -> Forall not_evict cs -> brun ms cap a cs <> None.
  Proof using Hms Hn Hsum.
    induction cs as [|c cs IH]; intros a k s HT HI H0 Hk Hc He; [done|].
    apply Forall_cons in Hc as [Hc Hcs], He as [He Hes]. cbn [length] in Hk. cbn [brun].
    pose proof (step_ok ms cap Hms Hn Hsum s a c k _ HT HI H0 ltac:(lia) (le_n _) Hc) as HS.
    destruct (bcall ms cap a c) as [[a1 o]|] eqn:Eb.
    - destruct HS as (s1 & _ & HT1 & HI1 & _). specialize (IH a1 (k + 1) s1 HT1 HI1 ltac:(lia) ltac:(lia) Hcs Hes).
      by destruct (brun ms cap a1 cs) as [[? ?]|].
    - exfalso. destruct c as [r|r u|r|id|r|r]; cbn [bcall] in Eb; try done.
      + unfold bget in Eb. destruct (decide _); [done|]. destruct (admit (bs_adm a) r) as [adm' ok] eqn:Ea.
        destruct (_ && _ && _)%bool eqn:Eok; [|done].
        apply andb_prop in Eok as [Eok E2]. apply bool_decide_eq_true in E2.
        pose proof (bmu_le (concat (bs_segs a))) as Hmu.
        assert (HT' : bstate ms cap s (mkBS (bs_segs a) (bs_adm a))) by (by destruct a).
        destruct (broom_ok ms cap Hms Hn Hsum r k (bs_adm a) (2 * length (concat (bs_segs a))) E2 s (bs_segs a) _ ltac:(lia) (le_n _) HT' HI)
          as (? & ? & _ & B & _). by rewrite B in Eb.
      + by destruct (decide _).
      + destruct (decide _); [done|]. by destruct (decide _).
  Qed.

  (** The cache answers as the machine does and holds the same objects in the same
      places; it aborts exactly where the machine has no next state. *)
  Theorem C77_refines cs fuel : Forall lps_call cs -> Z.of_nat (length cs) < 2 ^ 31 -> (2 * length cs <= fuel)%nat ->
    exists s0, lps_init cap (length ms) ms adm = Ok s0 /\
      match brun ms cap (mkBS (replicate (length ms) []) adm) cs with
      | Some (a, os) => exists s, run lps_ops fuel s0 cs = Ok (s, os) /\ lps_view s = bs_segs a /\
                          op_occupied lps_ops s = bbytes (concat (bs_segs a))
      | None => run lps_ops fuel s0 cs = Err AssertFail
      end.
  Proof using Hms Hn Hsum.
    intros Hc Hk Hf. destruct (init_ok ms cap Hms adm cap_nn) as (s0 & E & HT & HI). exists s0. split; [done|].
    pose proof (run_ok ms cap Hms Hn Hsum fuel cs s0 _ 0 HT HI ltac:(lia) ltac:(lia)) as H.
    cbn [bs_segs] in H. rewrite nils in H. specialize (H ltac:(cbn; lia) Hc).
    destruct (brun _ _ _ _) as [[a os]|]; [|done]. destruct H as (s & -> & HT' & _). exists s. split; [done|].
    split; [by eapply bst_view|by eapply occ_ok].
  Qed.

  (** Without direct calls of evict no program aborts. *)
  Theorem C77_completes_partial cs fuel : Forall lps_call cs -> Forall not_evict cs -> Z.of_nat (length cs) < 2 ^ 31 ->
    (2 * length cs <= fuel)%nat ->
    exists s0 s os, lps_init cap (length ms) ms adm = Ok s0 /\ run lps_ops fuel s0 cs = Ok (s, os).
  Proof using Hms Hn Hsum.
    intros Hc He Hk Hf. destruct (init_ok ms cap Hms adm cap_nn) as (s0 & E & HT & HI). exists s0.
    pose proof (brun_none cs _ 0 s0 HT HI ltac:(lia) ltac:(lia) Hc He) as HB.
    destruct (C77_refines cs fuel Hc Hk Hf) as (s0' & E' & H). rewrite E in E'. injection E' as <-.
    destruct (brun _ _ _ _) as [[a os]|]; [|done]. destruct H as (s & Hr & _). eauto.
  Qed.

  Lemma reaches_inv s : lps_reaches s -> exists a k, bstate ms cap s a /\ binv ms cap k (bs_segs a) /\ 0 <= k /\ k + 1 < 2 ^ 31.
  Proof using Hms Hn Hsum.
    intros (s0 & cs & fuel & os & E & Hc & Hk & Hf & Hr). destruct (init_ok ms cap Hms adm cap_nn) as (s0' & E' & HT & HI).
    rewrite E in E'. injection E' as <-.
    pose proof (run_ok ms cap Hms Hn Hsum fuel cs s0 _ 0 HT HI ltac:(lia) ltac:(lia)) as H.
    cbn [bs_segs] in H. rewrite nils in H. specialize (H ltac:(cbn; lia) Hc).
    destruct (brun _ _ _ _) as [[a os']|]; [|congruence]. destruct H as (s' & Hr' & HT' & HI'). rewrite Hr in Hr'. injection Hr' as <- <-.
    exists a, (0 + Z.of_nat (length cs)). split; [done|]. split; [done|]. lia.
  Qed.

  (** In every reachable state no id occurs twice, the bytes held are the bytes
      reported and at most the cache size, and every segment but the lowest is
      within its size. *)
  Theorem C77_invariant s : lps_reaches s ->
    NoDup (b_id <$> held s) /\ op_occupied lps_ops s = bbytes (held s) /\ bbytes (held s) <= cap /\
    length (lps_view s) = length ms /\ forall i, (1 <= i < length ms)%nat -> bbytes (lps_view s !!! i) <= ms !!! i.
  Proof using Hms Hn Hsum.
    intros H. destruct (reaches_inv s H) as (a & k & HT & [I1 I2 I3 I4 I5] & _). unfold held. rewrite (bst_view _ _ _ _ HT).
    split; [done|]. split; [by eapply occ_ok|]. done.
  Qed.

  (** get in every reachable state: it completes, hits exactly on a held object,
      a hit moves nothing, a missed object that is accepted is held afterwards
      without hits and nothing else came in, a refused one changes nothing. *)
  Theorem C77_get s r fuel : lps_reaches s -> req_ok 0 r -> (2 * length (held s) <= fuel)%nat ->
    exists s', step lps_ops fuel s (CGet r) = Ok (s', OBool (bool_decide (r_id r ∈ b_id <$> held s))) /\
      (r_id r ∈ b_id <$> held s -> bids <$> lps_view s' = bids <$> lps_view s) /\
      (r_id r ∉ b_id <$> held s ->
        if ((admit (c_adm (v0_c s)) r).2 && bool_decide (r_size r <= cap) && bool_decide (r_size r <= ms !!! O))%bool
        then mkLob (r_id r) (r_size r) 0 ∈ held s' /\
             forall id, id ∈ b_id <$> held s' -> id = r_id r \/ id ∈ b_id <$> held s
        else lps_view s' = lps_view s).
  Proof using Hms Hn Hsum.
    intros H Hr Hf. destruct (reaches_inv s H) as (a & k & HT & HI & H0 & Hk). unfold held in *. rewrite (bst_view _ _ _ _ HT) in *.
    pose proof (step_ok ms cap Hms Hn Hsum s a (CGet r) k fuel HT HI H0 Hk Hf Hr) as HS. cbn [bcall] in HS.
    unfold bget in HS. rewrite (bt_adm _ _ _ _ HT). fold (bids (concat (bs_segs a))). fold (bcached (bs_segs a) (r_id r)).
    destruct (decide (bcached (bs_segs a) (r_id r))) as [Hin|Hin].
    - destruct HS as (s' & Hs & HT' & _). exists s'. rewrite bool_decide_eq_true_2 by done. split; [done|]. rewrite (bst_view _ _ _ _ HT').
      split; [|done]. intros _. cbn [bs_segs]. unfold bmark. apply list_eq. intros i. rewrite !list_lookup_fmap, list_lookup_imap.
      destruct (bs_segs a !! i); [|done]. cbn. f_equal. apply bhit_ids.
    - destruct (admit (bs_adm a) r) as [adm' ok] eqn:Ea. cbn [snd].
      destruct (ok && bool_decide (r_size r <= cap) && bool_decide (r_size r <= ms !!! O))%bool eqn:Eok.
      + assert (E2 := Eok). apply andb_prop in E2 as [_ E2]. apply bool_decide_eq_true in E2.
        pose proof (bmu_le (concat (bs_segs a))) as Hmu.
        assert (HT2 : bstate ms cap s (mkBS (bs_segs a) (bs_adm a))) by (by destruct a).
        destruct (broom_ok ms cap Hms Hn Hsum r k (bs_adm a) (2 * length (concat (bs_segs a))) E2 s (bs_segs a) _ ltac:(lia) (le_n _) HT2 HI)
          as (? & segs2 & _ & B & _ & HI2 & _ & _ & Hsub). rewrite B in HS.
        destruct HS as (s' & Hs & HT' & _). exists s'. rewrite bool_decide_eq_false_2 by done. split; [done|]. split; [done|]. intros _.
        rewrite (bst_view _ _ _ _ HT'). cbn [bs_segs].
        assert (HP : concat (bplace ms segs2 r) ≡ₚ mkLob (r_id r) (r_size r) 0 :: concat segs2).
        { unfold bplace. set (i := default O _).
          assert (Hi : (i < length segs2)%nat).
          { rewrite (bi_len _ _ _ _ HI2). unfold i. destruct (bfirst _ _ _) as [j|] eqn:Eb; cbn; [by destruct (bfirst_lt _ _ _ _ Eb)|].
            clear -Hn. destruct ms; [done|cbn; lia]. }
          destruct (concat_ins segs2 i _ (tot_lookup segs2 i Hi)) as (r2 & A2 & B2). rewrite B2, A2. done. }
        rewrite HP. split; [left|]. intros id. unfold bids. rewrite HP, fmap_cons. intros [->|Hid]%elem_of_cons; [by left|right]. by apply Hsub.
      + destruct HS as (s' & Hs & HT' & _). exists s'. rewrite bool_decide_eq_false_2 by done. split; [done|]. split; [done|]. intros _.
        by rewrite (bst_view _ _ _ _ HT').
  Qed.

  (** A direct evict while bytes are held: it aborts exactly if the lowest segment
      has none.  Otherwise it looks at the oldest object of that segment.  Without
      hits this object leaves and nothing else changes.  With hits no object
      leaves: it goes to the head of the segment given by the number of its hits
      (the top one if there are more), if it fits there, and its count restarts. *)
  Theorem C77_evict s r fuel : lps_reaches s -> bbytes (held s) > 0 ->
    if decide (bbytes (lps_view s !!! O) > 0) then
      exists s' l x, step lps_ops fuel s (CEvict r) = Ok (s', OUnit) /\ lps_view s !!! O = l ++ [x] /\
        (b_fr x = 0 -> lps_view s' = <[O := l]> (lps_view s)) /\
        (b_fr x > 0 ->
           (exists rest, held s ≡ₚ x :: rest /\ held s' ≡ₚ mkLob (b_id x) (b_sz x) 0 :: rest) /\
           let i := Nat.min (Z.to_nat (b_fr x)) (length ms - 1) in
           ((0 < i)%nat -> b_sz x <= ms !!! i -> head (lps_view s' !!! i) = Some (mkLob (b_id x) (b_sz x) 0)))
    else step lps_ops fuel s (CEvict r) = Err AssertFail.
  Proof using Hms Hn Hsum.
    intros H Hb. destruct (reaches_inv s H) as (a & k & HT & HI & H0 & Hk). unfold held in *. rewrite (bst_view _ _ _ _ HT) in *.
    pose proof (evict_ok ms cap Hms Hn s a r k HT HI) as HE. pose proof (bevict_inv ms cap Hms Hn k _ HI) as HV.
    cbn [step op_nobj lps_ops op_evict]. rewrite (occ_ok _ _ _ _ HT). rewrite (decide_False (P := bbytes (concat (bs_segs a)) <= 0)) by lia.
    destruct (bevict ms (bs_segs a)) as [segs'|] eqn:Eb.
    - destruct HV as (HI' & Hgt & l & x & Hx & HP & Hc). rewrite decide_True by done. destruct HE as (s' & -> & HT').
      exists s', l, x. cbn [rbind]. split; [done|]. split; [done|]. rewrite (bst_view _ _ _ _ HT'). cbn [bs_segs].
      destruct (decide (b_fr x > 0)) as [Hf|Hf].
      + split; [lia|]. intros _. split; [by exists (concat (<[O := l]> (bs_segs a)))|].
        set (i := Nat.min _ _). intros Hi Hsz.
        unfold bevict in Eb. rewrite decide_True in Eb by done. rewrite Hx, last_snoc, removelast_last in Eb.
        rewrite decide_True in Eb by done. rewrite insert_length, (bi_len _ _ _ _ HI) in Eb. fold i in Eb. injection Eb as <-.
        assert (HiL : (i < length ms)%nat) by lia. clearbody i. destruct i as [|j]; [lia|]. cbn [bsettle].
        rewrite list_lookup_total_insert by (rewrite insert_length, (bi_len _ _ _ _ HI); lia). cbn [spill]. cbn [b_sz].
        rewrite decide_True by done. destruct (spill _ _) as [c d]. rewrite bsettle_above by lia.
        rewrite list_lookup_total_insert_ne by lia.
        rewrite list_lookup_total_insert by (rewrite !insert_length, (bi_len _ _ _ _ HI); lia). done.
      + subst segs'. split; [done|lia].
    - rewrite decide_False by lia. by rewrite HE.
  Qed.

  (** remove: it reports whether the object was held, and exactly it is gone. *)
  Theorem C77_remove s id fuel : lps_reaches s ->
    exists s', step lps_ops fuel s (CRemove id) = Ok (s', OBool (bool_decide (id ∈ b_id <$> held s))) /\
      lps_view s' = (fun l => filter (fun x => b_id x <> id) l) <$> lps_view s.
  Proof using Hms Hn Hsum.
    intros H. destruct (reaches_inv s H) as (a & k & HT & HI & H0 & Hk). unfold held in *. rewrite (bst_view _ _ _ _ HT) in *.
    cbn [step op_remove lps_ops]. unfold v0_remove. destruct HT as [T1 T2 T3 T4 T5].
    destruct (brel_remove ms (v0_q s) _ id T1 (bi_nd _ _ _ _ HI)) as (qs' & -> & HR). cbn [rbind]. eexists. split; [done|].
    apply (bst_view ms cap _ (mkBS (bdrop id (bs_segs a)) (bs_adm a))). by split.
  Qed.
End Props.

(** * A run: two segments of 2 bytes.  1 and 2 enter segment 0, 3 and 4 segment
    1; 1 is hit, so making room for 5 moves it up, 3 comes down in its place, and
    2 leaves. *)
Definition rq (id : Z) : req := mkReq id 1 0 0 0.
Definition ex_cs : list call := CGet <$> [rq 1; rq 2; rq 3; rq 4; rq 1; rq 5; rq 2; rq 1].
Definition lps_two : res segv0 := lps_init 4 2 [2; 2] AdmNone.
(** What a client sees after a program. *)
Definition seen (cs : list call) : res (list (list (Z * Z)) * list obs) :=
  let! s0 := lps_two in
  let! (s, os) := run lps_ops 40 s0 cs in Ok (map (map (fun x => (b_id x, b_fr x))) (lps_view s), os).
Example C77_ex :
  Forall lps_call ex_cs /\ Forall not_evict ex_cs /\ Forall (fun m => 0 <= m) [2; 2] /\ foldr Z.add 0 [2; 2] <= 4 /\
  seen ex_cs = Ok ([[(2, 0); (5, 0)]; [(1, 1); (4, 0)]],
                   [OBool false; OBool false; OBool false; OBool false; OBool true; OBool false; OBool false; OBool true]).
Proof. split; [by repeat constructor|]. split; [by repeat constructor|]. split; [by repeat constructor|]. done. Qed.

Definition four : list call := CGet <$> [rq 1; rq 2; rq 3; rq 4].

(** * Where LP_SFIFO is not what it should be *)

(** get_n_obj reports bytes: one object of two bytes counts as two. *)
Theorem C77_nobj_refuted : exists s, lps_reaches [2; 2] 4 AdmNone s /\
  op_nobj lps_ops s <> Z.of_nat (length (held s)).
Proof.
  destruct (lps_init 4 2 [2; 2] AdmNone) as [s0|] eqn:E0; [|done].
  destruct (run lps_ops 2 s0 [CGet (mkReq 1 2 0 0 0)]) as [[s os]|] eqn:E1;
    injection E0 as <-; [|by vm_compute in E1].
  exists s. split.
  - eexists _, [CGet (mkReq 1 2 0 0 0)], 2%nat, os. split; [reflexivity|]. split; [by repeat constructor|]. cbn. split; [lia|].
    split; [lia|]. exact E1.
  - vm_compute in E1. injection E1 as <- _. by vm_compute.
Qed.

(** find without update is not read only: it saves object 1 from eviction. *)
Theorem C77_find_refuted : exists cs1 cs2 c os1 os2,
  Forall lps_call (cs1 ++ cs2) /\ c = CFind (rq 1) false /\
  snd <$> (match seen (cs1 ++ cs2) with Ok x => Some x | Err _ => None end) = Some (os1 ++ [OBool false]) /\
  snd <$> (match seen (cs1 ++ c :: cs2) with Ok x => Some x | Err _ => None end) = Some (os2 ++ [OBool true]).
Proof.
  exists four, (CGet <$> [rq 5; rq 1]), (CFind (rq 1) false), (replicate 5 (OBool false)),
    ([OBool false; OBool false; OBool false; OBool false; OBool true; OBool false]).
  split; [by repeat constructor|]. split; [done|]. split; vm_compute; reflexivity.
Qed.

(** A direct evict aborts while objects are held, because segment 0 is empty;
    to_evict names a victim in that state. *)
Theorem C77_evict_refuted : exists cs, Forall lps_call cs /\
  seen cs = Ok ([[]; [(4, 0); (3, 0)]], replicate 4 (OBool false) ++ [OUnit; OUnit; OVictim (Some 3)]) /\
  seen (cs ++ [CEvict (rq 9)]) = Err AssertFail.
Proof.
  exists (four ++ [CEvict (rq 9); CEvict (rq 9); CToEvict (rq 9)]).
  split; [by repeat constructor|]. split; vm_compute; reflexivity.
Qed.

(** to_evict names an object that evict then keeps. *)
Theorem C77_to_evict_refuted : exists cs, Forall lps_call cs /\
  seen cs = Ok ([[(2, 0)]; [(1, 0)]], [OBool false; OBool false; OBool true; OVictim (Some 1); OUnit]).
Proof.
  exists ((CGet <$> [rq 1; rq 2; rq 1]) ++ [CToEvict (rq 9); CEvict (rq 9)]).
  split; [by repeat constructor|]. vm_compute; reflexivity.
Qed.

(** More segments (n-seg) than sizes (seg-size): init reads behind the array. *)
Theorem C77_n_seg_refuted cap n sizes adm : (length sizes < n)%nat -> lps_init cap n sizes adm = Err OutOfBounds.
Proof.
  intros H. unfold lps_init.
  assert (E : lps_segs n sizes = Err OutOfBounds); [|by rewrite E].
  revert sizes H. induction n as [|n IH]; intros [|z sizes] H; cbn in *; try lia; [done|]. rewrite IH by lia. done.
Qed.
Example C77_n_seg_ex : (length [25; 25; 25; 25] < 8)%nat.
Proof. cbn. lia. Qed.
