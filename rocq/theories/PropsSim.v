(** C27, C28, C39, C41: the simulator. *)
From stdpp Require Import gmap list numbers fin_maps.
From Verif Require Import Base Driver Abs SpecApi ModelQueue ModelLFU ModelS3FIFO ModelTwoQ
  ModelReader SpecReader ReaderFacts PropsReader PropsCore
  ModelSim SpecSim SimulatorFacts SimThreads.
Open Scope Z_scope.
Local Arguments shifted : simpl never.
Local Arguments new_request : simpl never.

Lemma choose_below {A} (d : A) n (Q : nat -> A -> Prop) :
  (forall i, (i < n)%nat -> exists a, Q i a) ->
  exists f, forall i, (i < n)%nat -> Q i (f i).
Proof.
  intros H. induction n as [|n IH].
  - exists (fun _ => d). lia.
  - destruct IH as [f Hf]; [intros i Hi; apply H; lia|].
    destruct (H n ltac:(lia)) as [a Ha].
    exists (fun i => if decide (i = n) then a else f i). intros i Hi.
    destruct (decide (i = n)) as [->|Hne]; [done|]. apply Hf. lia.
Qed.

Section det.
  Context {R : Type} (read : R -> treq -> res (R * treq * Z)) (clone : R -> R).
  Context (P : sparams (R := R)).

  Lemma lsteps_det k : forall k' v l1 c1 s1 l2 c2 s2,
    lsteps read clone P k v (l1, c1, s1) -> l_pc l1 = PLock ->
    lsteps read clone P k' v (l2, c2, s2) -> l_pc l2 = PLock ->
    c1 = c2 /\ s1 = s2.
  Proof.
    induction k as [|k IH]; intros k' v l1 c1 s1 l2 c2 s2 H1 P1 H2 P2.
    - inversion H1; subst. inversion H2; subst; done.
    - inversion H1 as [|? ? ? ? v1 ? ? ? ? ? ? E1 L1]; subst.
      inversion H2 as [|? ? ? ? v2 ? ? ? ? ? ? E2 L2]; subst; [done|].
      rewrite E1 in E2. injection E2 as <-. by eapply IH.
  Qed.

  (** The state of the generator left by earlier tasks does not matter: line
      40 resets it. *)
  Lemma lsteps_seed k seed seed' c s v :
    lsteps read clone P k (fresh_job P seed, c, s) v -> l_pc v.1.1 = PLock ->
    lsteps read clone P k (fresh_job P seed', c, s) v.
  Proof.
    intros H Hv. inversion H as [|? ? ? ? v1 ? ? ? ? ? ? E1 L1]; subst; [done|].
    eapply ls_S; try done.
  Qed.

  (** The statistics of one task are determined by its cache. *)
  Definition task_stats (c c' : acache) (s : cstat) : Prop :=
    exists k lF, lsteps read clone P k (fresh_job P 0, c, set_csize (ac_size c) stat0) (lF, c', s) /\
      l_pc lF = PLock.

  Lemma task_stats_det c c1 s1 c2 s2 :
    task_stats c c1 s1 -> task_stats c c2 s2 -> c1 = c2 /\ s1 = s2.
  Proof. intros (k1 & l1 & H1 & P1) (k2 & l2 & H2 & P2). by eapply lsteps_det. Qed.
End det.

Section c28.
  Context {R : Type} (read : R -> treq -> res (R * treq * Z)) (clone : R -> R).
  Context (P : sparams (R := R)) (wl l : list treq).

  (** What both entry points have in common: [start seeds] is the state before
      the first push. *)
  Lemma all_schedules src n (c0 c1 : nat -> acache) caches heap :
    (0 < n)%nat -> Z.of_nat n < 2 ^ 63 ->
    (forall i, (i < n)%nat -> task_ok read clone P wl l (c0 i) (c1 i)) ->
    (forall mk i, src = Created mk -> (i < n)%nat -> mk i = c0 i) ->
    length caches = n ->
    (forall i j p, caches !! i = Some (Some p) -> caches !! j = Some (Some p) -> i = j) ->
    (forall i, (i < n)%nat ->
       match src with
       | Given => exists p, caches !! i = Some (Some p) /\ heap !! p = Some (c0 i)
       | Created _ => caches !! i = Some None
       end) ->
    exists results K,
      length results = n /\
      (forall i s, results !! i = Some s ->
         sim_result wl l (sp_nwarm P) (sp_sec P) (c0 i) (c1 i) s /\
         task_stats read clone P (c0 i) (c1 i) s) /\
      forall seeds,
        let m0 := mkM (MPush 1) caches heap 0 (replicate n stat0) 0 None []
                      (map (fun sd => mkW sd None) seeds) in
        (forall sched, exists m, grun read clone P src m0 sched = Ok m /\
           (m_main m = MDone -> m_res m = results /\
              (sp_free P = false -> forall i, (i < n)%nat ->
                 exists p, m_caches m !! i = Some (Some p) /\ m_heap m !! p = Some (c1 i)))) /\
        (forall rounds, seeds <> [] -> (K <= length rounds)%nat ->
           (forall r, r ∈ rounds -> round (length seeds) r) ->
           exists m, grun read clone P src m0 (concat rounds) = Ok m /\ m_main m = MDone).
  Proof.
    intros Hn Hn63 Hok Hsrc Hl Hptr Hc.
    assert (Hc0 : forall i, (i < n)%nat -> exists ks : nat * cstat,
       (forall seed, exists lF,
          lsteps read clone P ks.1 (fresh_job P seed, c0 i, set_csize (ac_size (c0 i)) stat0)
                 (lF, c1 i, ks.2) /\ l_pc lF = PLock) /\
       sim_result wl l (sp_nwarm P) (sp_sec P) (c0 i) (c1 i) ks.2).
    { intros i Hi.
      destruct (task_run read clone P wl l (c0 i) (c1 i) (fresh_job P 0) _ (Hok i Hi) eq_refl eq_refl)
        as (k & lF & s & L & E & Hs).
      exists (k, s). split; [|exact Hs]. intros seed. exists lF. split; [|done].
      eapply lsteps_seed; [exact L|exact E]. }
    destruct (choose_below (0%nat, stat0) n _ Hc0) as [f Hf]. clear Hc0.
    set (good := fun (i : nat) (s : cstat) => s = (f i).2).
    assert (Hpath : forall i seed, (i < n)%nat -> exists k lF sF,
      lsteps read clone P k (fresh_job P seed, c0 i, set_csize (ac_size (c0 i)) stat0) (lF, c1 i, sF) /\
      l_pc lF = PLock /\ good i sF /\ (k <= (f i).1)%nat).
    { intros i seed Hi. destruct (Hf i Hi) as [H _]. destruct (H seed) as (lF & L & E).
      exists (f i).1, lF, (f i).2. done. }
    exists (map (fun i => (f i).2) (seq 0 n)), (mu0 n (fun i => (f i).1)).
    split; [by rewrite map_length, seq_length|]. split.
    { intros i s Hs. rewrite list_lookup_fmap in Hs.
      destruct (seq 0 n !! i) as [j|] eqn:E; [|done]. cbn in Hs. injection Hs as <-.
      apply lookup_seq in E as [-> Hi]. destruct (Hf i Hi) as [H1 H2]. split; [exact H2|].
      destruct (H1 0) as (lF & L & E). exists (f i).1, lF. done. }
    intros seeds m0.
    assert (I0 := inv_init read clone P src n c0 c1 good (fun i => (f i).1) Hn Hsrc caches heap seeds Hl Hptr Hc).
    fold m0 in I0. split.
    - intros sched.
      destruct (run_inv read clone P src n c0 c1 good _ Hn Hpath Hsrc sched _ m0 I0)
        as (m & mu' & E & I & _).
      exists m. split; [exact E|]. intros Em.
      destruct (done_results read clone P src n c0 c1 good _ mu' m I Em) as (L1 & L2 & H).
      split.
      + apply list_eq. intros i. rewrite list_lookup_fmap.
        destruct (decide (i < n)%nat) as [Hi|Hi].
        * destruct (H i Hi) as [(s & Hs & Hg) _]. rewrite Hs, lookup_seq_lt by done. cbn.
          rewrite Hg. done.
        * rewrite !lookup_ge_None_2; [done|rewrite seq_length; lia|lia].
      + intros Hfree i Hi. destruct (H i Hi) as [_ G]. exact (G Hfree).
    - intros rounds Hs HK Hr.
      assert (Hw : length (m_work m0) = length seeds) by (cbn; by rewrite map_length).
      destruct (rounds_finish read clone P src n c0 c1 good _ Hn Hn63 Hpath Hsrc rounds _ m0 I0)
        as (m & mu' & E & _ & Em).
      + rewrite Hw. destruct seeds; [done|cbn; lia].
      + exact HK.
      + rewrite Hw. exact Hr.
      + exists m. done.
  Qed.
End c28.

Lemma given_caches {R} (read : R -> treq -> res (R * treq * Z)) clone P sched : forall m m',
  grun read clone P Given m sched = Ok m' -> m_caches m' = m_caches m.
Proof.
  induction sched as [|x sched IH]; intros m m'; cbn; [by intros [= <-]|].
  destruct (gstep read clone P Given m x) as [m1|] eqn:E; cbn; [|done]. intros H.
  rewrite (IH _ _ H). clear IH H. revert E. destruct x as [|w]; cbn.
  - unfold mstep. destruct (m_main m).
    + destruct (Nat.ltb _ _); [|by intros [= <-]].
      unfold rbind; repeat case_match; try done; intros [= <-]; done.
    + case_match; by intros [= <-].
    + destruct (m_queue m); [|by intros [= <-]]. case_match; by intros [= <-].
    + by intros [= <-].
  - destruct (m_work m !! w) as [[sd [[i l]|]]|]; cbn; [|unfold start_job; case_match|];
      try (by intros [= <-]).
    unfold wstep. destruct (l_pc l);
      repeat (case_match || unfold rbind); try done; intros [= <-]; done.
Qed.

Lemma given_all {R} (read : R -> treq -> res (R * treq * Z)) clone
  (P : sparams (R := R)) wl l ptrs heap (cs cs' : list acache) :
  ptrs <> [] -> Z.of_nat (length ptrs) < 2 ^ 63 ->
  NoDup ptrs -> length cs = length ptrs -> length cs' = length ptrs ->
  (forall i p c c', ptrs !! i = Some p -> cs !! i = Some c -> cs' !! i = Some c' ->
     heap !! p = Some c /\ task_ok read clone P wl l c c') ->
  exists results K,
    length results = length ptrs /\
    (forall i c c' s, cs !! i = Some c -> cs' !! i = Some c' -> results !! i = Some s ->
       sim_result wl l (sp_nwarm P) (sp_sec P) c c' s /\ task_stats read clone P c c' s) /\
    forall seeds,
      (forall sched, exists m,
         grun read clone P Given (init_given ptrs heap seeds) sched = Ok m /\
         (m_main m = MDone -> m_res m = results /\
            (sp_free P = false -> forall i p c', ptrs !! i = Some p -> cs' !! i = Some c' ->
               m_heap m !! p = Some c'))) /\
      (forall rounds, seeds <> [] -> (K <= length rounds)%nat ->
         (forall r, r ∈ rounds -> round (length seeds) r) ->
         exists m, grun read clone P Given (init_given ptrs heap seeds) (concat rounds) = Ok m /\
                   m_main m = MDone).
Proof.
  intros Hne Hn63 Hnd Hl Hl' Hok.
  set (n := length ptrs) in *.
  assert (Hn : (0 < n)%nat) by (unfold n; destruct ptrs; [done|cbn; lia]).
  destruct cs as [|d cs0] eqn:Ecs; [cbn in Hl; lia|]. rewrite <- Ecs in *. clear cs0 Ecs.
  set (c0 := fun i => default d (cs !! i)). set (c1 := fun i => default d (cs' !! i)).
  assert (G : forall i, (i < n)%nat -> exists p, ptrs !! i = Some p /\ heap !! p = Some (c0 i) /\
            cs' !! i = Some (c1 i) /\ task_ok read clone P wl l (c0 i) (c1 i)).
  { intros i Hi. destruct (lookup_lt_is_Some_2 ptrs i Hi) as [p Hp].
    destruct (lookup_lt_is_Some_2 cs i ltac:(lia)) as [c Hc].
    destruct (lookup_lt_is_Some_2 cs' i ltac:(lia)) as [c' Hc'].
    exists p. unfold c0, c1. rewrite Hc, Hc'. cbn. split; [done|].
    destruct (Hok i p c c' Hp Hc Hc'). done. }
  destruct (all_schedules read clone P wl l Given n c0 c1 (map Some ptrs) heap)
    as (results & K & H1 & H2 & H3); try done.
  - intros i Hi. destruct (G i Hi) as (p & _ & _ & _ & Ht). exact Ht.
  - by rewrite map_length.
  - intros i j p Hi Hj. rewrite list_lookup_fmap in Hi, Hj.
    destruct (ptrs !! i) eqn:Ei; [|done]. destruct (ptrs !! j) eqn:Ej; [|done].
    cbn in Hi, Hj. injection Hi as ->. injection Hj as ->.
    by eapply NoDup_lookup.
  - intros i Hi. destruct (G i Hi) as (p & Hp & Hh & _). exists p.
    rewrite list_lookup_fmap, Hp. done.
  - exists results, K. split; [exact H1|]. split.
    + intros i c c' s Hc Hc' Hs. assert (H := H2 i s Hs). unfold c0, c1 in H.
      rewrite Hc, Hc' in H. exact H.
    + intros seeds. destruct (H3 seeds) as [Ha Hb]. split; [|exact Hb].
      intros sched. destruct (Ha sched) as (m & E & Hm). exists m. split; [exact E|].
      intros Em. destruct (Hm Em) as [Hr Hh]. split; [exact Hr|].
      intros Hf i p c' Hp Hc'.
      assert (Hi : (i < n)%nat) by (eapply lookup_lt_Some; exact Hp).
      destruct (Hh Hf i Hi) as (p' & Hp' & Hh').
      assert (Ec : m_caches m = map Some ptrs).
      { rewrite (given_caches read clone P _ _ _ E). done. }
      rewrite Ec, list_lookup_fmap, Hp in Hp'. injection Hp' as <-.
      destruct (G i Hi) as (_ & _ & _ & E1 & _). congruence.
Qed.

(** * C28: results do not depend on the schedule

    simulate_with_multi_caches: [ptrs] are the pointers passed by the caller,
    all different, [cs] the caches they point to.  [seeds] (one per worker
    thread) is what earlier work left in the threads' generators.  For every
    schedule nothing goes wrong (no out-of-bounds access, no use of a freed
    cache), and whenever the main thread has returned, the result array is
    [results], the same for every schedule, number of threads and seeds; each
    entry is the statistics of its cache alone (C27, [sim_result]).  And the
    main thread does return: every schedule that gives each thread enough
    turns ends that way (there is no deadlock and no endless wait). *)
Theorem C28_with_multi_caches {R} (read : R -> treq -> res (R * treq * Z)) clone
  (P : sparams (R := R)) wl l ptrs heap (cs cs' : list acache) :
  ptrs <> [] -> Z.of_nat (length ptrs) < 2 ^ 63 ->
  NoDup ptrs -> length cs = length ptrs -> length cs' = length ptrs ->
  (forall i p c c', ptrs !! i = Some p -> cs !! i = Some c -> cs' !! i = Some c' ->
     heap !! p = Some c /\ task_ok read clone P wl l c c') ->
  exists results K,
    length results = length ptrs /\
    (forall i c c' s, cs !! i = Some c -> cs' !! i = Some c' -> results !! i = Some s ->
       sim_result wl l (sp_nwarm P) (sp_sec P) c c' s) /\
    forall seeds,
      (forall sched, exists m,
         grun read clone P Given (init_given ptrs heap seeds) sched = Ok m /\
         (m_main m = MDone -> m_res m = results /\
            (sp_free P = false -> forall i p c', ptrs !! i = Some p -> cs' !! i = Some c' ->
               m_heap m !! p = Some c'))) /\
      (forall rounds, seeds <> [] -> (K <= length rounds)%nat ->
         (forall r, r ∈ rounds -> round (length seeds) r) ->
         exists m, grun read clone P Given (init_given ptrs heap seeds) (concat rounds) = Ok m /\
                   m_main m = MDone).
Proof.
  intros Hne Hn63 Hnd Hl Hl' Hok.
  destruct (given_all read clone P wl l ptrs heap cs cs' Hne Hn63 Hnd Hl Hl' Hok)
    as (results & K & H1 & H2 & H3).
  exists results, K. split; [exact H1|]. split; [|exact H3].
  intros i c c' s Hc Hc' Hs. by apply (H2 i c c' s).
Qed.

(** Each result is the one obtained by simulating that cache alone, on any
    number of threads and with any schedule. *)
Theorem C28_same_as_alone {R} (read : R -> treq -> res (R * treq * Z)) clone
  (P : sparams (R := R)) wl l ptrs heap (cs cs' : list acache) seeds sched m :
  ptrs <> [] -> Z.of_nat (length ptrs) < 2 ^ 63 ->
  NoDup ptrs -> length cs = length ptrs -> length cs' = length ptrs ->
  (forall i p c c', ptrs !! i = Some p -> cs !! i = Some c -> cs' !! i = Some c' ->
     heap !! p = Some c /\ task_ok read clone P wl l c c') ->
  grun read clone P Given (init_given ptrs heap seeds) sched = Ok m -> m_main m = MDone ->
  forall i p, ptrs !! i = Some p ->
  forall seeds1 sched1 m1,
    grun read clone P Given (init_given [p] heap seeds1) sched1 = Ok m1 -> m_main m1 = MDone ->
    exists s, m_res m !! i = Some s /\ m_res m1 = [s].
Proof.
  intros Hne Hn63 Hnd Hl Hl' Hok E Em i p Hp seeds1 sched1 m1 E1 Em1.
  destruct (given_all read clone P wl l ptrs heap cs cs' Hne Hn63 Hnd Hl Hl' Hok)
    as (results & K & H1 & H2 & H3).
  assert (Hi := lookup_lt_Some _ _ _ Hp).
  destruct (lookup_lt_is_Some_2 cs i ltac:(lia)) as [c Hc].
  destruct (lookup_lt_is_Some_2 cs' i ltac:(lia)) as [c' Hc'].
  destruct (lookup_lt_is_Some_2 results i ltac:(lia)) as [s Hs].
  destruct (given_all read clone P wl l [p] heap [c] [c']) as (results1 & K1 & A1 & A2 & A3);
    try done.
  { apply NoDup_singleton. }
  { intros [|j] p0 x x'; cbn; [|done]. intros [= <-] [= <-] [= <-]. by apply (Hok i p c c'). }
  destruct results1 as [|s1 [|? ?]]; try done.
  destruct (A2 0%nat c c' s1 eq_refl eq_refl eq_refl) as [_ T1].
  destruct (H2 i c c' s Hc Hc' Hs) as [_ T2].
  destruct (task_stats_det _ _ _ _ _ _ _ _ T1 T2) as [_ ->].
  destruct (H3 seeds) as [B _]. destruct (B sched) as (m' & E' & B').
  rewrite E in E'. injection E' as <-. destruct (B' Em) as [-> _].
  destruct (A3 seeds1) as [B1 _]. destruct (B1 sched1) as (m1' & E1' & B1').
  rewrite E1 in E1'. injection E1' as <-. destruct (B1' Em1) as [-> _].
  exists s. done.
Qed.

(** simulate_at_multi_sizes: the caches are created while tasks already run;
    [mk i] is the cache that create_cache_with_new_size makes for the i-th
    size.  The cache is freed by its worker (free_cache_when_finish). *)
Theorem C28_at_multi_sizes {R} (read : R -> treq -> res (R * treq * Z)) clone
  (P : sparams (R := R)) wl l mk (n : nat) (fin : nat -> acache) :
  (0 < n)%nat -> Z.of_nat n < 2 ^ 63 ->
  (forall i, (i < n)%nat -> task_ok read clone P wl l (mk i) (fin i)) ->
  exists results K,
    length results = n /\
    (forall i s, results !! i = Some s ->
       sim_result wl l (sp_nwarm P) (sp_sec P) (mk i) (fin i) s) /\
    forall seeds,
      (forall sched, exists m,
         grun read clone P (Created mk) (init_created n seeds) sched = Ok m /\
         (m_main m = MDone -> m_res m = results)) /\
      (forall rounds, seeds <> [] -> (K <= length rounds)%nat ->
         (forall r, r ∈ rounds -> round (length seeds) r) ->
         exists m, grun read clone P (Created mk) (init_created n seeds) (concat rounds) = Ok m /\
                   m_main m = MDone).
Proof.
  intros Hn Hn63 Hok.
  destruct (all_schedules read clone P wl l (Created mk) n mk fin (replicate n None) ∅)
    as (results & K & H1 & H2 & H3); try done.
  - intros mk' i [= ->] _. done.
  - apply replicate_length.
  - intros i j p Hi. apply lookup_replicate in Hi as [? _]. done.
  - intros i Hi. by apply lookup_replicate_2.
  - exists results, K. split; [exact H1|]. split; [intros i s Hs; by apply H2|].
    intros seeds. destruct (H3 seeds) as [Ha Hb]. split; [|exact Hb].
    intros sched. destruct (Ha sched) as (m & E & Hm). exists m. split; [exact E|].
    intros Em. by destruct (Hm Em).
Qed.

(** * C27: the statistics of one simulation *)

Lemma serves_det c sd l c1 sd1 bs1 : serves c sd l c1 sd1 bs1 ->
  forall c2 sd2 bs2, serves c sd l c2 sd2 bs2 -> c1 = c2 /\ sd1 = sd2 /\ bs1 = bs2.
Proof.
  induction 1 as [|c sd q l cA sdA b cB sdB bs E H IH]; intros c2 sd2 bs2 H2.
  - inversion H2; subst. done.
  - inversion H2 as [|? ? ? ? c3 sd3 b3 c4 sd4 bs3 E3 H3]; subst.
    rewrite E in E3. injection E3 as <- <- <-. destruct (IH _ _ _ H3) as (-> & -> & ->). done.
Qed.

Lemma serves_trans c sd l1 c1 sd1 bs1 l2 c2 sd2 bs2 :
  serves c sd l1 c1 sd1 bs1 -> serves c1 sd1 l2 c2 sd2 bs2 ->
  serves c sd (l1 ++ l2) c2 sd2 (bs1 ++ bs2).
Proof. induction 1; intros; cbn; [done|]. econstructor; eauto. Qed.

Lemma warm_prefix_le nw sec l k : warm_prefix nw sec l k -> (k <= length l)%nat.
Proof.
  intros [H _]. destruct k as [|k]; [lia|]. destruct (H k ltac:(lia)) as (_ & x & Hx & _).
  apply lookup_lt_Some in Hx. lia.
Qed.

Lemma missed_length l bs : (length (missed l bs) <= length l)%nat.
Proof.
  revert bs. induction l as [|q l IH]; intros [|b bs]; cbn; try lia.
  rewrite app_length. specialize (IH bs). destruct b; cbn; lia.
Qed.

Lemma missed_bytes l bs :
  Forall (fun q => 0 <= fget q F_SIZE) l -> 0 <= bytes (missed l bs) <= bytes l.
Proof.
  intros H. revert bs. induction H as [|q l Hq Hl IH]; intros bs; [cbn; lia|].
  assert (E : bytes (q :: l) = fget q F_SIZE + bytes l) by done. rewrite E.
  destruct bs as [|b bs]; cbn [missed].
  - specialize (IH []). destruct l; cbn in IH |- *; unfold bytes in *; cbn in *; lia.
  - specialize (IH bs). destruct b; cbn [app]; [lia|].
    assert (E2 : bytes (q :: missed l bs) = fget q F_SIZE + bytes (missed l bs)) by done. lia.
Qed.

(** Simulating a cache on a trace: whatever the schedule, the number of threads
    and the other caches, the reported record is this.  [l] is the list of
    requests that the trace reader delivers, [wl] that of the warm-up reader
    (empty without one), [bs] the answers of the cache to [wl ++ l], asked one
    by one: [true] for a hit.  The first [k] requests of [l] are warm-up.
    - requests: everything delivered is counted once, as warm-up or not;
    - n_req_byte is the sum of the counted sizes;
    - n_miss and n_miss_byte are the number and the bytes of the counted
      requests that were answered "miss". *)
Theorem C27_simulate {R} (read : R -> treq -> res (R * treq * Z)) clone
  (P : sparams (R := R)) wl l ptrs heap (cs cs' : list acache) seeds sched m :
  ptrs <> [] -> Z.of_nat (length ptrs) < 2 ^ 63 ->
  NoDup ptrs -> length cs = length ptrs -> length cs' = length ptrs ->
  (forall i p c c', ptrs !! i = Some p -> cs !! i = Some c -> cs' !! i = Some c' ->
     heap !! p = Some c /\ task_ok read clone P wl l c c') ->
  grun read clone P Given (init_given ptrs heap seeds) sched = Ok m -> m_main m = MDone ->
  forall i c, cs !! i = Some c ->
  exists s bs c' sd k,
    m_res m !! i = Some s /\
    serves c 0 (wl ++ map (shifted (start_of l)) l) c' sd bs /\
    warm_prefix (sp_nwarm P) (sp_sec P) l k /\
    st_warm s + st_req s = Z.of_nat (length wl + length l) /\
    st_warm s = Z.of_nat (length wl + k) /\
    st_req_byte s = bytes (drop k l) /\
    st_miss s = Z.of_nat (length (missed (drop k l) (drop (length wl + k) bs))) /\
    st_miss_byte s = bytes (missed (drop k l) (drop (length wl + k) bs)) /\
    st_size s = ac_size c /\
    0 <= st_miss s <= st_req s /\
    (Forall (fun q => 0 <= fget q F_SIZE) l -> 0 <= st_miss_byte s <= st_req_byte s).
Proof.
  intros Hne Hn63 Hnd Hl Hl' Hok E Em i c Hc.
  destruct (C28_with_multi_caches read clone P wl l ptrs heap cs cs' Hne Hn63 Hnd Hl Hl' Hok)
    as (results & K & H1 & H2 & H3).
  assert (Hi := lookup_lt_Some _ _ _ Hc).
  destruct (lookup_lt_is_Some_2 cs' i ltac:(lia)) as [c' Hc'].
  destruct (lookup_lt_is_Some_2 results i ltac:(lia)) as [s Hs].
  destruct (H3 seeds) as [B _]. destruct (B sched) as (m' & E' & B').
  rewrite E in E'. injection E' as <-. destruct (B' Em) as [-> _].
  destruct (H2 i c c' s Hc Hc' Hs)
    as (k & bs1 & bs2 & bs3 & c1 & sd1 & c2 & sd2 & sd3 & Hk & S1 & S2 & S3 &
        E1 & E2 & E3 & E4 & E5 & E6 & _).
  assert (Hkl := warm_prefix_le _ _ _ _ Hk).
  exists s, (bs1 ++ bs2 ++ bs3), c', sd3, k. split; [done|]. split.
  { eapply serves_trans; [exact S1|].
    rewrite <- (take_drop k l) at 2. rewrite map_app. eapply serves_trans; [exact S2|exact S3]. }
  assert (L1 := serves_length _ _ _ _ _ _ S1). assert (L2 := serves_length _ _ _ _ _ _ S2).
  rewrite map_length, take_length in L2.
  assert (Hd : drop (length wl + k) (bs1 ++ bs2 ++ bs3) = bs3).
  { rewrite app_assoc. apply drop_app_alt. rewrite app_length. lia. }
  rewrite Hd. split; [exact Hk|]. rewrite E1, E2, E3, E4, E5.
  assert (ML := missed_length (drop k l) bs3). rewrite drop_length in ML.
  split; [lia|]. do 5 (split; [done|]). split; [lia|].
  intros Hz. apply missed_bytes. by apply Forall_drop.
Qed.

(** ** bin/cachesim/sim.c

    The command line tool simulates a single cache with a loop of its own:
    requests up to [sec] seconds after the first are not counted. *)
Definition late (sec ts : Z) (lb : list (treq * bool)) : list (treq * bool) :=
  List.filter (fun x => bool_decide (sec < fget x.1 F_TIME - ts)) lb.
Definition misses (lb : list (treq * bool)) : list (treq * bool) :=
  List.filter (fun x => negb x.2) lb.

Lemma shifted_size ts q : fget (shifted ts q) F_SIZE = fget q F_SIZE.
Proof. unfold shifted, fget. rewrite lookup_insert_ne by done. done. Qed.
Lemma shifted_time ts q : fget (shifted ts q) F_TIME = fget q F_TIME - ts.
Proof. unfold shifted, fget. rewrite lookup_insert. done. Qed.

Lemma cli_loop_spec {R} (read : R -> treq -> res (R * treq * Z)) sec ts l :
  forall fuel rd c seed q qend c' sd bs k,
    cur read (shifted ts) rd q l qend ->
    serves c seed (map (shifted ts) l) c' sd bs -> (length l < fuel)%nat ->
    let lb := late sec ts (combine l bs) in
    cli_loop read fuel sec ts seed rd c q k = Ok (c',
      mkCli (cl_req k + Z.of_nat (length lb)) (cl_miss k + Z.of_nat (length (misses lb)))
            (cl_req_byte k + bytes (map fst lb)) (cl_miss_byte k + bytes (map fst (misses lb)))).
Proof.
  induction l as [|x l IH]; intros fuel rd c seed q qend c' sd bs k C S Hf;
    (destruct fuel as [|fuel]; [cbn in Hf; lia|]); cbn in C, S; cbn [cli_loop].
  - destruct C as [-> V]. inversion S; subst. rewrite valid_false by done. cbn.
    destruct k. cbn. unfold bytes. cbn. rewrite !Z.add_0_r. done.
  - destruct C as (-> & V & Y). rewrite valid_true by done.
    inversion S as [|? ? ? ? c1 sd1 b c2 sd2 bs' E S']; subst.
    destruct (yields_cur _ _ _ _ _ _ Y) as (rd' & q' & st & Er & C').
    change (sub_time ts x) with (shifted ts x). rewrite shifted_time, shifted_size.
    rewrite E. cbn [rbind]. rewrite Er. cbn [rbind combine late List.filter fst].
    cbn in Hf.
    destruct (decide (sec < fget x F_TIME - ts)) as [Hl|Hl].
    + rewrite bool_decide_eq_false_2 by lia.
      rewrite (IH fuel rd' c1 sd1 q' qend c' sd bs' _ C' S' ltac:(lia)).
      unfold late. cbn [List.filter fst]. rewrite bool_decide_eq_true_2 by done.
      cbn [cl_req cl_miss cl_req_byte cl_miss_byte map fst length].
      assert (EB : forall t, bytes (x :: t) = fget x F_SIZE + bytes t) by done.
      f_equal. f_equal. unfold misses. cbn [List.filter snd].
      destruct b; cbn [negb map fst length]; rewrite ?EB; f_equal; lia.
    + rewrite bool_decide_eq_true_2 by lia.
      rewrite (IH fuel rd' c1 sd1 q' qend c' sd bs' _ C' S' ltac:(lia)).
      unfold late. cbn [List.filter fst]. rewrite bool_decide_eq_false_2 by done. done.
Qed.

Theorem C27_cachesim {R} (read : R -> treq -> res (R * treq * Z)) rd c c' l qend sec seed sd bs fuel :
  yields read (shifted (start_of l)) rd new_request l qend ->
  serves c seed (map (shifted (start_of l)) l) c' sd bs -> (length l < fuel)%nat ->
  let counted := late sec (start_of l) (combine l bs) in
  cli_simulate read fuel sec seed rd c = Ok (c',
    mkCli (Z.of_nat (length counted)) (Z.of_nat (length (misses counted)))
          (bytes (map fst counted)) (bytes (map fst (misses counted)))).
Proof.
  intros Y S Hf counted. unfold cli_simulate.
  destruct (yields_cur _ _ _ _ _ _ Y) as (rd' & q & st & Er & C). rewrite Er. cbn [rbind].
  assert (Ets : l <> [] -> fget q F_TIME = start_of l).
  { destruct l as [|x l]; [done|]. intros _. cbn in C. destruct C as [-> _]. done. }
  destruct l as [|x l].
  - cbn in C. destruct C as [-> V]. inversion S; subst.
    destruct fuel as [|fuel]; [cbn in Hf; lia|]. cbn [cli_loop]. rewrite valid_false by done. done.
  - rewrite Ets by done.
    rewrite (cli_loop_spec read sec _ (x :: l) fuel rd' c seed q qend c' sd bs _ C S Hf). done.
Qed.

(** * C41: one cache or several on the command line

    cachesim uses the loop of sim.c for one cache and simulate_with_multi_caches
    for more.  With the default warm-up setting (no warm-up, warmup_sec = -1)
    and time stamps that do not run backward, both count the same requests and
    report the same numbers, for a cache that draws no random numbers. *)
Theorem C41_one_or_many_partial {R} (read : R -> treq -> res (R * treq * Z))
  rd l qend sec seed bs fuel c c' c'' s k :
  yields read (shifted (start_of l)) rd new_request l qend ->
  (forall sd1, exists sd2, serves c sd1 (map (shifted (start_of l)) l) c' sd2 bs) ->
  (length l < fuel)%nat ->
  sec < 0 -> Forall (fun q => start_of l <= fget q F_TIME) l ->
  cli_simulate read fuel sec seed rd c = Ok (c', k) ->
  sim_result [] l 0 sec c c'' s ->
  cl_req k = st_req s /\ cl_miss k = st_miss s /\ cl_req_byte k = st_req_byte s /\
  cl_miss_byte k = st_miss_byte s.
Proof.
  intros Y Sany Hf Hsec Ht Ek
    (k0 & bs1 & bs2 & bs3 & c1 & sd1 & c2 & sd2 & sd3 & Hk & S1 & S2 & S3 & E1 & E2 & E3 & E4 & E5 & _).
  assert (k0 = 0%nat) as ->.
  { destruct k0 as [|k0]; [done|]. destruct Hk as [Hk _].
    destruct (Hk 0%nat ltac:(lia)) as ([A|A] & _); lia. }
  inversion S1; subst. cbn in S2. inversion S2; subst. rewrite drop_0 in *.
  destruct (Sany 0) as [sd' S0]. destruct (Sany seed) as [sd S].
  assert (bs3 = bs) as ->.
  { destruct (serves_det _ _ _ _ _ _ S3 _ _ _ S0) as (_ & _ & ->). done. }
  assert (Eq := C27_cachesim read rd c2 c' l qend sec seed sd bs fuel Y S Hf). cbn zeta in Eq.
  rewrite Ek in Eq. injection Eq as ->. cbn [cl_req cl_miss cl_req_byte cl_miss_byte].
  assert (L := serves_length _ _ _ _ _ _ S). rewrite map_length in L.
  assert (Eall : forall ts l0 bs0, Forall (fun q => ts <= fget q F_TIME) l0 ->
     late sec ts (combine l0 bs0) = combine l0 bs0).
  { intros ts l0 bs0 H0. revert bs0. unfold late.
    induction H0 as [|x l0 Hx H0 IH]; intros [|b bs0]; cbn; try done.
    rewrite bool_decide_eq_true_2 by lia. f_equal. apply IH. }
  rewrite Eall by done. rewrite E2, E3, E4, E5.
  assert (Emis : forall l0 bs0, length bs0 = length l0 ->
     map fst (combine l0 bs0) = l0 /\ map fst (misses (combine l0 bs0)) = missed l0 bs0).
  { induction l0 as [|x l0 IH]; intros [|b bs0] H0; cbn in H0; try done.
    destruct (IH bs0 ltac:(lia)) as [A1 A2]. unfold misses in *. cbn. rewrite A1. split; [done|].
    destruct b; cbn; [exact A2|]. rewrite A2. done. }
  destruct (Emis l bs L) as [A1 A2].
  rewrite A1, A2, <- A2, map_length, combine_length. split_and!; try done. lia.
Qed.

(** * The hypotheses hold: binary traces and the caches of this development *)

Lemma valid_not_field t : F_VALID ∉ fields (table_of t).
Proof.
  destruct t; cbn [table_of fields map f_field]; try (cbn; set_solver).
  unfold bin_table, fields. rewrite !map_app, !elem_of_app.
  assert (G : forall fld idx conv, F_VALID <> fld ->
     F_VALID ∉ map f_field (bin_field p fld idx conv)).
  { intros fld idx conv Hne. unfold bin_field. destruct idx as [|k]; [set_solver|].
    destruct (b_fmt p !! k); cbn; set_solver. }
  intros [H|[H|[H|[H|H]]]]; revert H; apply G; discriminate.
Qed.

Lemma dec_table_valid t f o q q' :
  dec_table (table_of t) f o q = Ok q' -> fget q' F_VALID = fget q F_VALID.
Proof.
  rewrite dec_table_empty. destruct (dec_table (table_of t) f o ∅) as [w|] eqn:E; cbn; [|done].
  intros [= <-]. unfold fget. rewrite lookup_union_r; [done|].
  apply eq_None_not_Some. intros S. apply (dec_table_dom _ _ _ _ _ F_VALID E) in S.
  destruct S as [S|S]; [by apply valid_not_field in S|].
  rewrite lookup_empty in S. by destruct S.
Qed.

Lemma set_invalid_valid q : fget (set_invalid q) F_VALID = 0.
Proof. unfold set_invalid, fget. by rewrite lookup_insert. Qed.

Lemma item_read_valid fuel : forall rd q rd' q' st,
  item_read fuel rd q = Ok (rd', q', st) ->
  st = 0 /\ fget q' F_VALID = fget q F_VALID \/ st = 1 /\ fget q' F_VALID = 0.
Proof.
  induction fuel as [|fuel IH]; intros rd q rd' q' st; cbn [item_read]; [done|].
  destruct (at_eof rd).
  - intros [= _ <- <-]. right. split; [done|apply set_invalid_valid].
  - destruct (dec_table (table_of (rd_type rd)) (rd_file rd) (rd_off rd) q) as [q1|] eqn:E;
      cbn [rbind]; [|done].
    destruct (skip_rec _ q1) as [[]|]; cbn [rbind]; [|..|done].
    + intros H. destruct (IH _ _ _ _ _ H) as [[-> A]|A]; [left|right; done].
      rewrite A. split; [done|]. by eapply dec_table_valid.
    + intros [= _ <- <-]. left. split; [done|]. by eapply dec_table_valid.
Qed.

Lemma ign_size_valid rd q : fget (ign_size rd q) F_VALID = fget q F_VALID.
Proof. unfold ign_size, fget. destruct (rd_ignsz rd); [|done]. by rewrite lookup_insert_ne. Qed.

Lemma read_raw_valid rd q rd' q' st :
  read_raw rd q = Ok (rd', q', st) ->
  st = 0 /\ fget q' F_VALID = 1 \/ st = 1 /\ fget q' F_VALID = 0.
Proof.
  unfold read_raw. destruct (no_more rd).
  - intros [= _ <- <-]. right. split; [done|apply set_invalid_valid].
  - destruct (item_read _ _ (prologue q)) as [[[rd1 q1] st1]|] eqn:E; cbn [rbind]; [|done].
    intros [= _ <- <-]. rewrite ign_size_valid.
    destruct (item_read_valid _ _ _ _ _ _ E) as [[-> A]|[-> A]]; [left|right; done].
    split; [done|]. rewrite A. unfold prologue, fget. by rewrite lookup_insert.
Qed.

(** A binary reader delivers its visible requests (C29) even when the client
    changes clock_time between two reads, as the simulator does. *)
Lemma yields_todo h t n file start cap ign0 ignsz q0 touch :
  stored_type t = t -> trace_ok t start ign0 n file ->
  (forall q, agree t ignsz (touch q) q) ->
  forall k rd s q, length (todo t n file start cap ign0 ignsz q0 s) = k ->
  rel t n file start cap ign0 ignsz None rd s -> c_fwd s = true -> agree t ignsz q q0 ->
  exists qend, yields (read_one_req h) touch rd q (todo t n file start cap ign0 ignsz q0 s) qend.
Proof.
  intros Hst Hok Ht. induction k as [|k IH]; intros rd s q Hk HR Hfw Ha;
    assert (HS := read_raw_todo h t n file start cap ign0 ignsz None Hst Hok q0 rd s q HR Hfw Ha);
    (destruct (todo t n file start cap ign0 ignsz q0 s) as [|x l]; [|]); try done.
  - destruct HS as (rd' & s' & q' & E & _). exists q'. cbn. exists rd', 1.
    unfold read_one_req. rewrite (rl_samp _ _ _ _ _ _ _ _ _ _ HR). split; [exact E|].
    destruct (read_raw_valid _ _ _ _ _ E) as [[A _]|[_ A]]; done.
  - destruct HS as (rd' & s' & E & HR' & Hf' & Et & Ha').
    destruct (IH rd' s' (touch x)) as (qend & Y).
    + rewrite Et. cbn in Hk. lia.
    + exact HR'.
    + exact Hf'.
    + eapply agree_trans; [apply Ht|exact Ha'].
    + exists qend. cbn. exists rd', 0. unfold read_one_req at 1.
      rewrite (rl_samp _ _ _ _ _ _ _ _ _ _ HR). split; [exact E|]. split.
      * destruct (read_raw_valid _ _ _ _ _ E) as [[_ A]|[A _]]; [lia|done].
      * rewrite Et in Y. exact Y.
Qed.

(** The answers of a cache of this development, as the simulator sees it. *)
Lemma run_serves {S} (O : ops S) fuel rn rb s00 l : forall s seed s' os,
  run O fuel s (map (fun q => CGet (req_of q)) l) = Ok (s', os) ->
  exists bs, os = map OBool bs /\
    serves (ac_set (acache_of O fuel rn rb s00) s) seed l
           (ac_set (acache_of O fuel rn rb s00) s') seed bs.
Proof.
  induction l as [|q l IH]; intros s seed s' os; cbn [map run step].
  - intros [= <- <-]. exists []. split; [done|]. constructor.
  - destruct (cache_get_base O fuel s (req_of q)) as [[s1 b]|] eqn:E; cbn [rbind]; [|done].
    destruct (run O fuel s1 _) as [[s2 os2]|] eqn:E2; cbn [rbind]; [|done].
    intros [= <- <-]. destruct (IH _ seed _ _ E2) as (bs & -> & S2).
    exists (b :: bs). split; [done|]. econstructor; [|exact S2].
    unfold ac_get. cbn. rewrite E. done.
Qed.

(** The requests of a binary trace in the order in which the simulator serves
    them. *)
Definition trace_of (t : ttype) (ign0 ignsz : bool) (cap : Z) (n start : nat) (file : list Z)
  : list treq :=
  visible t ign0 ignsz cap new_request (chop (item_size t) n (drop start file)).

Definition gets_of (l : list treq) : list call :=
  map (fun q => CGet (req_of q)) (map (shifted (start_of l)) l).

Lemma binary_yields h t n file start cap ign0 ignsz :
  t <> T_IQQ -> trace_ok t start ign0 n file -> F_TIME ∈ fields (table_of t) ->
  let l := trace_of t ign0 ignsz cap n start file in
  exists qend,
    yields (read_one_req h) (shifted (start_of l))
           (clone_reader (setup_reader t file start cap ign0 ignsz None)) new_request l qend.
Proof.
  intros Hne Hok Hti l. assert (Hst : stored_type t = t) by (destruct t; done).
  assert (HR := rel_setup t n file start cap ign0 ignsz None Hst Hok).
  assert (Hc : clone_reader (setup_reader t file start cap ign0 ignsz None)
               = set_samp (setup_reader t file start cap ign0 ignsz None) None).
  { unfold clone_reader, setup_reader. cbn. rewrite !Hst. unfold set_samp. cbn. done. }
  rewrite Hc.
  destruct (yields_todo h t n file start cap ign0 ignsz new_request (shifted (start_of l)) Hst Hok)
    with (k := length (todo t n file start cap ign0 ignsz new_request (mkCur 0 0 true)))
         (rd := set_samp (setup_reader t file start cap ign0 ignsz None) None)
         (s := mkCur 0 0 true) (q := new_request) as (qend & Y); try done.
  - intros q. apply agree_insert. unfold wfields. set_solver.
  - rewrite todo_start in Y. exists qend. exact Y.
Qed.

(** So a binary trace file and a cache that serves every client program (C07)
    satisfy what C27 and C28 ask of a task. *)
Theorem C27_binary_task h t n file start cap ign0 ignsz nw sec free
  {S} (O : ops S) s0 Preq fuel rn rb :
  t <> T_IQQ -> trace_ok t start ign0 n file -> F_TIME ∈ fields (table_of t) ->
  let l := trace_of t ign0 ignsz cap n start file in
  spec_total O s0 Preq -> Forall (call_ok Preq) (gets_of l) -> (length l <= fuel)%nat ->
  exists s' bs,
    run O fuel s0 (gets_of l) = Ok (s', map OBool bs) /\
    (forall seed, serves (acache_of O fuel rn rb s0) seed (map (shifted (start_of l)) l)
                    (ac_set (acache_of O fuel rn rb s0) s') seed bs) /\
    task_ok (read_one_req h) clone_reader
      (mkSP (setup_reader t file start cap ign0 ignsz None) None nw sec free)
      [] l (acache_of O fuel rn rb s0) (ac_set (acache_of O fuel rn rb s0) s').
Proof.
  intros Hne Hok Hti l Htot Hreq Hf.
  destruct (binary_yields h t n file start cap ign0 ignsz Hne Hok Hti) as (qend & Y).
  fold l in Y. destruct (Htot (gets_of l) fuel Hreq) as (s' & os & E).
  { unfold gets_of. by rewrite !map_length. }
  assert (Hs : forall seed, exists bs, os = map OBool bs /\
     serves (acache_of O fuel rn rb s0) seed (map (shifted (start_of l)) l)
       (ac_set (acache_of O fuel rn rb s0) s') seed bs).
  { intros seed. exact (run_serves O fuel rn rb s0 _ s0 seed s' os E). }
  destruct (Hs 0) as (bs & -> & S0). exists s', bs. split; [exact E|]. split.
  - intros seed. destruct (Hs seed) as (bs' & Eb & S'). replace bs with bs'; [done|].
    clear -Eb. revert bs Eb. induction bs' as [|b bs' IH]; intros [|b0 bs0] Eb; try done.
    cbn in Eb. injection Eb as -> Eb. f_equal. by apply IH.
  - exists new_request, qend, 0, bs. split; [done|]. split; [exact Y|]. exact S0.
Qed.

(** * C39: the reported n_obj and occupied_byte

    simulator.c:121-122 copies the raw fields n_obj and occupied_byte of the cache.
    FIFO, LRU, Clock, Sieve and LFU keep the defaults for get_n_obj and
    get_occupied_byte (cache.h:274-287), which read the same fields; so for
    them the report is the number of objects and bytes held by the ledger that
    the trace's gets define (C02). *)
Definition spec_report {S} (O : ops S) (s0 : S) (cap md : Z) (adm : admissioner)
  (Preq : req -> Prop) (pol : policy) (raw_n raw_b : S -> Z) : Prop :=
  forall h t n file start cap0 ign0 ignsz nw sec fuel seeds sched m,
    t <> T_IQQ -> trace_ok t start ign0 n file -> F_TIME ∈ fields (table_of t) ->
    let l := trace_of t ign0 ignsz cap0 n start file in
    Forall (call_ok Preq) (gets_of l) -> (length l <= fuel)%nat ->
    grun (read_one_req h) clone_reader
      (mkSP (setup_reader t file start cap0 ign0 ignsz None) None nw sec false) Given
      (init_given [0%nat] {[0%nat := acache_of O fuel raw_n raw_b s0]} seeds) sched = Ok m ->
    m_main m = MDone ->
    exists s' os a st,
      run O fuel s0 (gets_of l) = Ok (s', os) /\
      m_res m = [st] /\
      st_nobj st = op_nobj O s' /\ st_occ st = op_occupied O s' /\
      abs_run pol cap md (abs_init adm) (gets_of l) os a /\
      st_nobj st = Z.of_nat (size (a_m a)) /\ st_occ st = msum md (a_m a).

Lemma report_default {S} (O : ops S) s0 cap md adm Preq pol :
  spec_total O s0 Preq -> spec_accounting O s0 cap md adm Preq pol ->
  spec_report O s0 cap md adm Preq pol (op_nobj O) (op_occupied O).
Proof.
  intros Htot Hacc h t n file start cap0 ign0 ignsz nw sec fuel seeds sched m Hne Hok Hti l Hreq Hf E Em.
  destruct (C27_binary_task h t n file start cap0 ign0 ignsz nw sec false O s0 Preq fuel
              (op_nobj O) (op_occupied O) Hne Hok Hti Htot Hreq Hf) as (s' & bs & Er & _ & Ht).
  fold l in Er, Ht.
  destruct (Hacc (gets_of l) fuel Hreq) as (s'' & os & a & Er' & Ha & H1 & H2 & _).
  { unfold gets_of. by rewrite !map_length. }
  rewrite Er in Er'. injection Er' as <- <-.
  set (P := mkSP _ _ _ _ _) in *. set (c := acache_of O fuel _ _ s0) in *.
  destruct (C28_with_multi_caches (read_one_req h) clone_reader P [] l [0%nat] {[0%nat := c]} [c]
              [ac_set c s']) as (results & K & L1 & L2 & L3); try done.
  { apply NoDup_singleton. }
  { intros [|i] p c1 c2; cbn; [|done]. intros [= <-] [= <-] [= <-].
    split; [apply lookup_singleton|exact Ht]. }
  destruct (L3 seeds) as [B _]. destruct (B sched) as (m' & E' & B').
  rewrite E in E'. injection E' as <-. destruct (B' Em) as [Hr _].
  destruct results as [|st [|? ?]]; try done.
  destruct (L2 0%nat c (ac_set c s') st eq_refl eq_refl eq_refl)
    as (k & b1 & b2 & b3 & c1 & sd1 & c2 & sd2 & sd3 & _ & _ & _ & _ & _ & _ & _ & _ & _ & _ & N1 & N2).
  cbn in N1, N2. exists s', (map OBool bs), a, st.
  split; [exact Er|]. split; [exact Hr|]. split; [exact N1|]. split; [exact N2|].
  split; [exact Ha|]. split; [by rewrite N1|by rewrite N2].
Qed.

Theorem C39_reported cap adm : 0 <= cap ->
  (* FIFO *) spec_report fifo_ops (fifo_init cap adm) cap 0 adm (req_ok 0) pol_fifo (op_nobj fifo_ops) (op_occupied fifo_ops) /\
  (* LRU *) (forall (b : bool), spec_report lru_ops (lru_init b cap adm) cap (if b then 16 else 0) adm (req_ok (if b then 16 else 0)) pol_lru (op_nobj lru_ops) (op_occupied lru_ops)) /\
  (* Clock *) (forall (mf : Z), 0 <= mf -> spec_report (clock_ops mf) (clock_init cap adm) cap 0 adm (req_ok 0) pol_any (op_nobj (clock_ops mf)) (op_occupied (clock_ops mf))) /\
  (* Sieve *) (forall (b : bool), spec_report sieve_ops (sieve_init b cap adm) cap (if b then 1 else 0) adm (req_ok (if b then 1 else 0)) pol_any (op_nobj sieve_ops) (op_occupied sieve_ops)) /\
  (* LFU *) (forall (b : bool), spec_report lfu_ops (lfu_init b cap adm) cap (if b then 16 else 0) adm (req_ok (if b then 16 else 0)) pol_lfu (op_nobj lfu_ops) (op_occupied lfu_ops)).
Proof.
  intros Hcap. destruct (C07_get_total cap adm Hcap) as (T1 & T2 & T3 & T4 & T5).
  destruct (C02_accounting cap adm Hcap) as (A1 & A2 & A3 & A4 & A5).
  split; [by apply report_default|]. split; [intros b; by apply report_default|].
  split; [intros mf Hmf; apply report_default; auto|].
  split; intros b; by apply report_default.
Qed.

(** * Concrete runs *)

Definition ex_trace : list Z :=
  enc_ogen 10 1 1 2 ++ enc_ogen 10 2 1 3 ++ enc_ogen 11 1 1 4 ++ enc_ogen 12 3 1 5 ++
  enc_ogen 13 2 1 (-1) ++ enc_ogen 14 1 1 (-1).

Definition ex_reader : reader := setup_reader T_OGEN ex_trace 0 (-1) true false None.
Definition ex_par (sec : Z) : sparams (R := reader) := mkSP ex_reader None 0 sec false.
Definition ex_fifo_cache (cap : Z) : acache :=
  acache_of fifo_ops 20 (op_nobj fifo_ops) (op_occupied fifo_ops) (fifo_init cap AdmNone).
Definition ex_lru_cache (cap : Z) : acache :=
  acache_of lru_ops 20 (op_nobj lru_ops) (op_occupied lru_ops) (lru_init false cap AdmNone).

(** requests, misses, objects and bytes of every result of a finished run *)
Definition ex_report (x : res (machine (R := reader))) : option (list (Z * Z * Z * Z)) :=
  match x with
  | Ok m => match m_main m with
            | MDone => Some (map (fun s => (st_req s, st_miss s, st_nobj s, st_occ s)) (m_res m))
            | _ => None
            end
  | Err _ => None
  end.

Definition ex_run (sec : Z) ptrs heap sched : option (list (Z * Z * Z * Z)) :=
  ex_report (grun (read_one_req id) clone_reader (ex_par sec) Given
               (init_given ptrs heap [7; 9]) sched).

Definition ex_sched1 := concat (replicate 90 [Main; Worker 0; Worker 1]).
Definition ex_sched2 := concat (replicate 20 [Main]) ++ concat (replicate 120 [Worker 1])
  ++ concat (replicate 120 [Worker 0]) ++ concat (replicate 20 [Main]).

(** The hypotheses of [C27_binary_task] and [C28_with_multi_caches]. *)
Example C28_ex_hyps :
  trace_ok T_OGEN 0 true 6 ex_trace /\ F_TIME ∈ fields (table_of T_OGEN) /\
  Forall (call_ok (req_ok 0)) (gets_of (trace_of T_OGEN true false (-1) 6 0 ex_trace)) /\
  length (trace_of T_OGEN true false (-1) 6 0 ex_trace) = 6%nat.
Proof.
  split; [tok|]. split; [cbn; set_solver|]. split; [|vm_compute; reflexivity].
  match goal with |- Forall _ ?l => let v := eval vm_compute in l in change l with v end.
  repeat (apply Forall_cons; split; [cbn; unfold req_ok; cbn; lia|]). constructor.
Qed.

(** Two schedules, two different caches, warm-up of 2 seconds. *)
Example C28_ex :
  ex_run 2 [0; 1]%nat {[0%nat := ex_fifo_cache 2; 1%nat := ex_lru_cache 3]} ex_sched1
    = Some [(3, 2, 2, 2); (3, 1, 3, 3)] /\
  ex_run 2 [0; 1]%nat {[0%nat := ex_fifo_cache 2; 1%nat := ex_lru_cache 3]} ex_sched2
    = Some [(3, 2, 2, 2); (3, 1, 3, 3)].
Proof. split; vm_compute; reflexivity. Qed.

(** Passing the same cache twice breaks the independence: the two tasks then
    share one cache object, and the results depend on the schedule. *)
Theorem C28_shared_cache_refuted :
  exists ptrs heap sched1 sched2 r1 r2,
    ex_run (-1) ptrs heap sched1 = Some r1 /\ ex_run (-1) ptrs heap sched2 = Some r2 /\
    r1 <> r2.
Proof.
  exists [0; 0]%nat, {[0%nat := ex_fifo_cache 2]}, ex_sched1, ex_sched2.
  eexists _, _. split; [vm_compute; reflexivity|]. split; [vm_compute; reflexivity|].
  discriminate.
Qed.

(** requests and misses printed by the single-cache loop *)
Definition ex_cli (sec : Z) : option (Z * Z) :=
  match cli_simulate (read_one_req id) 10 sec 7 (clone_reader ex_reader) (ex_fifo_cache 2) with
  | Ok (_, k) => Some (cl_req k, cl_miss k)
  | Err _ => None
  end.

(** With warmup_sec = 0 the two paths of cachesim count different requests on
    the same trace and cache: the single-cache loop leaves out the first second
    (its test is clock_time <= warmup_sec), the simulator leaves out nothing
    (it warms up only if warmup_sec > 0). *)
Theorem C41_warmup_zero_refuted :
  ex_cli 0 = Some (4, 2) /\
  ex_run 0 [0%nat] {[0%nat := ex_fifo_cache 2]} ex_sched1 = Some [(6, 4, 2, 2)].
Proof. split; vm_compute; reflexivity. Qed.

(** ... and so do they with a positive warm-up: requests exactly at the end of
    the warm-up are left out by one and counted by the other. *)
Theorem C41_warmup_refuted :
  ex_cli 2 = Some (2, 1) /\
  ex_run 2 [0%nat] {[0%nat := ex_fifo_cache 2]} ex_sched1 = Some [(3, 2, 2, 2)].
Proof. split; vm_compute; reflexivity. Qed.

(** Without warm-up they agree ([C41_one_or_many_partial]). *)
Example C41_ex :
  ex_cli (-1) = Some (6, 4) /\
  ex_run (-1) [0%nat] {[0%nat := ex_fifo_cache 2]} ex_sched1 = Some [(6, 4, 2, 2)].
Proof. split; vm_compute; reflexivity. Qed.

(** S3-FIFO and 2Q never write the raw n_obj and occupied_byte fields of their
    outer cache (they define their own get_n_obj and get_occupied_byte,
    S3FIFO.c:466-476, TwoQ.c:302-312), so the simulator reports 0 objects and 0
    bytes for a cache that holds several. *)
Definition ex_s3 : s3 := s3_init 20 5 9 2.
Definition ex_twoq : twoq := twoq_init false 20 5 2.

Definition ex_gets := gets_of (trace_of T_OGEN true false (-1) 6 0 ex_trace).

Theorem C39_s3fifo_refuted :
  exists s' os,
    run s3_ops 20 ex_s3 ex_gets = Ok (s', os) /\
    op_nobj s3_ops s' = 3 /\ op_occupied s3_ops s' = 3 /\
    ex_run (-1) [0%nat] {[0%nat := acache_of s3_ops 20 (fun _ => 0) (fun _ => 0) ex_s3]} ex_sched1
      = Some [(6, 3, 0, 0)].
Proof.
  eexists _, _. split; [vm_compute; reflexivity|]. split_and!; vm_compute; reflexivity.
Qed.

Theorem C39_twoq_refuted :
  exists s' os,
    run twoq_ops 20 ex_twoq ex_gets = Ok (s', os) /\
    op_nobj twoq_ops s' = 3 /\ op_occupied twoq_ops s' = 3 /\
    ex_run (-1) [0%nat] {[0%nat := acache_of twoq_ops 20 (fun _ => 0) (fun _ => 0) ex_twoq]} ex_sched1
      = Some [(6, 3, 0, 0)].
Proof.
  eexists _, _. split; [vm_compute; reflexivity|]. split_and!; vm_compute; reflexivity.
Qed.
