(** C38 and C42 for the ranked caches GDSF and LFUCpp. *)
From stdpp Require Import gmap list numbers fin_maps.
From Verif Require Import Base Driver Abs AbsFacts Sim ModelRank SpecRank RankFacts.
Open Scope Z_scope.

Definition rank_md (consider : bool) : Z := if consider then 8 else 0.

Lemma rank_md_nonneg b : 0 <= rank_md b.
Proof. destruct b; cbn; lia. Qed.

(** ** C42: what the two caches do *)

(** Every program of requests, non-updating lookups, removals and evictions
    runs on GDSF without a crash and does what the specification says, for
    every way to compute ranks; the counters are those of the ledger. *)
Theorem C42_gdsf_partial pri consider cap L0 adm cs fuel :
  0 <= cap -> (length cs <= fuel)%nat ->
  Forall (rcall (rank_md consider) true) cs ->
  exists s os g,
    run (gdsf_ops pri) fuel (rank_init consider cap L0 adm) cs = Ok (s, os) /\
    g_run pri cap (rank_md consider) (g_start L0 adm) cs os g /\
    c_occ (rk_c s) = msum (rank_md consider) (a_m (g_a g)) /\ c_occ (rk_c s) <= cap /\
    c_nobj (rk_c s) = Z.of_nat (size (a_m (g_a g))) /\
    rk_L s = g_L g /\
    forall id, is_Some (c_tbl (rk_c s) !! id) <-> is_Some (a_m (g_a g) !! id).
Proof.
  intros Hcap Hf Hc.
  destruct (rank_run pri rank_remove cap (rank_md consider) (rank_md_nonneg _) true (fun _ => eq_refl)
              fuel cs (rank_init consider cap L0 adm) (g_start L0 adm))
    as (s & os & g & Hr & Hg & H & Hok); auto.
  { apply abs_init_ok; [done|apply rank_md_nonneg]. }
  { by apply rank_init_ok. }
  exists s, os, g. pose proof (rr_b _ _ _ _ _ H) as Hb.
  assert (Ho : c_occ (rk_c s) = msum (rank_md consider) (a_m (g_a g))) by apply Hb.
  split_and!; auto.
  - rewrite Ho. apply Hok.
  - apply Hb.
  - apply H.
  - intros id. by eapply brel_is_Some.
Qed.

(** The same for LFUCpp without removals (C38_lfucpp_remove_refuted). *)
Theorem C42_lfucpp_partial consider cap L0 adm cs fuel :
  0 <= cap -> (length cs <= fuel)%nat ->
  Forall (rcall (rank_md consider) false) cs ->
  exists s os g,
    run lfucpp_ops fuel (rank_init consider cap L0 adm) cs = Ok (s, os) /\
    g_run (fun _ f _ => f) cap (rank_md consider) (g_start L0 adm) cs os g /\
    c_occ (rk_c s) = msum (rank_md consider) (a_m (g_a g)) /\ c_occ (rk_c s) <= cap /\
    c_nobj (rk_c s) = Z.of_nat (size (a_m (g_a g))) /\
    forall id, is_Some (c_tbl (rk_c s) !! id) <-> is_Some (a_m (g_a g) !! id).
Proof.
  intros Hcap Hf Hc.
  destruct (rank_run (fun _ f _ => f) lfucpp_remove cap (rank_md consider) (rank_md_nonneg _) false
              (fun H => ltac:(discriminate H))
              fuel cs (rank_init consider cap L0 adm) (g_start L0 adm))
    as (s & os & g & Hr & Hg & H & Hok); auto.
  { apply abs_init_ok; [done|apply rank_md_nonneg]. }
  { by apply rank_init_ok. }
  exists s, os, g. pose proof (rr_b _ _ _ _ _ H) as Hb.
  assert (Ho : c_occ (rk_c s) = msum (rank_md consider) (a_m (g_a g))) by apply Hb.
  split_and!; auto.
  - rewrite Ho. apply Hok.
  - apply Hb.
  - intros id. by eapply brel_is_Some.
Qed.

(** With the LFU rank, the rank of an object is its use count, so the victim of
    the specification is the least recently used of the least used objects. *)
Theorem C42_lfu_rank cap md L0 adm cs os g :
  g_run (fun _ f _ => f) cap md (g_start L0 adm) cs os g ->
  forall id, g_rk g !! id = e_cnt <$> a_m (g_a g) !! id.
Proof.
  assert (Hroom : forall n m rk L m' rk' L', g_room cap md n m rk L m' rk' L' ->
    (forall id, rk !! id = e_cnt <$> m !! id) -> forall id, rk' !! id = e_cnt <$> m' !! id).
  { induction 1 as [|m rk L v p m' rk' L' Hgt Hl Hr IH]; intros Hinv; [done|]. apply IH.
    intros id. destruct (decide (id = v)) as [->|Hne].
    - by rewrite !lookup_delete.
    - rewrite !lookup_delete_ne by done. auto. }
  assert (Hstep : forall g c o g', g_step (fun _ f _ => f) cap md g c o g' ->
    (forall id, g_rk g !! id = e_cnt <$> a_m (g_a g) !! id) ->
    forall id, g_rk g' !! id = e_cnt <$> a_m (g_a g') !! id).
  { intros g0 c o g' Hs Hinv id. destruct Hs; cbn in *; auto.
    - destruct (decide (id = r_id r)) as [->|Hne]; [by rewrite !lookup_insert|].
      rewrite !lookup_insert_ne by done. auto.
    - destruct (decide (id = r_id r)) as [->|Hne]; [by rewrite !lookup_insert|].
      rewrite !lookup_insert_ne by done. eauto.
    - destruct (decide (id = id0)) as [->|Hne]; [by rewrite !lookup_delete|].
      rewrite !lookup_delete_ne by done. auto.
    - destruct (decide (id = v)) as [->|Hne]; [by rewrite !lookup_delete|].
      rewrite !lookup_delete_ne by done. auto. }
  intros Hr. assert (Hi : forall id, g_rk (g_start L0 adm) !! id = e_cnt <$> a_m (g_a (g_start L0 adm)) !! id).
  { intros id. cbn. by rewrite !lookup_empty. }
  revert Hi. induction Hr; [done|]. intros. eauto.
Qed.

(** GreedyDual ageing: when a rank is never below the ageing level it was
    computed from (as for L + freq * 1e6 / size, rounding included), the level
    never decreases and no cached object is ranked below it. *)
Definition g_aged (g : gspec) : Prop :=
  (forall id, is_Some (g_rk g !! id) -> is_Some (a_m (g_a g) !! id)) /\
  (forall id p, g_rk g !! id = Some p -> g_L g <= p).

Lemma lowest_aged m rk v p : lowest m rk v p ->
  (forall id, is_Some (rk !! id) -> is_Some (m !! id)) ->
  forall id q, delete v rk !! id = Some q -> p <= q.
Proof.
  intros (e & He & Hv & Hmin) Hd id q [_ Hq]%lookup_delete_Some.
  destruct (Hd id) as [e' He']; [by eauto|].
  destruct (Hmin _ _ _ He' Hq); lia.
Qed.

Lemma room_aged cap md n m rk L m' rk' L' : g_room cap md n m rk L m' rk' L' ->
  (forall id, is_Some (rk !! id) -> is_Some (m !! id)) ->
  (forall id p, rk !! id = Some p -> L <= p) ->
  (forall id, is_Some (rk' !! id) -> is_Some (m' !! id)) /\
  L <= L' /\ forall id p, rk' !! id = Some p -> L' <= p.
Proof.
  induction 1 as [|m rk L v p m' rk' L' Hgt Hl Hr IH]; intros Hd Hinv; [split_and!; auto; lia|].
  destruct IH as (Hd' & HL & Hinv').
  - intros id [q [Hne Hq]%lookup_delete_Some]. rewrite lookup_delete_ne by done. eauto.
  - by eapply lowest_aged.
  - split_and!; auto. destruct Hl as (e & He & Hv & _). specialize (Hinv _ _ Hv). lia.
Qed.

Lemma step_aged pri cap md g c o g' :
  (forall L f sz, L <= pri L f sz) ->
  g_step pri cap md g c o g' -> g_aged g -> g_aged g' /\ g_L g <= g_L g'.
Proof.
  intros Hpri Hs [Hd Hinv]. unfold g_aged. destruct Hs; cbn in *.
  - split_and!; [| |lia].
    + intros id [q [[<- <-]|[Hne Hq]]%lookup_insert_Some].
      * rewrite lookup_insert; eauto.
      * rewrite lookup_insert_ne by done; eauto.
    + intros id q [[<- <-]|[Hne Hq]]%lookup_insert_Some; [apply Hpri|eauto].
  - split_and!; auto. lia.
  - split_and!; auto. lia.
  - match goal with H : g_room _ _ _ _ _ _ _ _ _ |- _ =>
      destruct (room_aged _ _ _ _ _ _ _ _ _ H Hd Hinv) as (Hd' & HL & Hinv') end.
    split_and!; [| |lia].
    + intros id [q [[<- <-]|[Hne Hq]]%lookup_insert_Some].
      * rewrite lookup_insert; eauto.
      * rewrite lookup_insert_ne by done; eauto.
    + intros id q [[<- <-]|[Hne Hq]]%lookup_insert_Some; [apply Hpri|eauto].
  - split_and!; auto. lia.
  - split_and!; [| |lia].
    + intros i [q [Hne Hq]%lookup_delete_Some]. rewrite lookup_delete_ne by done. eauto.
    + intros i q [Hne Hq]%lookup_delete_Some. eauto.
  - split_and!.
    + intros i [q [Hne Hq]%lookup_delete_Some]. rewrite lookup_delete_ne by done. eauto.
    + by eapply lowest_aged.
    + match goal with H : lowest _ _ _ _ |- _ => destruct H as (e & He & Hv & _) end. eauto.
  - split_and!; auto. lia.
Qed.

Lemma run_aged pri cap md g cs os g' :
  (forall L f sz, L <= pri L f sz) ->
  g_run pri cap md g cs os g' -> g_aged g -> g_aged g' /\ g_L g <= g_L g'.
Proof.
  intros Hpri. induction 1 as [|g c o g1 cs os g2 Hs Hr IH]; intros Ha; [split; [done|lia]|].
  destruct (step_aged _ _ _ _ _ _ _ Hpri Hs Ha) as [Ha1 H1].
  destruct (IH Ha1) as [Ha2 H2]. split; [done|lia].
Qed.

Theorem C42_ageing pri cap md L0 adm cs1 os1 g1 cs2 os2 g2 :
  (forall L f sz, L <= pri L f sz) ->
  g_run pri cap md (g_start L0 adm) cs1 os1 g1 ->
  g_run pri cap md g1 cs2 os2 g2 ->
  g_L g1 <= g_L g2 /\ forall id p, g_rk g2 !! id = Some p -> g_L g2 <= p.
Proof.
  intros Hpri H1 H2.
  assert (Ha : g_aged (g_start L0 adm)).
  { split; cbn; intros id; rewrite lookup_empty; [by intros []|done]. }
  destruct (run_aged _ _ _ _ _ _ _ Hpri H1 Ha) as [Ha1 _].
  destruct (run_aged _ _ _ _ _ _ _ Hpri H2 Ha1) as [[_ Ha2] HL]. auto.
Qed.

(** ** C38: removal *)

(** On GDSF, after any program as above, removing a cached object deletes it
    and nothing else, takes one object and its size plus metadata off the
    counters, and says so; removing anything else changes nothing. *)
Theorem C38_gdsf_remove_partial pri consider cap L0 adm cs fuel s os id :
  0 <= cap -> (length cs <= fuel)%nat ->
  Forall (rcall (rank_md consider) true) cs ->
  run (gdsf_ops pri) fuel (rank_init consider cap L0 adm) cs = Ok (s, os) ->
  match c_tbl (rk_c s) !! id with
  | None => op_remove (gdsf_ops pri) s id = Ok (s, false)
  | Some o =>
      exists s', op_remove (gdsf_ops pri) s id = Ok (s', true) /\
        c_tbl (rk_c s') = delete id (c_tbl (rk_c s)) /\
        c_occ (rk_c s') = c_occ (rk_c s) - (o_size o + rank_md consider) /\
        c_nobj (rk_c s') = c_nobj (rk_c s) - 1 /\
        0 <= c_occ (rk_c s') /\ 0 <= c_nobj (rk_c s')
  end.
Proof.
  intros Hcap Hf Hc Hrun.
  destruct (rank_run pri rank_remove cap (rank_md consider) (rank_md_nonneg _) true (fun _ => eq_refl)
              fuel cs (rank_init consider cap L0 adm) (g_start L0 adm))
    as (s1 & os1 & g & Hr & Hg & H & Hok); auto.
  { apply abs_init_ok; [done|apply rank_md_nonneg]. }
  { by apply rank_init_ok. }
  unfold gdsf_ops in Hrun. rewrite Hr in Hrun. injection Hrun as -> ->.
  destruct g as [[t m a] rk L]. cbn in Hok.
  pose proof (rr_b _ _ _ _ _ H) as Hb. cbn.
  destruct (c_tbl (rk_c s) !! id) as [o|] eqn:Eo.
  - destruct (brel_some_inv _ _ _ _ _ _ Hb Eo) as (e & He & Hor & _). cbn in He.
    destruct (rr_it _ _ _ _ _ H _ _ He) as (h & p & v & Hi & Hp).
    unfold rank_remove. rewrite Eo, Hi, Hp.
    destruct (brel_remove _ _ _ _ _ _ id e Hok Hb He) as (c' & -> & Hb' & Ht).
    cbn. eexists. split; [done|]. cbn. split_and!.
    + done.
    + rewrite (br_occ _ _ _ _ Hb'), (br_occ _ _ _ _ Hb). cbn.
      rewrite (msum_delete _ _ _ e) by done. lia.
    + rewrite (br_nobj _ _ _ _ Hb'), (br_nobj _ _ _ _ Hb). cbn.
      rewrite map_size_delete_Some by eauto.
      assert (size m <> 0%nat) by (intros Hz%map_size_empty_inv; subst m; done). lia.
    + rewrite (br_occ _ _ _ _ Hb'). apply (abs_ok_delete _ _ _ _ _ id) in Hok. apply Hok.
    + rewrite (br_nobj _ _ _ _ Hb'). lia.
  - unfold rank_remove. by rewrite Eo.
Qed.

(** On LFUCpp, in every such state removing a cached object touches it again
    after it has been freed. *)
Theorem C38_lfucpp_remove_refuted consider cap L0 adm cs fuel s os id :
  0 <= cap -> (length cs <= fuel)%nat ->
  Forall (rcall (rank_md consider) false) cs ->
  run lfucpp_ops fuel (rank_init consider cap L0 adm) cs = Ok (s, os) ->
  is_Some (c_tbl (rk_c s) !! id) ->
  op_remove lfucpp_ops s id = Err UseAfterFree.
Proof.
  intros Hcap Hf Hc Hrun [o Eo].
  destruct (rank_run (fun _ f _ => f) lfucpp_remove cap (rank_md consider) (rank_md_nonneg _) false
              (fun H => ltac:(discriminate H))
              fuel cs (rank_init consider cap L0 adm) (g_start L0 adm))
    as (s1 & os1 & g & Hr & Hg & H & Hok); auto.
  { apply abs_init_ok; [done|apply rank_md_nonneg]. }
  { by apply rank_init_ok. }
  unfold lfucpp_ops in Hrun. rewrite Hr in Hrun. injection Hrun as -> ->.
  destruct g as [[t m a] rk L]. cbn in Hok.
  pose proof (rr_b _ _ _ _ _ H) as Hb. cbn.
  destruct (brel_some_inv _ _ _ _ _ _ Hb Eo) as (e & He & Hor & _). cbn in He.
  destruct (rr_it _ _ _ _ _ H _ _ He) as (h & p & v & Hi & Hp).
  unfold lfucpp_remove, rank_remove. rewrite Eo, Hi, Hp.
  destruct (brel_remove _ _ _ _ _ _ id e Hok Hb He) as (c' & -> & Hb' & Ht). cbn.
  unfold cache_remove_obj_base. by rewrite Ht, lookup_delete.
Qed.

Definition rq (id sz : Z) : req := mkReq id sz 0 0 0.

(** The hypotheses of C38_lfucpp_remove_refuted are met. *)
Example C38_lfucpp_ex :
  (let! (s, _) := run lfucpp_ops 5 (rank_init true 100 0 AdmNone) [CGet (rq 1 10); CGet (rq 2 20)] in
   Ok (c_occ (rk_c s), c_nobj (rk_c s))) = Ok (46, 2).
Proof. vm_compute. reflexivity. Qed.

(** A GDSF rank for the examples: last + freq * 1e6 / size, truncated. *)
Definition gd (L f sz : Z) : Z := L + f * 1000000 / sz.

(** 1 is small, 2 large: 2 has the lower rank and goes first; the ageing level
    becomes its rank. *)
Example C42_gdsf_ex :
  (let! (s, os) := run (gdsf_ops gd) 9 (rank_init false 100 0 AdmNone)
      [CGet (rq 1 10); CGet (rq 2 80); CGet (rq 3 15); CRemove 1; CGet (rq 3 15)] in
   Ok (os, c_occ (rk_c s), map_to_list (o_p1 <$> c_tbl (rk_c s)), rk_L s)) =
  Ok ([OBool false; OBool false; OBool false; OBool true; OBool true], 15, [(3, 2)], 12500).
Proof. vm_compute. reflexivity. Qed.

Example C42_gdsf_ex_hyp :
  Forall (rcall (rank_md false) true)
    [CGet (rq 1 10); CGet (rq 2 80); CGet (rq 3 15); CRemove 1; CGet (rq 3 15)].
Proof. repeat (apply Forall_cons; split; [cbn; unfold req_ok; cbn; try lia; done|]). constructor. Qed.

(** ** What the class of programs leaves out *)

(** Updating lookups and direct insertions do not advance n_req.  Two objects
    of one rank then get one node in the set: the second is never evicted, and
    with the first gone the next eviction dereferences begin() of the empty
    set. *)
Theorem C42_update_refuted :
  (let! (s, _) := run lfucpp_ops 9 (rank_init false 100 0 AdmNone)
     [CGet (rq 1 10); CGet (rq 2 10); CFind (rq 1 10) true; CFind (rq 2 10) true; CEvict (rq 3 10)] in
   Ok (c_nobj (rk_c s), size (rk_pq s))) = Ok (1, 0%nat) /\
  run lfucpp_ops 9 (rank_init false 100 0 AdmNone)
    [CGet (rq 1 10); CGet (rq 2 10); CFind (rq 1 10) true; CFind (rq 2 10) true;
     CEvict (rq 3 10); CEvict (rq 3 10)] = Err NullDeref.
Proof. split; vm_compute; reflexivity. Qed.

Theorem C42_insert_refuted :
  run (gdsf_ops gd) 9 (rank_init false 100 0 AdmNone)
    [CInsert (rq 1 10); CInsert (rq 2 10); CRemove 1; CRemove 2] = Err UseAfterFree.
Proof. vm_compute. reflexivity. Qed.

(** to_evict is a null function pointer. *)
Theorem C42_to_evict_refuted pri rm s r :
  op_to_evict (rank_ops_with pri rm) s r = Err NullDeref.
Proof. reflexivity. Qed.
