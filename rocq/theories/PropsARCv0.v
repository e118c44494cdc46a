(** C63: ARCv0, ARC built from four LRU caches. *)
From stdpp Require Import gmap list numbers fin_maps.
From Coq Require Import QArith.
From Verif Require Import Base Driver SpecApi ModelQueue QList CompFacts ModelARC SpecARC ARCFacts PropsARC
  ModelARCv0 SpecARCv0 ARCv0Facts ARCv0Equiv.
Open Scope Z_scope.

(** LRU.c:66-70: what a queue charges per object; ARCv0.c:108-113: what the
    cache asks room for. *)
Definition lru_md (consider : bool) : Z := if consider then 16 else 0.

(** The bytes charged for the objects of an LRU cache, read from its table. *)
Definition q_bytes (q : qstate) : Z := charged (q_c q) (q_q q).

Lemma qok_bytes sz md q l : qok sz md q l -> q_bytes q = bytes md l.
Proof.
  intros HQ. unfold q_bytes. rewrite (qok_q _ _ _ _ HQ).
  assert (H : forall l', (forall x, x ∈ l' -> x ∈ l) -> charged (q_c q) (ids l') = bytes md l').
  { induction l' as [|[i o] l' IH]; intros Hs; [done|].
    unfold charged in *. change (ids ((i, o) :: l')) with (i :: ids l'). cbn [foldr].
    rewrite (proj2 (qok_lookup _ _ _ _ HQ i o)) by (apply Hs; left).
    rewrite IH by (intros x ?; apply Hs; by right). rewrite (qok_md _ _ _ _ HQ), bytes_cons. done. }
  by apply H.
Qed.

Lemma disj4_nodup sz md q1 q2 q3 q4 l1 l2 l3 l4 :
  qok sz md q1 l1 -> qok sz md q2 l2 -> qok sz md q3 l3 -> qok sz md q4 l4 ->
  disj l1 l2 -> disj l1 l3 -> disj l1 l4 -> disj l2 l3 -> disj l2 l4 -> disj l3 l4 ->
  NoDup (ids l1 ++ ids l2 ++ ids l3 ++ ids l4).
Proof.
  intros Q1 Q2 Q3 Q4 D12 D13 D14 D23 D24 D34.
  apply NoDup_app. split; [apply Q1|]. split.
  { intros x H1 [H|[H|H]%elem_of_app]%elem_of_app; [by apply (D12 x)|by apply (D13 x)|by apply (D14 x)]. }
  apply NoDup_app. split; [apply Q2|]. split.
  { intros x H1 [H|H]%elem_of_app; [by apply (D23 x)|by apply (D24 x)]. }
  apply NoDup_app. split; [apply Q3|]. split; [|apply Q4]. intros x H1 H2. by apply (D34 x).
Qed.

(** ** The invariant *)

(** For every program of calls that [ARC0_call] allows, with any admission
    policy, any rounding of the double p and either metadata setting: no
    crash; T1 and T2 together stay within the cache size, so does each ghost
    list; the occupied bytes and the object count are those of T1 and T2; the
    target is between 0 and the cache size; no object is listed twice; a
    lookup finds exactly the objects of T1 and T2.
    Missing: the calls that [ARC0_call] excludes, refuted below. *)
Theorem C63_invariant_partial rnd consider cap adm size_of cs fuel :
  rounding rnd -> 0 <= cap -> (length cs <= fuel)%nat ->
  Forall (ARC0_call cap (lru_md consider) (arc_md consider) size_of) cs ->
  exists s os,
    run (arc0_ops rnd) fuel (arc0_init consider cap adm) cs = Ok (s, os) /\
    op_occupied (arc0_ops rnd) s = q_bytes (z_t1 s) + q_bytes (z_t2 s) /\
    op_occupied (arc0_ops rnd) s <= cap /\ q_bytes (z_b1 s) <= cap /\ q_bytes (z_b2 s) <= cap /\
    op_nobj (arc0_ops rnd) s = Z.of_nat (length (q_q (z_t1 s) ++ q_q (z_t2 s))) /\
    (0 <= z_p s)%Q /\ (z_p s <= rnd (inject_Z cap))%Q /\
    NoDup (q_q (z_t1 s) ++ q_q (z_b1 s) ++ q_q (z_t2 s) ++ q_q (z_b2 s)) /\
    (forall r, op_find (arc0_ops rnd) s r false = Ok (s, bool_decide (r_id r ∈ q_q (z_t1 s) ++ q_q (z_t2 s)))).
Proof.
  intros [Hm Hz Hi] Hcap Hf Hcs.
  pose proof (zok_init rnd cap consider size_of adm Hz Hm Hcap) as H0.
  destruct (zrun_ok rnd cap (lru_md consider) (arc_md consider) size_of Hm Hz Hi Hcap
              ltac:(destruct consider; cbn; lia) ltac:(destruct consider; cbn; lia) cs _ _ _ _ _ fuel H0 Hcs)
    as (s & os & t1 & b1 & t2 & b2 & Hr & H); [cbn; lia|].
  exists s, os. split; [exact Hr|].
  pose proof H as [Q1 Q2 Q3 Q4 Hsz Hcm D12 D13 D14 D23 D24 D34 Hocc C1 C2 g1 g2 g3 g4 Hp].
  rewrite (qok_bytes _ _ _ _ Q1), (qok_bytes _ _ _ _ Q2), (qok_bytes _ _ _ _ Q3), (qok_bytes _ _ _ _ Q4).
  rewrite (qok_q _ _ _ _ Q1), (qok_q _ _ _ _ Q2), (qok_q _ _ _ _ Q3), (qok_q _ _ _ _ Q4).
  assert (Ho : op_occupied (arc0_ops rnd) s = bytes (lru_md consider) t1 + bytes (lru_md consider) t2).
  { cbn [op_occupied arc0_ops]. by rewrite (q_occ_ok _ _ _ _ Q1), (q_occ_ok _ _ _ _ Q3). }
  split_and!; try done; try lia; try apply Hp.
  - rewrite (zlen_nobj _ _ _ _ _ _ _ _ _ _ H), app_length. unfold ids. by rewrite !fmap_length.
  - by eapply disj4_nodup.
  - intros r. cbn [op_find arc0_ops]. rewrite (zfind_false _ _ _ _ _ _ _ _ _ _ _ H). do 2 f_equal.
    apply bool_decide_ext. by rewrite elem_of_app.
Qed.

(** ** The machine *)

(** On every trace in which an id keeps its size and every object charges at
    least one byte and fits, without admission policy, the code is the machine
    of SpecARCv0.v: the same hits, the same four lists, the same target. *)
Theorem C63_machine_partial rnd consider cap size_of rs fuel :
  rounding rnd -> 0 <= cap -> (length rs <= fuel)%nat ->
  Forall (fun r => req_ok (lru_md consider) r /\ 0 < r_size r + lru_md consider /\
                   r_size r + arc_md consider <= cap /\ r_size r = size_of (r_id r)) rs ->
  exists s hits a,
    run (arc0_ops rnd) fuel (arc0_init consider cap AdmNone) (map CGet rs) = Ok (s, map OBool hits) /\
    REQUESTS0 rnd cap (lru_md consider) (arc_md consider) ARC_start rs hits a /\
    q_q (z_t1 s) = (T1 a).*1 /\ q_q (z_b1 s) = (B1 a).*1 /\ q_q (z_t2 s) = (T2 a).*1 /\ q_q (z_b2 s) = (B2 a).*1 /\
    z_p s = p a /\ op_occupied (arc0_ops rnd) s = wt (T1 a) + wt (T2 a).
Proof.
  intros [Hm Hz Hi] Hcap Hf Hrs.
  pose proof (zok_init rnd cap consider size_of AdmNone Hz Hm Hcap) as H0.
  destruct (zgets_ok rnd cap (lru_md consider) (arc_md consider) size_of Hm Hz Hi Hcap
              ltac:(destruct consider; cbn; lia) ltac:(destruct consider; cbn; lia) rs _ _ _ _ _ fuel H0)
    as (s & bs & t1 & b1 & t2 & b2 & Hr & H & HR); [done|exact Hrs|cbn; lia|].
  exists s, bs, (absA (lru_md consider) t1 b1 t2 b2 (z_p s)). split; [exact Hr|]. split; [exact HR|].
  pose proof H as [Q1 Q2 Q3 Q4 _ _ _ _ _ _ _ _ _ _ _ _ _ _ _ _].
  cbn [absA T1 B1 T2 B2 p op_occupied arc0_ops].
  rewrite !chg_ids, !chg_wt, (q_occ_ok _ _ _ _ Q1), (q_occ_ok _ _ _ _ Q3).
  split_and!; try done; by eapply qok_q.
Qed.

(** ** ARCv0 is ARC *)

(** With one object size that divides the cache size, the two implementations
    of ARC in the repository agree on every trace: the same answer to every
    request, and the same four lists and target afterwards. *)
Theorem C63_same_as_arc_partial rnd w k rs fuel :
  rounding rnd -> 0 < w < 2 ^ 32 -> 0 < k -> (length rs <= fuel)%nat -> Forall (fun r => r_size r = w) rs ->
  exists s s0 hits,
    run (arc_ops rnd) fuel (arc_init false (k * w) AdmNone) (map CGet rs) = Ok (s, map OBool hits) /\
    run (arc0_ops rnd) fuel (arc0_init false (k * w) AdmNone) (map CGet rs) = Ok (s0, map OBool hits) /\
    q_q (z_t1 s0) = ar_t1 s /\ q_q (z_b1 s0) = ar_b1 s /\ q_q (z_t2 s0) = ar_t2 s /\ q_q (z_b2 s0) = ar_b2 s /\
    z_p s0 = ar_p s.
Proof.
  intros HR Hw Hk Hf Hrs. assert (Hcap : w <= k * w) by nia.
  destruct (C63_machine_partial rnd false (k * w) (fun _ => w) rs fuel HR ltac:(lia) Hf)
    as (s0 & hits & a & Hr0 & Hq0 & E1 & E2 & E3 & E4 & Ep & _).
  { eapply Forall_impl; [exact Hrs|]. intros r Er. cbn beta in Er. unfold req_ok, lru_md, arc_md. rewrite Er. lia. }
  destruct (C18_machine_partial rnd false (k * w) rs fuel HR ltac:(lia) Hf)
    as (s & hits' & a' & Hr & _ & F1 & F2 & F3 & F4 & Fp & _ & _ & Hu).
  { eapply Forall_impl; [exact Hrs|]. intros r Er. cbn beta in Er. unfold req_ok, arc_md. rewrite Er. lia. }
  destruct (REQUESTS_same rnd (k * w) w k ltac:(lia) eq_refl Hk rs ARC_start hits a) as [HQ _]; [|done|exact Hq0|].
  { split; cbn; try done; try lia; try apply Forall_nil_2. }
  destruct (Hu hits a HQ) as [-> ->].
  exists s, s0, hits'. split_and!; congruence.
Qed.

(** ** What to_evict announces *)

Lemma replace_queues rnd s r s' : arc0_replace rnd s r = Ok s' ->
  if z_over rnd s || bool_decide (q_occ (z_t2 s) = 0)
  then q_q (z_t1 s') = removelast (q_q (z_t1 s)) /\ z_t2 s' = z_t2 s
  else q_q (z_t2 s') = removelast (q_q (z_t2 s)) /\ z_t1 s' = z_t1 s.
Proof.
  unfold arc0_replace, q_to_evict_tail, q_evict_tail. destruct (_ || _); cbn [rbind]; intros H.
  - destruct (deref (z_t1 s) (last (q_q (z_t1 s)))) as [[v o]|]; cbn [rbind] in H; [|done].
    destruct (ModelTwoQ.sub_get _ _ _) as [[b1 ?]|]; cbn [rbind] in H; [|done].
    destruct (last (q_q (z_t1 s))); cbn [rbind] in H; [|done].
    destruct (cache_evict_base _ _); cbn [rbind] in H; [|done]. by injection H as <-.
  - destruct (deref (z_t2 s) (last (q_q (z_t2 s)))) as [[v o]|]; cbn [rbind] in H; [|done].
    destruct (last (q_q (z_t2 s))); cbn [rbind] in H; [|done].
    destruct (cache_evict_base _ _); cbn [rbind] in H; [|done].
    destruct (ModelTwoQ.sub_get _ _ _) as [[b2 ?]|]; cbn [rbind] in H; [|done]. by injection H as <-.
Qed.

Lemma removelast_elem (q : list Z) x id : NoDup q -> last q = Some x -> id ∈ removelast q <-> id ∈ q /\ id <> x.
Proof.
  intros Hnd (l & ->)%last_Some. rewrite removelast_snoc, elem_of_app, elem_of_list_singleton.
  apply NoDup_app in Hnd as (_ & Hd & _). split.
  - intros H. split; [by left|]. intros ->. by apply (Hd x H), elem_of_list_singleton.
  - intros [[?| ->] ?]; done.
Qed.

(** In every state such a program reaches, for every request that needs at
    least one byte and fits: if to_evict names an object, evict takes that
    object out of the cache, and no other.
    Missing: to_evict can name nobody; refuted below. *)
Theorem C63_announce_partial rnd consider cap adm size_of cs fuel s os r x :
  rounding rnd -> 0 <= cap -> (length cs <= fuel)%nat ->
  Forall (ARC0_call cap (lru_md consider) (arc_md consider) size_of) cs -> 0 < r_size r + arc_md consider <= cap ->
  run (arc0_ops rnd) fuel (arc0_init consider cap adm) cs = Ok (s, os) ->
  0 < op_nobj (arc0_ops rnd) s ->
  arc0_to_evict rnd s r = Ok (s, Some x) ->
  exists s', arc0_evict rnd s r = Ok s' /\ x ∈ q_q (z_t1 s) ++ q_q (z_t2 s) /\
    forall id, id ∈ q_q (z_t1 s') ++ q_q (z_t2 s') <-> id ∈ q_q (z_t1 s) ++ q_q (z_t2 s) /\ id <> x.
Proof.
  intros [Hm Hz Hi] Hcap Hf Hcs Hr Hrun Hn Hv.
  pose proof (zok_init rnd cap consider size_of adm Hz Hm Hcap) as H0.
  destruct (zrun_ok rnd cap (lru_md consider) (arc_md consider) size_of Hm Hz Hi Hcap
              ltac:(destruct consider; cbn; lia) ltac:(destruct consider; cbn; lia) cs _ _ _ _ _ fuel H0 Hcs)
    as (s0 & os0 & t1 & b1 & t2 & b2 & Hr0 & H); [cbn; lia|].
  rewrite Hrun in Hr0. injection Hr0 as <- <-.
  rewrite (zlen_nobj _ _ _ _ _ _ _ _ _ _ H) in Hn.
  assert (Hne : t1 <> [] \/ t2 <> []) by (destruct t1, t2; auto; cbn in Hn; lia).
  destruct (zevict_ok rnd cap (lru_md consider) (arc_md consider) size_of ltac:(destruct consider; cbn; lia)
              s t1 b1 t2 b2 r H Hne Hr) as (s' & t1' & b1' & t2' & b2' & He & _ & _).
  exists s'. split; [exact He|].
  pose proof H as [Q1 Q2 Q3 Q4 Hsz Hcm D12 D13 D14 D23 D24 D34 Hocc C1 C2 g1 g2 g3 g4 Hp].
  assert (N1 : NoDup (q_q (z_t1 s))) by (rewrite (qok_q _ _ _ _ Q1); apply Q1).
  assert (N3 : NoDup (q_q (z_t2 s))) by (rewrite (qok_q _ _ _ _ Q3); apply Q3).
  assert (HD : forall id, id ∈ q_q (z_t1 s) -> id ∈ q_q (z_t2 s) -> False).
  { rewrite (qok_q _ _ _ _ Q1), (qok_q _ _ _ _ Q3). exact D13. }
  assert (HT1 : last (q_q (z_t1 s)) = Some x -> q_q (z_t1 s') = removelast (q_q (z_t1 s)) -> z_t2 s' = z_t2 s ->
    x ∈ q_q (z_t1 s) ++ q_q (z_t2 s) /\
    forall id, id ∈ q_q (z_t1 s') ++ q_q (z_t2 s') <-> id ∈ q_q (z_t1 s) ++ q_q (z_t2 s) /\ id <> x).
  { intros Hl E1 E2. assert (Hx : x ∈ q_q (z_t1 s)).
    { apply last_Some in Hl as (l & ->). apply elem_of_app. right. left. }
    split; [apply elem_of_app; by left|]. intros id. rewrite E1, E2, !elem_of_app, (removelast_elem _ _ _ N1 Hl).
    destruct (decide (id = x)) as [->|]; [|tauto]. specialize (HD x Hx). tauto. }
  assert (HT2 : last (q_q (z_t2 s)) = Some x -> q_q (z_t2 s') = removelast (q_q (z_t2 s)) -> z_t1 s' = z_t1 s ->
    x ∈ q_q (z_t1 s) ++ q_q (z_t2 s) /\
    forall id, id ∈ q_q (z_t1 s') ++ q_q (z_t2 s') <-> id ∈ q_q (z_t1 s) ++ q_q (z_t2 s) /\ id <> x).
  { intros Hl E1 E2. assert (Hx : x ∈ q_q (z_t2 s)).
    { apply last_Some in Hl as (l & ->). apply elem_of_app. right. left. }
    split; [apply elem_of_app; by right|]. intros id. rewrite E1, E2, !elem_of_app, (removelast_elem _ _ _ N3 Hl).
    destruct (decide (id = x)) as [->|]; [|tauto]. pose proof (fun y => HD x y Hx). tauto. }
  assert (HRep : forall s2, z_t1 s2 = z_t1 s -> z_t2 s2 = z_t2 s -> z_p s2 = z_p s -> z_f2 s2 = z_f2 s ->
    arc0_replace rnd s2 r = Ok s' -> arc0_to_replace rnd s r = Ok (s, Some x) ->
    x ∈ q_q (z_t1 s) ++ q_q (z_t2 s) /\
    forall id, id ∈ q_q (z_t1 s') ++ q_q (z_t2 s') <-> id ∈ q_q (z_t1 s) ++ q_q (z_t2 s) /\ id <> x).
  { intros s2 X1 X2 X3 X4 HR HT. apply replace_queues in HR.
    assert (Eo : z_over rnd s2 = z_over rnd s) by (unfold z_over; by rewrite X1, X3, X4).
    rewrite Eo, X1, X2 in HR. unfold arc0_to_replace, q_to_evict_tail in HT. cbn [rbind] in HT.
    destruct (z_over rnd s); cbn [orb] in HR.
    - injection HT as _ HT. destruct HR. by apply HT1.
    - injection HT as _ HT. destruct (bool_decide (q_occ (z_t2 s) = 0)) eqn:E.
      + exfalso. apply bool_decide_eq_true in E. rewrite (q_occ_ok _ _ _ _ Q3) in E.
        apply (allG_pos _ _ _ g3) in E. subst t2. rewrite (qok_q _ _ _ _ Q3) in HT. done.
      + destruct HR. by apply HT2. }
  unfold arc0_to_evict, arc0_to_evict_miss in Hv. unfold arc0_evict, arc0_evict_miss in He.
  destruct (z_in_ghost s).
  - by apply (HRep s).
  - destruct (z_full s r).
    + destruct (decide _).
      * destruct (q_evict_tail (z_b1 s) r) as [q|]; cbn [rbind] in He; [|done]. by apply (HRep (z_set_b1 s q)).
      * unfold q_to_evict_tail in Hv. cbn [rbind] in Hv. injection Hv as _ Hv. unfold q_evict_tail in He. rewrite Hv in He.
        destruct (cache_evict_base _ _); cbn [rbind] in He; [|done]. injection He as <-. by apply HT1.
    + destruct (ModelSLRU.while_ _ _ _ _) as [q|]; cbn [rbind] in He; [|done]. by apply (HRep (z_set_b2 s q)).
Qed.

(** ** Where it fails *)

Local Notation exact := (fun q : Q => q).
Definition go0 (cap : Z) (cs : list call) : res (arc0 * list obs) :=
  run (arc0_ops exact) 20 (arc0_init false cap AdmNone) cs.
Definition st0 (r : res (arc0 * list obs)) : arc0 :=
  match r with Ok (s, _) => s | Err _ => arc0_init false 0 AdmNone end.
Definition g1 (id : Z) : call := CGet (rq id 1).
Ltac vmr := vm_compute; reflexivity.
Ltac calls := repeat (apply Forall_cons; split; [cbn; unfold req_ok; cbn; lia|]); apply Forall_nil_2.

(** to_evict names nobody although the cache holds an object and evict takes
    it: _ARCv0_to_replace lacks the test for an empty T2. *)
Definition ann_calls : list call := [g1 1; g1 1; g1 2; g1 3; g1 4; g1 2; CRemove 1; CRemove 2].
Theorem C63_announce_refuted :
  exists s os s', Forall (ARC0_call 3 0 0 (fun _ => 1)) ann_calls /\ go0 3 ann_calls = Ok (s, os) /\
    op_nobj (arc0_ops exact) s = 1 /\ arc0_to_evict exact s (rq 9 1) = Ok (s, None) /\
    arc0_evict exact s (rq 9 1) = Ok s' /\ q_q (z_t1 s) = [4] /\ q_q (z_t1 s') = [].
Proof.
  exists (st0 (go0 3 ann_calls)),
    [OBool false; OBool true; OBool false; OBool false; OBool false; OBool false; OBool true; OBool true],
    (st0 (go0 3 (ann_calls ++ [CEvict (rq 9 1)]))).
  split; [calls|]. do 5 (split; [vmr|]). vmr.
Qed.

(** A hit on an object that has grown leaves more bytes in the cache than it
    can hold: the object moves to T2, which only looks at its own bytes. *)
Definition grow_calls : list call := [CGet (rq 1 9); CGet (rq 2 1); CGet (rq 2 10)].
Theorem C63_grow_refuted :
  exists s, go0 10 grow_calls = Ok (s, [OBool false; OBool false; OBool true]) /\ op_occupied (arc0_ops exact) s = 19.
Proof. exists (st0 (go0 10 grow_calls)). split; vmr. Qed.

(** A hit with a size larger than the cache loses the object. *)
Definition lose_calls : list call := [g1 1; g1 2; CGet (rq 1 3); CFind (rq 1 1) false].
Theorem C63_hit_lost_refuted :
  exists s, go0 2 lose_calls = Ok (s, [OBool false; OBool false; OBool true; OBool false]) /\
    1 ∉ q_q (z_t1 s) ++ q_q (z_b1 s) ++ q_q (z_t2 s) ++ q_q (z_b2 s).
Proof.
  exists (st0 (go0 2 lose_calls)). split; [vmr|].
  vm_compute. intros H. repeat (apply elem_of_cons in H as [H|H]; [discriminate|]). by apply elem_of_nil in H.
Qed.

(** An insert of an object that is a ghost leaves it a ghost as well. *)
Definition dup_calls : list call := [g1 1; g1 1; g1 2; g1 3; CRemove 3; CInsert (rq 2 1)].
Theorem C63_insert_ghost_refuted :
  exists s os, go0 2 dup_calls = Ok (s, os) /\ q_q (z_t1 s) = [2] /\ q_q (z_b1 s) = [2].
Proof.
  exists (st0 (go0 2 dup_calls)), [OBool false; OBool true; OBool false; OBool false; OBool true; OUnit].
  do 2 (split; [vmr|]). vmr.
Qed.

(** After a remove, T1 and B1 together outgrow the cache size. *)
Definition over_calls : list call := [g1 1; g1 1; g1 2; g1 3; CRemove 1; CRemove 3; g1 5; g1 6].
Theorem C63_remove_refuted :
  exists s os, Forall (ARC0_call 2 0 0 (fun _ => 1)) over_calls /\ go0 2 over_calls = Ok (s, os) /\
    q_bytes (z_t1 s) + q_bytes (z_b1 s) = 3.
Proof.
  exists (st0 (go0 2 over_calls)),
    [OBool false; OBool true; OBool false; OBool false; OBool true; OBool true; OBool false; OBool false].
  split; [calls|]. split; vmr.
Qed.

(** evict for a request larger than the cache, or with a cached object of no
    bytes, dereferences a null pointer. *)
Theorem C63_evict_big_refuted : go0 2 [g1 1; g1 1; CEvict (rq 5 10)] = Err NullDeref.
Proof. vmr. Qed.
Theorem C63_evict_zero_refuted :
  go0 2 [CGet (rq 1 0); CGet (rq 1 0); CEvict (rq 9 1)] = Err NullDeref.
Proof. vmr. Qed.

(** When the size does not divide the cache size, the two implementations
    disagree: objects of two bytes in a cache of five. *)
Definition odd_trace : list req :=
  map (fun id => rq id 2) [2; 6; 6; 1; 1; 2; 5; 4; 5; 6; 4].
Definition odd_hits : list bool := [false; false; true; false; true; false; false; false; false; false].
Theorem C63_same_as_arc_refuted :
  exists s s0, run (arc_ops exact) 20 (arc_init false 5 AdmNone) (map CGet odd_trace) = Ok (s, map OBool (odd_hits ++ [false])) /\
    run (arc0_ops exact) 20 (arc0_init false 5 AdmNone) (map CGet odd_trace) = Ok (s0, map OBool (odd_hits ++ [true])).
Proof.
  exists (match run (arc_ops exact) 20 (arc_init false 5 AdmNone) (map CGet odd_trace) with
          | Ok (s, _) => s | Err _ => arc_init false 5 AdmNone end), (st0 (go0 5 (map CGet odd_trace))).
  split; vmr.
Qed.

(** ** Examples *)
Definition view0 (x : res (arc0 * list obs)) :=
  match x with
  | Ok (s, os) => Some (q_q (z_t1 s), q_q (z_b1 s), q_q (z_t2 s), q_q (z_b2 s), Qred (z_p s), os)
  | Err _ => None
  end.
(** the trace of C18_trace_ex *)
Example C63_trace_ex :
  view0 (go0 2 (map CGet arc_trace)) =
    Some ([], [], [3; 1], [2], 1%Q,
      [OBool false; OBool true; OBool false; OBool false; OBool false; OBool false; OBool false]).
Proof. vmr. Qed.
Example C63_trace_ok :
  Forall (fun r => r_size r = 1) arc_trace /\ 2 = 2 * 1 /\
  Forall (fun r => req_ok (lru_md false) r /\ 0 < r_size r + lru_md false /\
                   r_size r + arc_md false <= 2 /\ r_size r = 1) arc_trace.
Proof. split_and!; [|done|]; repeat (apply Forall_cons; split; [cbn; unfold req_ok; cbn; lia|]); apply Forall_nil_2. Qed.
(** with metadata an object of 4 bytes charges 20 and needs 44 *)
Example C63_metadata_ex :
  view0 (run (arc0_ops exact) 20 (arc0_init true 100 AdmNone)
    [CGet (rq 1 4); CGet (rq 1 4); CGet (rq 2 4); CGet (rq 3 4); CGet (rq 4 4); CToEvict (rq 9 4)]) =
    Some ([4; 3], [2], [1], [], 0%Q,
      [OBool false; OBool true; OBool false; OBool false; OBool false; OVictim (Some 3)]).
Proof. vmr. Qed.
Example C63_call_ok :
  Forall (ARC0_call 100 16 40 (fun _ => 4))
    [CGet (rq 1 4); CFind (rq 1 4) true; CRemove 2; CEvict (rq 3 4); CToEvict (rq 9 4)].
Proof. calls. Qed.
