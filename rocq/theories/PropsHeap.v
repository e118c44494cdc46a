(** C19 Belady, C20 Size, C21 the priority queue. *)
From stdpp Require Import gmap list numbers fin_maps.
From Verif Require Import Base Driver Abs AbsFacts Sim SpecApi ApiFacts ModelQueue ModelPQ PQFacts SimHeap
  SpecOpt BeladyOpt LRUStack SpecPQ PropsCore.
Open Scope Z_scope.

(** ** C21 *)
Lemma pq_size_ok q m : pq_ok q m -> pq_sz q = S (size m).
Proof.
  intros Hok. pose proof Hok as [Hwf Hh Hpri]. pose proof (wf_sz _ _ Hwf) as Hs.
  set (l := (fun i => default 0 (pq_d q !! i)) <$> seq 1 (pq_sz q - 1)).
  assert (Hl : forall x, x ∈ l <-> is_Some (m !! x)).
  { intros x. unfold l. rewrite elem_of_list_fmap. split.
    - intros (i & -> & Hi). apply elem_of_seq in Hi.
      destruct (wf_slot _ _ Hwf i) as (y & -> & _ & _ & Hy); [lia|]. done.
    - intros Hx. destruct (wf_node _ _ Hwf x Hx) as (i & Hi & Hd). exists i. rewrite Hd.
      split; [done|]. apply elem_of_seq. lia. }
  assert (Hnd : NoDup l).
  { unfold l. apply NoDup_fmap_2_strong; [|apply NoDup_seq]. intros i j Hi Hj Heq.
    apply elem_of_seq in Hi, Hj.
    destruct (wf_slot _ _ Hwf i) as (y & Hy & Hpy & _); [lia|].
    destruct (wf_slot _ _ Hwf j) as (z & Hz & Hpz & _); [lia|].
    rewrite Hy, Hz in Heq. cbn in Heq. subst z. rewrite Hpy in Hpz. by injection Hpz. }
  assert (Hsz : size m = length l).
  { rewrite <- (size_list_to_set (C := gset Z) l Hnd). rewrite <- (size_dom m). f_equal.
    apply set_eq. intros x. rewrite elem_of_list_to_set, Hl. apply elem_of_dom. }
  rewrite Hsz. unfold l. rewrite fmap_length, seq_length. lia.
Qed.

Lemma pq_ok_refines : forall q m, pq_ok q m -> pq_refines q m.
Proof.
  cofix CIH. intros q m Hok. constructor. intros c Hc. destruct c as [x p|x p|x| | |]; cbn [pq_exec pq_allowed] in *.
  - destruct (pq_insert_ok q m x p Hok Hc) as (q' & -> & Hok'). cbn [rbind].
    eexists _, _, _. split; [done|]. split; [constructor|]. by apply CIH.
  - destruct (pq_change_ok q m x p Hok Hc) as (q' & -> & Hok'). cbn [rbind].
    eexists _, _, _. split; [done|]. split; [constructor|]. by apply CIH.
  - destruct (pq_remove_ok q m x Hok Hc) as (q' & -> & Hok'). cbn [rbind].
    eexists _, _, _. split; [done|]. split; [constructor|]. by apply CIH.
  - destruct (decide (m = ∅)) as [->|Hne].
    + assert (pq_sz q = 1%nat) by (by apply (pq_size_empty q ∅ Hok)). unfold pq_pop. rewrite decide_True by done.
      cbn [rbind]. eexists _, _, _. split; [done|]. split; [constructor|]. by apply CIH.
    + destruct (pq_pop_ok q m Hok Hne) as (q' & x & p & _ & -> & Hx & Hmax & Hok'). cbn [rbind].
      eexists _, _, _. split; [done|]. split; [apply S_pop; exists p; by split|]. by apply CIH.
  - destruct (decide (m = ∅)) as [->|Hne].
    + assert (pq_sz q = 1%nat) by (by apply (pq_size_empty q ∅ Hok)). unfold pq_peek. rewrite decide_True by done.
      cbn [rbind]. eexists _, _, _. split; [done|]. split; [constructor|]. by apply CIH.
    + destruct (pq_pop_ok q m Hok Hne) as (q' & x & p & -> & _ & Hx & Hmax & Hok'). cbn [rbind].
      eexists _, _, _. split; [done|]. split; [apply S_peek; exists p; by split|]. by apply CIH.
  - eexists _, _, _. split; [done|]. rewrite (pq_size_ok q m Hok).
    replace (Z.of_nat (S (size m)) - 1) with (Z.of_nat (size m)) by lia.
    split; [constructor|]. by apply CIH.
Qed.

Theorem C21_pqueue : pq_refines pq_empty ∅.
Proof. apply pq_ok_refines, pq_empty_ok. Qed.

(** Five nodes, one raised, one lowered, one removed from the middle. *)
Example ex_pq :
  (let! (q, o) := pq_exec pq_empty (PInsert 1 10) in
   let! (q, o) := pq_exec q (PInsert 2 30) in
   let! (q, o) := pq_exec q (PInsert 3 20) in
   let! (q, o) := pq_exec q (PInsert 4 40) in
   let! (q, o) := pq_exec q (PInsert 5 25) in
   let! (q, o) := pq_exec q (PChange 1 50) in
   let! (q, o1) := pq_exec q PPeek in
   let! (q, o) := pq_exec q (PChange 4 5) in
   let! (q, o) := pq_exec q (PRemove 5) in
   let! (q, o2) := pq_exec q PPop in
   let! (q, o3) := pq_exec q PPop in
   let! (q, o4) := pq_exec q PPop in
   let! (q, o5) := pq_exec q PPop in
   let! (q, o6) := pq_exec q PPop in
   Ok [o1; o2; o3; o4; o5; o6]) =
  Ok [PNode (Some 1); PNode (Some 1); PNode (Some 2); PNode (Some 3); PNode (Some 4); PNode None].
Proof. vm_compute. reflexivity. Qed.

(** ** C19, C20: the whole API *)
Theorem C19_belady_api cap adm : 0 <= cap ->
  spec_api belady_ops (heap_init cap adm) cap 0 adm belady_req (pol_max_dbl e_next).
Proof. intros. eapply api_all; [exact (belady_sim cap)|exact (heap_init_rel e_next cap adm)|done|done]. Qed.

Theorem C20_size_api cap adm : 0 <= cap ->
  spec_api size_ops (heap_init cap adm) cap 0 adm (req_ok 0) (pol_max_dbl e_lsz).
Proof. intros. eapply api_all; [exact (size_sim cap)|exact (heap_init_rel e_lsz cap adm)|done|done]. Qed.

(** [spec_policy] restricted to calls whose annotations doubles represent. *)
Definition spec_policy_on {S} (O : ops S) (s0 : S) cap md adm (P : req -> Prop) (K : call -> Prop) (pol : policy) : Prop :=
  forall cs fuel, Forall (call_ok P) cs -> Forall K cs -> (length cs <= fuel)%nat ->
  exists s os a, run O fuel s0 cs = Ok (s, os) /\
    abs_run pol cap md (abs_init adm) cs os a /\
    (a_m a <> ∅ -> forall r, exists v s1 s2,
       op_to_evict O s r = Ok (s1, Some v) /\ op_evict O s r = Ok s2 /\
       is_Some (a_m a !! v) /\ pol (a_m a) v /\
       forall j, resident O s2 j <-> is_Some (a_m a !! j) /\ j <> v).

Lemma max_dbl_exact (ekey : entry -> Z) m v :
  (forall id e, m !! id = Some e -> exact53 (ekey e)) -> pol_max_dbl ekey m v ->
  forall e id e', m !! v = Some e -> m !! id = Some e' -> ekey e' <= ekey e.
Proof. intros Ha Hp e id e' He He'. apply dbl_le_exact; eauto. Qed.

Lemma spec_policy_exact {S} (O : ops S) s0 cap md adm P (key : req -> Z) (ekey : entry -> Z) (pol : policy) :
  (forall t r, ekey (fresh t r) = key r) -> (forall t r e, ekey (touch t r e) = key r) ->
  (forall m v, (forall e id e', m !! v = Some e -> m !! id = Some e' -> ekey e' <= ekey e) -> pol m v) ->
  spec_policy O s0 cap md adm P (pol_max_dbl ekey) ->
  spec_policy_on O s0 cap md adm P (call_key_ok exact53 key) pol.
Proof.
  intros Kf Kt Hpol HS cs fuel Hc Hk Hf. destruct (HS cs fuel Hc Hf) as (s & os & a & Hr & Ha & Hv).
  assert (Hw : forall m v, (forall id e, m !! id = Some e -> exact53 (ekey e)) -> pol_max_dbl ekey m v -> pol m v).
  { intros m v Hall Hp. apply Hpol. by apply max_dbl_exact. }
  destruct (abs_run_weaken _ pol cap md exact53 key ekey Kf Kt Hw (abs_init adm) cs os a) as [Ha' Hall]; auto.
  { intros id e. cbn. by rewrite lookup_empty. }
  exists s, os, a. split_and!; auto. intros Hne r.
  destruct (Hv Hne r) as (v & s1 & s2 & H1 & H2 & H3 & H4 & H5). exists v, s1, s2. split_and!; auto.
Qed.

(** When the annotations are below 2^53, or INT64_MAX for "never again", the
    victim is exactly the object whose next access is farthest. *)
Theorem C19_belady_farthest cap adm : 0 <= cap ->
  spec_policy_on belady_ops (heap_init cap adm) cap 0 adm belady_req (call_key_ok exact53 r_next) pol_belady.
Proof.
  intros Hcap. eapply (spec_policy_exact _ _ _ _ _ _ r_next e_next); [done|done|by unfold pol_belady|].
  apply C19_belady_api. done.
Qed.

(** Sizes fit a double whenever they are below 2^53. *)
Theorem C20_size_largest cap adm : 0 <= cap ->
  spec_policy_on size_ops (heap_init cap adm) cap 0 adm (req_ok 0) (call_key_ok exact53 r_size) pol_size.
Proof.
  intros Hcap. eapply (spec_policy_exact _ _ _ _ _ _ r_size e_lsz); [done|done|by unfold pol_size|].
  apply C20_size_api. done.
Qed.

(** Without the bound the victim need not be the farthest: 2^53 and 2^53 + 1
    are the same double. *)
Definition bel_req (id nx : Z) : req := mkReq id 1 0 nx 0.
Theorem C19_belady_large_refuted :
  exists s os r v s1, run belady_ops 2 (heap_init 2 AdmNone)
      [CGet (bel_req 1 (2 ^ 53)); CGet (bel_req 2 (2 ^ 53 + 1))] = Ok (s, os) /\
    Forall (call_ok belady_req) [CGet (bel_req 1 (2 ^ 53)); CGet (bel_req 2 (2 ^ 53 + 1))] /\
    op_to_evict belady_ops s r = Ok (s1, Some v) /\ v = 1.
Proof.
  eexists _, _, (ex_req 9), _, _. split; [vm_compute; reflexivity|].
  split; [|split; vm_compute; reflexivity].
  repeat (apply Forall_cons; split; [cbn; unfold belady_req, req_ok; cbn; lia|]). constructor.
Qed.

(** The abort on annotation -1. *)
Theorem C19_belady_annotation_refuted :
  cache_get_base belady_ops 1 (heap_init 2 AdmNone) (bel_req 1 (-1)) = Err AssertFail /\ req_ok 0 (bel_req 1 (-1)).
Proof. split; [vm_compute; reflexivity|]. unfold req_ok; cbn; lia. Qed.

(** ** C19: optimality *)
Theorem C19_belady_optimal cap sz rs fuel s os n :
  0 < sz <= cap -> (length rs <= fuel)%nat ->
  Forall (fun r => r_size r = sz /\ belady_req r) rs -> annotated 0 rs ->
  Forall (fun r => exact53 (r_next r)) rs ->
  run belady_ops fuel (heap_init cap AdmNone) (map CGet rs) = Ok (s, os) ->
  strategy (Z.to_nat (cap / sz)) ∅ (map r_id rs) n ->
  (misses os <= n)%nat.
Proof.
  intros Hsz Hf Hrs Han Hex Hr Hst.
  destruct (C19_belady_farthest cap AdmNone ltac:(lia) (map CGet rs) fuel) as (s' & os' & a & Hr' & Ha & _).
  - apply Forall_map. eapply Forall_impl; [exact Hrs|]. by intros r [_ ?].
  - apply Forall_map. done.
  - by rewrite map_length.
  - rewrite Hr in Hr'. injection Hr' as <- <-.
    assert (Hb : farthest (Z.to_nat (cap / sz)) (dom (∅ : gmap Z entry)) (map r_id rs) (misses os)).
    { eapply (abs_run_farthest cap sz ltac:(lia) ltac:(lia) rs 0 (abs_init AdmNone)); [| |done| | | |exact Ha].
      - apply abs_init_ok; lia.
      - intros id e. cbn. by rewrite lookup_empty.
      - eapply Forall_impl; [exact Hrs|]. intros r [? [? ?]]. by split.
      - done.
      - intros id e. cbn. by rewrite lookup_empty. }
    rewrite dom_empty_L in Hb.
    pose proof (farthest_optimal _ _ ∅ ∅ 0 _ _ Hb Hst) as Hopt.
    rewrite !size_empty in Hopt. specialize (Hopt ltac:(lia) ltac:(lia)).
    assert (misses os <= n + 0)%nat; [|lia]. apply Hopt. intros u. lia.
Qed.

(** In particular no cache of this library that follows an abstract policy
    misses less often: LRU and FIFO instances of the comparison. *)
Lemma policy_is_strategy {S} (O : ops S) s0 cap sz (P : req -> Prop) pol rs fuel s os :
  0 < sz <= cap -> (length rs <= fuel)%nat ->
  (forall r, P r -> req_ok 0 r) ->
  Forall (fun r => r_size r = sz /\ P r) rs ->
  spec_policy O s0 cap 0 AdmNone P pol ->
  run O fuel s0 (map CGet rs) = Ok (s, os) ->
  strategy (Z.to_nat (cap / sz)) ∅ (map r_id rs) (misses os).
Proof.
  intros Hsz Hf HP Hrs HS Hr.
  destruct (HS (map CGet rs) fuel) as (s' & os' & a & Hr' & Ha & _).
  - apply Forall_map. eapply Forall_impl; [exact Hrs|]. by intros r [_ ?].
  - by rewrite map_length.
  - rewrite Hr in Hr'. injection Hr' as <- <-. rewrite <- (dom_empty_L (M := gmap Z) (A := entry)).
    eapply (abs_run_strategy cap sz ltac:(lia) ltac:(lia) pol rs (abs_init AdmNone)); [| |done| |exact Ha].
    + apply abs_init_ok; lia.
    + intros id e. cbn. by rewrite lookup_empty.
    + eapply Forall_impl; [exact Hrs|]. intros r [? ?]. split; auto.
Qed.

Theorem C19_belady_beats_lru cap sz rs fuel s1 os1 s2 os2 :
  0 < sz <= cap -> (length rs <= fuel)%nat ->
  Forall (fun r => r_size r = sz /\ belady_req r) rs -> annotated 0 rs ->
  Forall (fun r => exact53 (r_next r)) rs ->
  run belady_ops fuel (heap_init cap AdmNone) (map CGet rs) = Ok (s1, os1) ->
  run lru_ops fuel (lru_init false cap AdmNone) (map CGet rs) = Ok (s2, os2) ->
  (misses os1 <= misses os2)%nat.
Proof.
  intros Hsz Hf Hrs Han Hex Hr1 Hr2.
  eapply (C19_belady_optimal cap sz rs fuel s1 os1); [done|done|done|done|done|exact Hr1|].
  eapply (policy_is_strategy lru_ops (lru_init false cap AdmNone) cap sz (req_ok 0) pol_lru rs fuel s2 os2); [done|done|done| | |exact Hr2].
  - eapply Forall_impl; [exact Hrs|]. intros r (? & ? & _). by split.
  - apply (C09_lru_order cap AdmNone false ltac:(lia)).
Qed.

(** A trace on which Belady misses 4 times and LRU 6 times. *)
Definition inf : Z := 2 ^ 63 - 1.
Definition ex_bel : list req :=
  [bel_req 1 3; bel_req 2 4; bel_req 3 6; bel_req 1 inf; bel_req 2 5; bel_req 2 inf; bel_req 3 inf].
Example ex_bel_annotated : annotated 0 ex_bel.
Proof.
  unfold ex_bel. intros i r Hi.
  destruct i as [|[|[|[|[|[|[|i]]]]]]]; [injection Hi as <-..|discriminate Hi].
  3: { left. exists 6%nat. eexists. split; [lia|]. split; [reflexivity|]. split_and!; [done|done|].
    intros l r'' Hl Hlr. destruct l as [|[|[|[|[|[|l]]]]]]; try lia; by injection Hlr as <-. }
  1: { left. exists 3%nat. eexists. split; [lia|]. split; [reflexivity|]. split_and!; [done|done|].
    intros l r'' Hl Hlr. destruct l as [|[|[|l]]]; try lia; by injection Hlr as <-. }
  1: { left. exists 4%nat. eexists. split; [lia|]. split; [reflexivity|]. split_and!; [done|done|].
    intros l r'' Hl Hlr. destruct l as [|[|[|[|l]]]]; try lia; by injection Hlr as <-. }
  2: { left. exists 5%nat. eexists. split; [lia|]. split; [reflexivity|]. split_and!; [done|done|].
    intros l r'' Hl Hlr. lia. }
  all: right; split; [|cbn; unfold inf; lia]; intros l r'' Hl Hlr;
    destruct l as [|[|[|[|[|[|[|l]]]]]]]; try lia; try (by injection Hlr as <-); discriminate Hlr.
Qed.
Example ex_bel_run :
  (let! (s, os) := run belady_ops 7 (heap_init 2 AdmNone) (map CGet ex_bel) in Ok (misses os)) = Ok 4%nat /\
  (let! (s, os) := run lru_ops 7 (lru_init false 2 AdmNone) (map CGet ex_bel) in Ok (misses os)) = Ok 6%nat /\
  Forall (fun r => r_size r = 1 /\ belady_req r) ex_bel /\ Forall (fun r => exact53 (r_next r)) ex_bel.
Proof.
  split_and!; [vm_compute; reflexivity..| |].
  - repeat (apply Forall_cons; split; [unfold belady_req, req_ok; cbn; unfold inf; lia|]). constructor.
  - repeat (apply Forall_cons; split; [unfold exact53; cbn; unfold inf; lia|]). constructor.
Qed.
