(** C24, C25, C26, C40: splay tree, reuse distances and the LRU profiler. *)
From stdpp Require Import gmap list numbers sorting.
From Verif Require Import Base Driver Sim ModelQueue SpecApi ApiFacts ModelSplay SplayFacts ModelDist SpecDist DistFacts
  SpecLRUStack LRUStack PropsLRU.
Open Scope Z_scope.

(** * C40 *)
Inductive tree_op := TInsert (k : Z) | TDelete (k : Z) | TSplay (k : Z).
Definition tree_step (o : tree_op) (t : tree) : res tree :=
  match o with TInsert k => sp_insert k t | TDelete k => sp_delete k t | TSplay k => splay k t end.
Fixpoint tree_run (os : list tree_op) (t : tree) : res tree :=
  match os with [] => Ok t | o :: os => let! t := tree_step o t in tree_run os t end.
Definition set_step (s : gset Z) (o : tree_op) : gset Z :=
  match o with TInsert k => s ∪ {[k]} | TDelete k => s ∖ {[k]} | TSplay _ => s end.

Lemma tree_run_spec os : forall t (s : gset Z), good t -> (forall k, k ∈ keys t <-> k ∈ s) ->
  exists t', tree_run os t = Ok t' /\ good t' /\ (forall k, k ∈ keys t' <-> k ∈ fold_left set_step os s).
Proof.
  induction os as [|o os IH]; intros t s Hg Hk; [by exists t|].
  cbn [tree_run fold_left].
  destruct o as [k|k|k]; cbn [tree_step set_step].
  - destruct (sp_insert_spec k t Hg) as (t' & -> & Hg' & Hk'). cbn [rbind]. apply IH; [done|]. set_solver.
  - destruct (sp_delete_spec k t Hg) as (t' & -> & Hg' & Hk'). cbn [rbind]. apply IH; [done|]. set_solver.
  - destruct (splay_spec k t Hg) as (t' & -> & Hg' & Hk' & _). cbn [rbind]. apply IH; [done|]. by rewrite Hk'.
Qed.

(** After any sequence of insert, splay_delete and splay from the empty tree,
    no call fails, the tree is a search tree holding exactly the inserted and
    not deleted keys, every value field is its subtree's node count, and
    splaying at a key that is present brings it to the root with the number of
    larger keys as the right child's count. *)
Theorem C40_splay (os : list tree_op) :
  exists t, tree_run os Leaf = Ok t /\
    StronglySorted Z.lt (keys t) /\ sized t /\
    (forall k, k ∈ keys t <-> k ∈ fold_left set_step os ∅) /\
    nv t = Z.of_nat (size (fold_left set_step os ∅)) /\
    forall k, k ∈ fold_left set_step os ∅ -> exists l v r, splay k t = Ok (Node l k v r) /\
      nv r = Z.of_nat (size (filter (fun x => k < x) (fold_left set_step os ∅))) /\
      nv l = Z.of_nat (size (filter (fun x => x < k) (fold_left set_step os ∅))).
Proof.
  destruct (tree_run_spec os Leaf ∅) as (t & Ht & Hg & Hk).
  { split; [constructor|done]. } { intros k. cbn. rewrite elem_of_nil. set_solver. }
  exists t. split; [done|]. pose proof Hg as [Ho Hs]. split_and!; [done|done|done| |].
  - rewrite (nv_sized t Hs). f_equal.
    assert (Hp : keys t ≡ₚ elements (fold_left set_step os ∅)).
    { apply NoDup_Permutation; [by apply sorted_NoDup|apply NoDup_elements|]. intros k. by rewrite elem_of_elements. }
    by rewrite Hp.
  - intros k Hin. destruct (splay_spec k t Hg) as (t' & Ht' & [Ho' Hs'] & Hk' & Hr).
    apply Hk in Hin. destruct t' as [|l k' v r].
    { rewrite <- Hk' in Hin. by apply elem_of_nil in Hin. }
    destruct (splay_right k t l k' v r Hg Hin Ht') as [-> _]. exists l, v, r. split; [done|].
    unfold ordered in Ho'. cbn [keys] in Ho'. apply sorted_node in Ho' as (Hol & Hor & Hb & Ha).
    destruct Hs' as (_ & Hsl & Hsr). rewrite (nv_sized l Hsl), (nv_sized r Hsr).
    assert (Hmem : forall x, x ∈ fold_left set_step os ∅ <-> x ∈ keys l \/ x = k \/ x ∈ keys r).
    { intros x. rewrite <- Hk, <- Hk'. cbn [keys]. by rewrite elem_of_app, elem_of_cons. }
    split; f_equal.
    + assert (Hp : keys r ≡ₚ elements (filter (fun x => k < x) (fold_left set_step os ∅))); [|by rewrite Hp].
      apply NoDup_Permutation; [by apply sorted_NoDup|apply NoDup_elements|]. intros x.
      rewrite elem_of_elements, elem_of_filter, Hmem. split.
      * intros Hx. split; [by apply Ha|tauto].
      * intros [Hx [Hx'|[->|Hx']]]; [|lia|done]. specialize (Hb x Hx'). lia.
    + assert (Hp : keys l ≡ₚ elements (filter (fun x => x < k) (fold_left set_step os ∅))); [|by rewrite Hp].
      apply NoDup_Permutation; [by apply sorted_NoDup|apply NoDup_elements|]. intros x.
      rewrite elem_of_elements, elem_of_filter, Hmem. split.
      * intros Hx. split; [by apply Hb|tauto].
      * intros [Hx [Hx'|[->|Hx']]]; [done|lia|]. specialize (Ha x Hx'). lia.
Qed.
Example C40_ex : exists t, tree_run [TInsert 5; TInsert 2; TInsert 9; TInsert 7; TDelete 2; TSplay 5] Leaf = Ok t /\
  keys t = [5; 7; 9] /\ splay 5 t = Ok (Node Leaf 5 3 (Node Leaf 7 2 (Node Leaf 9 1 Leaf))).
Proof. eexists. split; [reflexivity|]. split; reflexivity. Qed.

(** * C24 *)
Lemma i32_id z : - 2 ^ 31 <= z < 2 ^ 31 -> i32 z = z.
Proof. intros H. unfold i32. rewrite Z.mod_small by lia. lia. Qed.

Lemma size_lts_le (l : list Z) : (size (list_to_set l : gset Z) <= length l)%nat.
Proof.
  induction l as [|x l IH]; cbn [list_to_set length]; [by rewrite size_empty|].
  rewrite size_union_alt, size_singleton.
  assert (size ((list_to_set l : gset Z) ∖ {[x]}) <= size (list_to_set l : gset Z))%nat by (apply subseteq_size; set_solver).
  lia.
Qed.
Lemma distinct_between_le ids p i : (distinct_between ids p i <= length ids)%nat.
Proof.
  unfold distinct_between. etransitivity; [apply size_lts_le|]. rewrite take_length, drop_length. lia.
Qed.

Lemma at_cases ids i : (i < length ids)%nat -> first_at ids i \/ exists p, prev_at ids i p.
Proof.
  intros Hi. destruct (lookup_lt_is_Some_2 ids i Hi) as [x Hx].
  destruct (decide (x ∈ take i ids)) as [Hin|Hout].
  - right. apply elem_of_list_lookup in Hin as (j & Hj). apply lookup_take_Some in Hj as [Hj Hlt].
    destruct (last_in_ex ids i ltac:(lia) x j Hlt Hj) as (p & Hp & _). exists p. by apply (prev_at_last_in _ _ x).
  - left. exists x. split; [done|]. intros j Hj Hjx. apply Hout. apply elem_of_list_lookup. exists j.
    by apply lookup_take_Some.
Qed.
Lemma prev_at_fun ids i p q : prev_at ids i p -> prev_at ids i q -> p = q.
Proof.
  intros Hp Hq. assert (Hx : exists x, ids !! i = Some x) by (destruct Hp as (_ & x & ? & _); eauto).
  destruct Hx as [x Hx]. apply (prev_at_last_in _ _ x) in Hp, Hq; [|done|done]. by eapply last_in_fun.
Qed.
Lemma prev_at_inj ids i j p : prev_at ids i p -> prev_at ids j p -> i = j.
Proof.
  intros (Hp & x & Hx & Hpx & Hi) (Hq & y & Hy & Hpy & Hj). rewrite Hpx in Hpy. injection Hpy as <-.
  destruct (lt_eq_lt_dec i j) as [[?| ->]|?]; [|done|].
  - exfalso. by apply (Hj i); [lia|].
  - exfalso. by apply (Hi j); [lia|].
Qed.
Lemma first_not_prev ids i p : first_at ids i -> ~ prev_at ids i p.
Proof. intros (x & Hx & Hj) (Hp & y & Hy & Hpy & _). rewrite Hx in Hy. injection Hy as <-. by apply (Hj p). Qed.

Lemma sd_result_range ids n d last : (n < length ids)%nat -> sd_result ids n d last ->
  -1 <= d <= Z.of_nat (length ids) /\
  ((d = -1 /\ last = -1) \/ exists p, prev_at ids n p /\ p <> 0%nat /\ last = Z.of_nat p /\ d = Z.of_nat (distinct_between ids p n)).
Proof.
  intros Hn (H1 & H2 & H3). destruct (at_cases ids n Hn) as [Hf|(p & Hp)].
  - destruct (H1 Hf) as [-> ->]. split; [lia|]. by left.
  - destruct (decide (p = 0%nat)) as [->|Hp0].
    + destruct (H2 Hp) as [-> ->]. split; [lia|]. by left.
    + destruct (H3 p Hp Hp0) as [-> ->]. pose proof (distinct_between_le ids p n). split; [lia|]. right. eauto.
Qed.

Definition cell_ok (ids : list Z) (i : nat) (a : list (option Z)) : Prop :=
  exists d last, a !! i = Some (Some d) /\ sd_result ids i d last.

Lemma arr_write_ok a n v : (n < length a)%nat -> - 2 ^ 31 <= v < 2 ^ 31 ->
  arr_write a (Z.of_nat n) v = Ok (<[n := Some v]> a).
Proof.
  intros Hn Hv. unfold arr_write. rewrite decide_True by lia. rewrite Nat2Z.id, i32_id by done. done.
Qed.

Lemma stack_loop_spec ids : Z.of_nat (length ids) < 2 ^ 31 -> forall k n st a,
  (n + k = length ids)%nat -> dinv ids n st -> length a = length ids ->
  (forall i, (i < n)%nat -> cell_ok ids i a) ->
  exists a', stack_loop STACK_DIST (drop n ids) (Z.of_nat n) st a = Ok a' /\ length a' = length ids /\
    forall i, (i < length ids)%nat -> cell_ok ids i a'.
Proof.
  intros Hlen. induction k as [|k IH]; intros n st a Hn Hinv Hla Hcells.
  - exists a. rewrite drop_ge by lia. split; [done|]. split; [done|]. intros i Hi. apply Hcells. lia.
  - destruct (lookup_lt_is_Some_2 ids n ltac:(lia)) as [x Hx].
    rewrite (drop_S ids x n Hx). cbn [stack_loop].
    destruct (stack_add_spec ids n x st ltac:(lia) Hinv Hx) as (d & last & st' & -> & Hinv' & Hres). cbn [rbind].
    destruct (sd_result_range ids n d last ltac:(lia) Hres) as [Hd _].
    rewrite decide_False by lia. rewrite arr_write_ok by lia. cbn [rbind].
    replace (Z.of_nat n + 1) with (Z.of_nat (S n)) by lia. apply IH; [lia|done|by rewrite insert_length|].
    intros i Hi. destruct (decide (i = n)) as [->|Hne].
    + exists d, last. split; [|done]. apply list_lookup_insert. lia.
    + destruct (Hcells i ltac:(lia)) as (d' & l' & Hd' & Hr'). exists d', l'.
      split; [|done]. by rewrite list_lookup_insert_ne.
Qed.

(** Full statement: for every trace, [get_stack_dist(reader, STACK_DIST)] yields,
    for each request, the number of different ids requested since the previous
    request for the same id, and -1 for a first request.  Missing below: the
    request that follows the trace's very first request for the same id
    (previous position 0); it is reported as a first request, see
    [C24_stack_distance_refuted]. *)
Theorem C24_stack_distance_partial (ids : list Z) : Z.of_nat (length ids) < 2 ^ 31 ->
  exists a, get_stack_dist STACK_DIST ids = Ok a /\ length a = length ids /\
    forall i, (first_at ids i -> a !! i = Some (Some (-1))) /\
      (prev_at ids i 0 -> a !! i = Some (Some (-1))) /\
      (forall p, prev_at ids i p -> p <> 0%nat -> a !! i = Some (Some (Z.of_nat (distinct_between ids p i)))).
Proof.
  intros Hlen. destruct (stack_loop_spec ids Hlen (length ids) 0 (∅, Leaf) (replicate (length ids) None))
    as (a & Ha & Hla & Hcells); [done|apply dinv_0|by rewrite replicate_length|lia|].
  exists a. split; [done|]. split; [done|]. intros i.
  assert (Hi : first_at ids i \/ (exists p, prev_at ids i p) -> (i < length ids)%nat).
  { intros [(x & Hx & _)|(p & _ & x & Hx & _)]; by eapply lookup_lt_Some. }
  split_and!.
  - intros Hf. destruct (Hcells i (Hi (or_introl Hf))) as (d & l & -> & (H1 & _ & _)). by destruct (H1 Hf) as [-> _].
  - intros Hf. destruct (Hcells i (Hi (or_intror (ex_intro _ _ Hf)))) as (d & l & -> & (_ & H1 & _)). by destruct (H1 Hf) as [-> _].
  - intros p Hp Hp0. destruct (Hcells i (Hi (or_intror (ex_intro _ _ Hp)))) as (d & l & -> & (_ & _ & H1)).
    by destruct (H1 p Hp Hp0) as [-> _].
Qed.

Theorem C24_stack_distance_refuted : exists ids i p a,
  get_stack_dist STACK_DIST ids = Ok a /\ prev_at ids i p /\
  a !! i <> Some (Some (Z.of_nat (distinct_between ids p i))).
Proof.
  exists [7; 8; 7], 2%nat, 0%nat, [Some (-1); Some (-1); Some (-1)]. split; [by vm_compute|]. split; [|by vm_compute].
  split; [lia|]. exists 7. split; [done|]. split; [done|]. intros [|[|j]] Hj; [lia|done|lia].
Qed.
(** a trace whose first id is never requested again gets every distance right *)
Theorem C24_stack_distance_norepeat (ids : list Z) : Z.of_nat (length ids) < 2 ^ 31 ->
  (forall i x, (0 < i)%nat -> ids !! 0%nat = Some x -> ids !! i <> Some x) ->
  exists a, get_stack_dist STACK_DIST ids = Ok a /\
    forall i, (first_at ids i -> a !! i = Some (Some (-1))) /\
      (forall p, prev_at ids i p -> a !! i = Some (Some (Z.of_nat (distinct_between ids p i)))).
Proof.
  intros Hlen Hrep. destruct (C24_stack_distance_partial ids Hlen) as (a & Ha & _ & Hd). exists a. split; [done|].
  intros i. destruct (Hd i) as (H1 & _ & H3). split; [done|]. intros p Hp. apply H3; [done|]. intros ->.
  destruct Hp as (Hp & x & Hx & Hx0 & _). by apply (Hrep i x).
Qed.
Example C24_ex : get_stack_dist STACK_DIST [7; 1; 2; 2; 3; 1; 2; 7; 3; 7] =
  Ok (map Some [-1; -1; -1; 0; -1; 2; 2; -1; 3; 1]).
Proof. vm_compute. reflexivity. Qed.

(** ** future stack distance *)
Definition fut_ok (ids : list Z) (n : nat) (a : list (option Z)) : Prop :=
  forall p, (p < length ids)%nat ->
    (forall i, (i < n)%nat -> prev_at ids i p -> p <> 0%nat -> a !! p = Some (Some (Z.of_nat (distinct_between ids p i)))) /\
    ((p = 0%nat \/ forall i, (i < n)%nat -> ~ prev_at ids i p) -> a !! p = Some (Some (-1))).

Lemma future_loop_spec ids : Z.of_nat (length ids) < 2 ^ 31 -> forall k n st a,
  (n + k = length ids)%nat -> dinv ids n st -> length a = length ids -> fut_ok ids n a ->
  exists a', stack_loop FUTURE_STACK_DIST (drop n ids) (Z.of_nat n) st a = Ok a' /\ length a' = length ids /\
    fut_ok ids (length ids) a'.
Proof.
  intros Hlen. induction k as [|k IH]; intros n st a Hn Hinv Hla Hf.
  - exists a. rewrite drop_ge by lia. split; [done|]. split; [done|]. by replace (length ids) with n by lia.
  - destruct (lookup_lt_is_Some_2 ids n ltac:(lia)) as [x Hx].
    rewrite (drop_S ids x n Hx). cbn [stack_loop].
    destruct (stack_add_spec ids n x st ltac:(lia) Hinv Hx) as (d & last & st' & -> & Hinv' & Hres). cbn [rbind].
    destruct (sd_result_range ids n d last ltac:(lia) Hres) as [Hd Hcase].
    rewrite decide_False by lia. replace (Z.of_nat n + 1) with (Z.of_nat (S n)) by lia.
    destruct Hcase as [[-> ->]|(p & Hp & Hp0 & -> & ->)].
    + rewrite decide_False by lia. cbn [rbind]. apply IH; [lia|done|done|].
      intros p Hp. destruct (Hf p Hp) as [H1 H2]. split.
      * intros i Hi Hprev Hp0. destruct (decide (i = n)) as [->|Hne]; [|apply H1; [lia|done|done]].
        destruct Hres as (_ & _ & H3). destruct (H3 p Hprev Hp0) as [? ?]. lia.
      * intros [->|Hno]; [apply H2; by left|]. apply H2. right. intros i Hi. apply Hno. lia.
    + rewrite decide_True by lia. assert (Hpn : (p < n)%nat) by (by destruct Hp).
      rewrite arr_write_ok by lia. cbn [rbind]. apply IH; [lia|done|by rewrite insert_length|].
      intros q Hq. destruct (decide (p = q)) as [<-|Hne].
      * split.
        -- intros i Hi Hprev _. rewrite (prev_at_inj ids i n p Hprev Hp). apply list_lookup_insert. lia.
        -- intros [->|Hno]; [done|]. exfalso. by apply (Hno n); [lia|].
      * rewrite list_lookup_insert_ne by done. destruct (Hf q Hq) as [H1 H2]. split.
        -- intros i Hi Hprev Hq0. destruct (decide (i = n)) as [->|]; [|apply H1; [lia|done|done]].
           exfalso. apply Hne. by eapply prev_at_fun.
        -- intros [->|Hno]; [apply H2; by left|]. apply H2. right. intros i Hi. apply Hno. lia.
Qed.

(** FUTURE_STACK_DIST: each request gets the distance of the *next* request for
    the same id, -1 if there is none.  Missing: position 0, which always gets -1. *)
Theorem C24_future_stack_distance_partial (ids : list Z) : Z.of_nat (length ids) < 2 ^ 31 ->
  exists a, get_stack_dist FUTURE_STACK_DIST ids = Ok a /\ length a = length ids /\
    forall p, (last_at ids p -> a !! p = Some (Some (-1))) /\
      (p = 0%nat -> ids <> [] -> a !! p = Some (Some (-1))) /\
      (forall i, prev_at ids i p -> p <> 0%nat -> a !! p = Some (Some (Z.of_nat (distinct_between ids p i)))).
Proof.
  intros Hlen. destruct (future_loop_spec ids Hlen (length ids) 0 (∅, Leaf) (replicate (length ids) (Some (-1))))
    as (a & Ha & Hla & Hf); [done|apply dinv_0|by rewrite replicate_length| |].
  { intros p Hp. split; [lia|]. intros _. by apply lookup_replicate_2. }
  exists a. split; [done|]. split; [done|]. intros p. split_and!.
  - intros (x & Hx & Hj). assert (Hp : (p < length ids)%nat) by (by eapply lookup_lt_Some).
    apply (Hf p Hp). right. intros i Hi (Hpi & y & Hy & Hpy & _). rewrite Hx in Hpy. injection Hpy as <-. by apply (Hj i).
  - intros -> Hne. apply (Hf 0%nat); [|by left]. destruct ids; [done|cbn; lia].
  - intros i Hp Hp0. assert (Hi : (i < length ids)%nat) by (destruct Hp as (_ & x & Hx & _); by eapply lookup_lt_Some).
    assert (Hpi : (p < i)%nat) by (by destruct Hp). by apply (Hf p); [lia| | |].
Qed.
Example C24_future_ex : get_stack_dist FUTURE_STACK_DIST [7; 1; 2; 2; 3; 1; 2; 7; 3; 7] =
  Ok (map Some [-1; 2; 0; 2; 3; -1; -1; 1; -1; -1]).
Proof. vm_compute. reflexivity. Qed.

(** * C26 *)
Definition acc_ok (ids : list Z) (i : nat) (a : list (option Z)) : Prop :=
  (first_at ids i -> a !! i = Some (Some (-1))) /\
  (prev_at ids i 0 -> a !! i = Some (Some (-1))) /\
  (forall p, prev_at ids i p -> p <> 0%nat -> a !! i = Some (Some (Z.of_nat i - Z.of_nat p))).

Lemma access_loop_spec ids : Z.of_nat (length ids) < 2 ^ 31 -> forall k n T a,
  (n + k = length ids)%nat -> tinv ids n T -> length a = length ids ->
  (forall i, (i < n)%nat -> acc_ok ids i a) ->
  exists a', access_loop DIST_SINCE_LAST (drop n ids) (Z.of_nat n) T a = Ok a' /\ length a' = length ids /\
    forall i, (i < length ids)%nat -> acc_ok ids i a'.
Proof.
  intros Hlen. induction k as [|k IH]; intros n T a Hn HT Hla Hcells.
  - exists a. rewrite drop_ge by lia. split; [done|]. split; [done|]. intros i Hi. apply Hcells. lia.
  - destruct (lookup_lt_is_Some_2 ids n ltac:(lia)) as [x Hx].
    rewrite (drop_S ids x n Hx). cbn [access_loop access_add rbind].
    set (d := match ts_lookup T x with None => -1 | Some old => Z.of_nat n - old end).
    assert (Hd : -1 <= d <= Z.of_nat n /\ (first_at ids n -> d = -1) /\ (prev_at ids n 0 -> d = -1) /\
      (forall p, prev_at ids n p -> p <> 0%nat -> d = Z.of_nat n - Z.of_nat p)).
    { unfold d, ts_lookup. destruct (T !! x) as [k'|] eqn:Ek; [pose proof Ek as Ek'; apply HT in Ek' as (p & -> & Hlast)|].
      - pose proof Hlast as Hprev. apply (prev_at_last_in _ _ x) in Hprev; [|done].
        destruct (decide (Z.of_nat p = 0)) as [Hp0|Hp0].
        + split_and!; [lia|lia|done|done|]. intros q Hq Hq0. pose proof (prev_at_fun _ _ _ _ Hprev Hq). lia.
        + assert (p < n)%nat by (by destruct Hlast). split_and!; [lia|lia| | |].
          * intros Hf. by apply (first_not_prev _ _ p) in Hf.
          * intros Hq. pose proof (prev_at_fun _ _ _ _ Hprev Hq). lia.
          * intros q Hq _. by rewrite (prev_at_fun _ _ _ _ Hprev Hq).
      - split_and!; [lia|lia|done|done|]. intros p Hp. apply (prev_at_last_in _ _ x) in Hp; [|done].
        assert (T !! x = Some (Z.of_nat p)) by (apply HT; eauto). congruence. }
    destruct Hd as (Hr & H1 & H2 & H3). rewrite decide_False by lia. rewrite arr_write_ok by lia. cbn [rbind].
    replace (Z.of_nat n + 1) with (Z.of_nat (S n)) by lia. apply IH; [lia|by apply tinv_S|by rewrite insert_length|].
    intros i Hi. destruct (decide (i = n)) as [->|Hne].
    + unfold acc_ok. rewrite list_lookup_insert by lia. split_and!.
      * intros Hf. by rewrite H1.
      * intros Hf. by rewrite H2.
      * intros p Hp Hp0. by rewrite (H3 p Hp Hp0).
    + unfold acc_ok. rewrite list_lookup_insert_ne by done. apply Hcells. lia.
Qed.

(** Full statement: the access distance of a request is its position minus the
    position of the previous request for the same id, -1 for a first request.
    Missing: previous position 0, reported as -1 ([C26_access_distance_refuted]). *)
Theorem C26_access_distance_partial (ids : list Z) : Z.of_nat (length ids) < 2 ^ 31 ->
  exists a, get_access_dist DIST_SINCE_LAST ids = Ok a /\ length a = length ids /\
    forall i, (first_at ids i -> a !! i = Some (Some (-1))) /\
      (prev_at ids i 0 -> a !! i = Some (Some (-1))) /\
      (forall p, prev_at ids i p -> p <> 0%nat -> a !! i = Some (Some (Z.of_nat i - Z.of_nat p))).
Proof.
  intros Hlen. destruct (access_loop_spec ids Hlen (length ids) 0 ∅ (replicate (length ids) None))
    as (a & Ha & Hla & Hcells); [done|apply tinv_0|by rewrite replicate_length|lia|].
  exists a. split; [done|]. split; [done|]. intros i.
  destruct (decide (i < length ids)%nat) as [Hi|Hi]; [by apply Hcells|].
  assert (Hno : ids !! i = None) by (apply lookup_ge_None; lia).
  split_and!.
  - intros (x & Hx & _). congruence.
  - intros (_ & x & Hx & _). congruence.
  - intros p (_ & x & Hx & _). congruence.
Qed.
Theorem C26_access_distance_refuted : exists ids i p a,
  get_access_dist DIST_SINCE_LAST ids = Ok a /\ prev_at ids i p /\
  a !! i <> Some (Some (Z.of_nat i - Z.of_nat p)).
Proof.
  exists [7; 8; 7], 2%nat, 0%nat, [Some (-1); Some (-1); Some (-1)]. split; [by vm_compute|]. split; [|by vm_compute].
  split; [lia|]. exists 7. split; [done|]. split; [done|]. intros [|[|j]] Hj; [lia|done|lia].
Qed.
Example C26_ex : get_access_dist DIST_SINCE_LAST [7; 1; 2; 2; 1; 7; 7] = Ok (map Some [-1; -1; -1; 1; 3; -1; 1]).
Proof. vm_compute. reflexivity. Qed.

(** DIST_SINCE_FIRST_ACCESS never stores a first access, so it reports -1 for
    every request of every trace. *)
Lemma first_loop ids : forall n a, (n + length ids = length a)%nat ->
  exists a', access_loop DIST_SINCE_FIRST ids (Z.of_nat n) ∅ a = Ok a' /\ a' = take n a ++ replicate (length ids) (Some (-1)).
Proof.
  induction ids as [|x ids IH]; intros n a Hn; cbn [access_loop access_add rbind].
  - eexists. split; [done|]. cbn in *. rewrite app_nil_r, take_ge by lia. done.
  - unfold ts_lookup. rewrite lookup_empty. rewrite decide_False by lia. cbn [length] in Hn.
    rewrite arr_write_ok by lia. cbn [rbind]. replace (Z.of_nat n + 1) with (Z.of_nat (S n)) by lia.
    destruct (IH (S n) (<[n := Some (-1)]> a)) as (a' & Ha' & ->); [rewrite insert_length; lia|].
    eexists. split; [exact Ha'|]. cbn [length replicate].
    erewrite take_S_r by (apply list_lookup_insert; lia). rewrite take_insert by lia. by rewrite <- app_assoc.
Qed.
Theorem C26_since_first_all_cold (ids : list Z) :
  get_access_dist DIST_SINCE_FIRST ids = Ok (replicate (length ids) (Some (-1))).
Proof.
  unfold get_access_dist. destruct (first_loop ids 0 (replicate (length ids) None)) as (a & Ha & ->); [by rewrite replicate_length|].
  exact Ha.
Qed.
Theorem C26_since_first_refuted : exists ids i p a,
  get_access_dist DIST_SINCE_FIRST ids = Ok a /\ first_at ids p /\ (p < i)%nat /\ ids !! i = ids !! p /\
  a !! i <> Some (Some (Z.of_nat i - Z.of_nat p)).
Proof.
  exists [7; 8; 8], 2%nat, 1%nat, [Some (-1); Some (-1); Some (-1)]. split; [by vm_compute|]. split; [|by vm_compute].
  exists 8. split; [done|]. intros [|j] Hj; [done|lia].
Qed.

(** * C25 *)
(** The position in the recency stack is the number of different ids since. *)
Lemma recency_fold l2 : forall x pre st, x ∉ l2 -> x ∉ pre -> NoDup pre ->
  exists pre' st', fold_left recency_step l2 (pre ++ x :: st) = pre' ++ x :: st' /\ NoDup pre' /\ x ∉ pre' /\
    forall y, y ∈ pre' <-> y ∈ pre \/ y ∈ l2.
Proof.
  induction l2 as [|z l2 IH]; intros x pre st Hx Hpre Hnd; cbn [fold_left].
  - eexists _, _. split; [done|]. split; [done|]. split; [done|]. intros y. rewrite elem_of_nil. tauto.
  - apply not_elem_of_cons in Hx as [Hxz Hx].
    assert (E : recency_step (pre ++ x :: st) z = (z :: filter (fun y => y <> z) pre) ++ x :: filter (fun y => y <> z) st).
    { unfold recency_step. rewrite filter_app, filter_cons_True by done. done. }
    rewrite E. destruct (IH x (z :: filter (fun y => y <> z) pre) (filter (fun y => y <> z) st)) as (pre' & st' & -> & H1 & H2 & H3).
    + done.
    + apply not_elem_of_cons. split; [done|]. rewrite elem_of_list_filter. tauto.
    + constructor; [rewrite elem_of_list_filter; tauto|]. by apply NoDup_filter.
    + exists pre', st'. split; [done|]. split; [done|]. split; [done|]. intros y. rewrite H3.
      rewrite !elem_of_cons, elem_of_list_filter. destruct (decide (y = z)); tauto.
Qed.
Lemma stack_pos_app x pre st : x ∉ pre -> stack_pos x (pre ++ x :: st) = Some (length pre).
Proof.
  induction pre as [|y pre IH]; intros Hx; cbn.
  - by rewrite decide_True.
  - apply not_elem_of_cons in Hx as [? ?]. rewrite decide_False by done. by rewrite IH.
Qed.
Lemma stack_pos_None x st : x ∉ st -> stack_pos x st = None.
Proof.
  induction st as [|y st IH]; intros Hx; cbn; [done|].
  apply not_elem_of_cons in Hx as [? ?]. rewrite decide_False by done. by rewrite IH.
Qed.
Lemma recency_elem ids : forall st x, x ∈ fold_left recency_step ids st -> x ∈ st \/ x ∈ ids.
Proof.
  induction ids as [|y ids IH]; intros st x Hx; cbn in Hx; [by left|].
  apply IH in Hx as [Hx|Hx]; [|right; by right]. unfold recency_step in Hx.
  apply elem_of_cons in Hx as [->|Hx]; [right; by left|]. apply elem_of_list_filter in Hx as [_ Hx]. by left.
Qed.

Lemma stack_distance_first ids i x : first_at ids i -> ids !! i = Some x -> stack_distance (take i ids) x = None.
Proof.
  intros (y & Hy & Hj) Hx. rewrite Hx in Hy. injection Hy as <-. apply stack_pos_None. intros Hin.
  apply recency_elem in Hin as [Hin|Hin]; [by apply elem_of_nil in Hin|].
  apply elem_of_list_lookup in Hin as (j & Hin). apply lookup_take_Some in Hin as [Hin Hlt]. by apply (Hj j).
Qed.
Lemma stack_distance_prev ids i p x : prev_at ids i p -> ids !! i = Some x ->
  stack_distance (take i ids) x = Some (distinct_between ids p i).
Proof.
  intros (Hp & y & Hy & Hpx & Hj) Hx. rewrite Hx in Hy. injection Hy as <-.
  assert (Hi : (i < length ids)%nat) by (by eapply lookup_lt_Some).
  assert (E : take i ids = take p ids ++ x :: take (i - S p) (drop (S p) ids)).
  { rewrite <- (take_drop p (take i ids)). rewrite take_take, Nat.min_l by lia. f_equal.
    rewrite <- take_drop_commute' || idtac.
    replace i with (p + S (i - S p))%nat at 1 by lia. rewrite <- (take_drop_commute ids).
    rewrite (drop_S ids x p Hpx). done. }
  unfold stack_distance, recency. rewrite E, fold_left_app. cbn [fold_left].
  assert (Hnx : x ∉ take (i - S p) (drop (S p) ids)).
  { intros Hin. apply slice_elem in Hin as (j & Hj' & Hjx); [|lia]. by apply (Hj j). }
  destruct (recency_fold (take (i - S p) (drop (S p) ids)) x [] (filter (fun y => y <> x) (fold_left recency_step (take p ids) [])) Hnx)
    as (pre' & st' & Hf & Hnd & Hnp & Hmem).
  { apply not_elem_of_nil. } { constructor. }
  cbn [app] in Hf. unfold recency_step at 2. rewrite Hf. rewrite stack_pos_app by done. f_equal.
  unfold distinct_between. rewrite <- (size_list_to_set (C := gset Z) pre') by done. f_equal.
  apply leibniz_equiv. intros y. rewrite !elem_of_list_to_set, Hmem. rewrite elem_of_nil. tauto.
Qed.

(** ** the profiler's counters *)
Definition hist (ds : list Z) (c : nat) : Z :=
  Z.of_nat (length (filter (fun d => d <> -1 /\ d + 1 = Z.of_nat c) ds)).
Definition upto (ds : list Z) (c : nat) : Z :=
  Z.of_nat (length (filter (fun d => d <> -1 /\ d + 1 <= Z.of_nat c) ds)).

Lemma hist_le ds c : 0 <= hist ds c <= Z.of_nat (length ds).
Proof. unfold hist. pose proof (filter_length (fun d => d <> -1 /\ d + 1 = Z.of_nat c) ds). lia. Qed.
Lemma upto_le ds c : 0 <= upto ds c <= Z.of_nat (length ds).
Proof. unfold upto. pose proof (filter_length (fun d => d <> -1 /\ d + 1 <= Z.of_nat c) ds). lia. Qed.
Lemma upto_S ds c : Forall (fun d => -1 <= d) ds -> upto ds (S c) = hist ds (S c) + upto ds c.
Proof.
  unfold upto, hist. induction 1 as [|d ds Hd Hds IH]; [done|].
  rewrite !filter_cons. repeat case_decide; cbn [length]; lia.
Qed.
Lemma upto_0 ds : Forall (fun d => -1 <= d) ds -> upto ds 0 = hist ds 0.
Proof.
  unfold upto, hist. induction 1 as [|d ds Hd Hds IH]; [done|].
  rewrite !filter_cons. repeat case_decide; cbn [length]; lia.
Qed.
Lemma upto_0_0 ds : Forall (fun d => -1 <= d) ds -> upto ds 0 = 0.
Proof.
  unfold upto. induction 1 as [|d ds Hd Hds IH]; [done|].
  rewrite filter_cons. case_decide; cbn [length]; lia.
Qed.

Definition dists_ok (ids ds : list Z) : Prop :=
  forall i d, ds !! i = Some d -> exists last, sd_result ids i d last.

Lemma hit_loop_spec ids size : Z.of_nat (length ids) < 2 ^ 63 -> 0 <= size -> forall k n st ds a,
  (n + k = length ids)%nat -> dinv ids n st -> length ds = n -> dists_ok ids ds ->
  a = map (hist ds) (seq 0 (Z.to_nat (size + 1))) ->
  exists ds', hit_loop size (drop n ids) (Z.of_nat n) st a = Ok (map (hist ds') (seq 0 (Z.to_nat (size + 1)))) /\
    length ds' = length ids /\ dists_ok ids ds'.
Proof.
  intros Hlen Hsz. induction k as [|k IH]; intros n st ds a Hn Hinv Hld Hok ->.
  - exists ds. rewrite drop_ge by lia. split; [done|]. split; [lia|done].
  - destruct (lookup_lt_is_Some_2 ids n ltac:(lia)) as [x Hx].
    rewrite (drop_S ids x n Hx). cbn [hit_loop].
    destruct (stack_add_spec ids n x st ltac:(lia) Hinv Hx) as (d & last & st' & -> & Hinv' & Hres). cbn [rbind].
    destruct (sd_result_range ids n d last ltac:(lia) Hres) as [Hd _].
    replace (Z.of_nat n + 1) with (Z.of_nat (S n)) by lia.
    assert (Hok' : dists_ok ids (ds ++ [d])).
    { intros i d' Hi. apply lookup_app_Some in Hi as [Hi|[Hi1 Hi2]]; [by apply Hok|].
      rewrite Hld in Hi2. destruct (i - n)%nat as [|] eqn:E; [|done]. injection Hi2 as <-.
      rewrite Hld in Hi1. assert (i = n) as -> by lia. eauto. }
    assert (Hh : forall c, hist (ds ++ [d]) c = hist ds c + (if decide (d <> -1 /\ d + 1 = Z.of_nat c) then 1 else 0)).
    { intros c. unfold hist. rewrite filter_app, app_length, filter_cons. case_decide; cbn [length]; rewrite ?filter_nil; cbn; lia. }
    assert (Hgoal : forall a, a = map (hist (ds ++ [d])) (seq 0 (Z.to_nat (size + 1))) ->
      exists ds', hit_loop size (drop (S n) ids) (Z.of_nat (S n)) st' a = Ok (map (hist ds') (seq 0 (Z.to_nat (size + 1)))) /\
      length ds' = length ids /\ dists_ok ids ds').
    { intros a Ha. apply (IH _ _ (ds ++ [d])); [lia|done| |done|done]. rewrite app_length. cbn. lia. }
    destruct (decide (d = -1)) as [Hd1|Hd1]; [|destruct (decide (d + 1 <= size)) as [Hle|Hgt]].
    + cbn [rbind]. apply Hgoal. apply map_ext. intros c. rewrite Hh, decide_False by tauto. lia.
    + unfold cnt_incr. rewrite map_length, seq_length. rewrite decide_True by lia. cbn [rbind]. apply Hgoal.
      apply list_eq. intros i. destruct (decide (i = Z.to_nat (d + 1))) as [->|Hne].
      * rewrite list_lookup_alter. change (map (hist ds)) with (fmap (M := list) (hist ds)).
        change (map (hist (ds ++ [d]))) with (fmap (M := list) (hist (ds ++ [d]))). rewrite !list_lookup_fmap.
        destruct (seq 0 (Z.to_nat (size + 1)) !! Z.to_nat (d + 1)) as [c|] eqn:Ec; [|done]. cbn.
        apply lookup_seq in Ec as [-> ?]. f_equal. rewrite Hh, decide_True by (split; [done|lia]).
        apply Z.mod_small. pose proof (hist_le ds (0 + Z.to_nat (d + 1))). lia.
      * rewrite list_lookup_alter_ne by done. change (map (hist ds)) with (fmap (M := list) (hist ds)).
        change (map (hist (ds ++ [d]))) with (fmap (M := list) (hist (ds ++ [d]))). rewrite !list_lookup_fmap.
        destruct (seq 0 (Z.to_nat (size + 1)) !! i) as [c|] eqn:Ec; [|done]. cbn.
        apply lookup_seq in Ec as [-> ?]. f_equal. rewrite Hh, decide_False by lia. lia.
    + cbn [rbind]. apply Hgoal. change (map (hist ds)) with (fmap (M := list) (hist ds)).
      change (map (hist (ds ++ [d]))) with (fmap (M := list) (hist (ds ++ [d]))).
      apply list_fmap_ext. intros i c Hc. apply lookup_seq in Hc as [-> ?]. rewrite Hh, decide_False by lia. lia.
Qed.

Lemma accumulate_spec ds m : Forall (fun d => -1 <= d) ds -> Z.of_nat (length ds) < 2 ^ 63 -> forall c,
  accumulate (upto ds c) (map (hist ds) (seq (S c) m)) = map (upto ds) (seq (S c) m).
Proof.
  intros Hf Hl. induction m as [|m IH]; intros c; [done|]. cbn [seq map accumulate].
  rewrite <- (upto_S ds c Hf). pose proof (upto_le ds (S c)). rewrite Z.mod_small by lia. f_equal. apply IH.
Qed.

Lemma lru_hit_cnt_spec ids size : Z.of_nat (length ids) < 2 ^ 63 -> 0 <= size ->
  exists ds, lru_hit_cnt size ids = Ok (map (upto ds) (seq 0 (Z.to_nat (size + 1)))) /\
    length ds = length ids /\ dists_ok ids ds.
Proof.
  intros Hlen Hsz.
  destruct (hit_loop_spec ids size Hlen Hsz (length ids) 0 (∅, Leaf) [] (replicate (Z.to_nat (size + 1)) 0))
    as (ds & Hds & Hld & Hok); [done|apply dinv_0|done| | |].
  { intros i d Hd. by rewrite lookup_nil in Hd. }
  { symmetry. rewrite <- (seq_length (Z.to_nat (size + 1)) 0) at 2. generalize 0%nat at 1. clear.
    intros s. generalize (Z.to_nat (size + 1)). intros m. revert s.
    induction m as [|m IH]; intros s; [done|]. cbn [seq map length replicate]. f_equal. rewrite IH. by rewrite !seq_length. }
  exists ds. split; [|done]. unfold lru_hit_cnt. change (hit_loop size ids 0) with (hit_loop size (drop 0 ids) (Z.of_nat 0)).
  rewrite Hds. cbn [rbind]. f_equal.
  assert (Hf : Forall (fun d => -1 <= d) ds).
  { apply Forall_lookup. intros i d Hd. destruct (Hok i d Hd) as (last & Hr).
    assert (i < length ids)%nat by (rewrite <- Hld; by eapply lookup_lt_Some).
    destruct (sd_result_range ids i d last ltac:(done) Hr). lia. }
  replace (Z.to_nat (size + 1)) with (S (Z.to_nat size)) by lia. cbn [seq map].
  rewrite <- (upto_0 ds Hf). rewrite accumulate_spec by (done || lia). done.
Qed.

Fixpoint count_hits (os : list obs) : nat :=
  match os with
  | [] => 0
  | OBool true :: os => S (count_hits os)
  | _ :: os => count_hits os
  end.

(** two request-by-request verdicts that differ only where the previous request
    is at position 0 *)
Lemma count_compare (os : list obs) (ds : list Z) (c : nat) (Q : nat -> Prop) :
  length os = length ds ->
  (forall i o, os !! i = Some o -> exists h, o = OBool h) ->
  (forall i d, ds !! i = Some d -> ~ Q i -> os !! i = Some (OBool true) <-> (d <> -1 /\ d + 1 <= Z.of_nat c)) ->
  (forall i d, ds !! i = Some d -> Q i -> d = -1) ->
  (forall i j, Q i -> Q j -> i = j) -> (forall i, Q i \/ ~ Q i) ->
  exists e, Z.of_nat (count_hits os) = upto ds c + e /\ (e = 0 \/ e = 1) /\
    (e = 1 <-> exists i, Q i /\ os !! i = Some (OBool true)).
Proof.
  revert ds Q. induction os as [|o os IH]; intros [|d ds] Q Hlen Hb H1 H2 Hu Hdec; try done.
  - exists 0. split; [done|]. split; [by left|]. split; [done|]. intros (i & _ & Hi). by rewrite lookup_nil in Hi.
  - destruct (IH ds (fun i => Q (S i))) as (e & He & He01 & Hei).
    + cbn in Hlen. lia.
    + intros i o' Hi. by apply (Hb (S i)).
    + intros i d' Hd' Hq. by apply (H1 (S i) d').
    + intros i d' Hd' Hq. by apply (H2 (S i) d').
    + intros i j Hi Hj. specialize (Hu _ _ Hi Hj). lia.
    + intros i. apply Hdec.
    + destruct (Hb 0%nat o eq_refl) as [h ->].
      destruct (Hdec 0%nat) as [HQ|HQ].
      * assert (d = -1) as -> by (by apply (H2 0%nat)).
        assert (e = 0) as ->.
        { destruct He01 as [->| ->]; [done|]. destruct Hei as [Hei _]. destruct (Hei eq_refl) as (i & Hi & _).
          specialize (Hu _ _ HQ Hi). lia. }
        exists (if h then 1 else 0). split_and!.
        -- unfold upto. rewrite filter_cons_False by tauto. fold (upto ds c). destruct h; cbn [count_hits]; lia.
        -- destruct h; tauto.
        -- split.
           ++ intros Hh. exists 0%nat. split; [done|]. by destruct h.
           ++ intros (i & Hi & Hoi). rewrite (Hu _ _ Hi HQ) in Hoi. cbn in Hoi. injection Hoi as ->. done.
      * exists e. pose proof (H1 0%nat d eq_refl HQ) as Hd. cbn in Hd. split_and!; [|done|].
        -- unfold upto. destruct (decide (d <> -1 /\ d + 1 <= Z.of_nat c)) as [Hy|Hn].
           ++ apply Hd in Hy as Hy'. injection Hy' as ->. rewrite filter_cons_True by done. cbn [count_hits length].
              fold (upto ds c). unfold upto in He. lia.
           ++ destruct h; [by destruct Hn; apply Hd|]. rewrite filter_cons_False by done. cbn [count_hits].
              unfold upto in He. lia.
        -- rewrite Hei. split.
           ++ intros (i & Hi & Ho). by exists (S i).
           ++ intros ([|i] & Hi & Ho); [done|]. by exists i.
Qed.

(** Full statement: for every trace of unit-size requests and every size c up to
    the requested maximum, the profiler's hit (miss) count for c equals the
    number of hits (misses) of the simulated LRU cache of capacity c.  What
    holds instead: the simulated cache has exactly one hit more when the second
    request for the trace's first id hits. *)
Theorem C25_lru_profiler_partial (rs : list req) (size c : Z) fuel :
  Forall (fun r => r_size r = 1 /\ req_ok 0 r) rs -> (length rs <= fuel)%nat ->
  Z.of_nat (length rs) < 2 ^ 63 -> 0 <= c <= size ->
  exists hits misses s os e,
    lru_hit_cnt size (map r_id rs) = Ok hits /\ lru_miss_cnt size (map r_id rs) = Ok misses /\
    run lru_ops fuel (lru_init false c AdmNone) (map CGet rs) = Ok (s, os) /\
    hits !! Z.to_nat c = Some (Z.of_nat (count_hits os) - e) /\
    misses !! Z.to_nat c = Some (Z.of_nat (length rs) - Z.of_nat (count_hits os) + e) /\
    (e = 0 \/ e = 1) /\
    (e = 1 <-> exists i, prev_at (map r_id rs) i 0 /\ os !! i = Some (OBool true)).
Proof.
  intros Hrs Hfuel Hlen Hc. set (ids := map r_id rs).
  assert (Hl : length ids = length rs) by apply map_length.
  destruct (lru_hit_cnt_spec ids size ltac:(lia) ltac:(lia)) as (ds & Hhits & Hlds & Hok).
  destruct (C10_lru_stack false c 1 rs fuel) as (s & os & Hrun & _ & Hos); auto; [lia|lia|].
  assert (Hlos : length os = length rs).
  { assert (Hle := run_length lru_ops fuel). apply Hle in Hrun. by rewrite map_length in Hrun. }
  rewrite Z.div_1_r in Hos.
  destruct (count_compare os ds (Z.to_nat c) (fun i => prev_at ids i 0)) as (e & He & He01 & Hei).
  - lia.
  - intros i o Ho. assert (Hi : (i < length rs)%nat) by (rewrite <- Hlos; by eapply lookup_lt_Some).
    destruct (lookup_lt_is_Some_2 rs i Hi) as [r Hr]. destruct (Hos i r Hr) as (h & Hh & _). rewrite Ho in Hh.
    injection Hh as ->. eauto.
  - intros i d Hd Hq. assert (Hi : (i < length rs)%nat) by (rewrite <- Hl, <- Hlds; by eapply lookup_lt_Some).
    destruct (lookup_lt_is_Some_2 rs i Hi) as [r Hr]. destruct (Hos i r Hr) as (h & Hh & Hiff).
    assert (Hx : ids !! i = Some (r_id r)).
    { unfold ids. change (map r_id rs) with (r_id <$> rs). rewrite list_lookup_fmap, Hr. done. }
    destruct (Hok i d Hd) as (last & (R1 & R2 & R3)).
    assert (Htk : map r_id (take i rs) = take i ids).
    { unfold ids. change (map r_id) with (fmap (M := list) r_id). by rewrite fmap_take. }
    rewrite Htk in Hiff. rewrite Hh.
    destruct (at_cases ids i ltac:(lia)) as [Hf|(p & Hp)].
    + rewrite (stack_distance_first ids i _ Hf Hx) in Hiff. destruct (R1 Hf) as [-> _].
      split; [|tauto]. intros [= ->]. destruct Hiff as [Hiff _]. by destruct (Hiff eq_refl) as (? & ? & _).
    + assert (Hp0 : p <> 0%nat) by (by intros ->).
      rewrite (stack_distance_prev ids i p _ Hp Hx) in Hiff. destruct (R3 p Hp Hp0) as [-> _]. split.
      * intros [= ->]. destruct Hiff as [Hiff _]. destruct (Hiff eq_refl) as (d' & [= <-] & Hlt). lia.
      * intros [_ Hle]. do 2 f_equal. apply Hiff. eexists. split; [done|]. lia.
  - intros i d Hd Hq. destruct (Hok i d Hd) as (last & (_ & R2 & _)). by destruct (R2 Hq).
  - intros i j Hi Hj. by eapply prev_at_inj.
  - intros i. destruct (decide (i < length ids)%nat) as [Hi|Hi].
    + destruct (at_cases ids i Hi) as [Hf|(p & Hp)].
      * right. by apply first_not_prev.
      * destruct (decide (p = 0%nat)) as [->|Hp0]; [by left|]. right. intros Hq. apply Hp0. by eapply prev_at_fun.
    + right. intros (_ & x & Hx & _). apply lookup_lt_Some in Hx. lia.
  - assert (Hpt : forall f : nat -> Z, map f (seq 0 (Z.to_nat (size + 1))) !! Z.to_nat c = Some (f (Z.to_nat c))).
    { intros f. change (map f) with (fmap (M := list) f). rewrite list_lookup_fmap.
      rewrite lookup_seq_lt by lia. done. }
    pose proof (upto_le ds (Z.to_nat c)) as Hu.
    assert (Hmiss : lru_miss_cnt size ids = Ok (map (fun k => (Z.of_nat (length ids) - upto ds k) mod 2 ^ 64) (seq 0 (Z.to_nat (size + 1))))).
    { unfold lru_miss_cnt. rewrite Hhits. cbn [rbind]. rewrite map_map.
      replace (Z.to_nat (size + 1)) with (S (Z.to_nat size)) by lia. cbn [seq map]. rewrite decide_True; [done|].
      rewrite upto_0_0, Z.sub_0_r, Z.mod_small; [done|lia|].
      apply Forall_lookup. intros i d Hd. destruct (Hok i d Hd) as (last & Hr).
      assert (i < length ids)%nat by (rewrite <- Hlds; by eapply lookup_lt_Some).
      destruct (sd_result_range ids i d last ltac:(done) Hr). lia. }
    eexists _, _, s, os, e. split; [exact Hhits|]. split; [exact Hmiss|]. split; [exact Hrun|].
    rewrite !Hpt. split_and!; [f_equal; lia| |done|done].
    f_equal. rewrite Z.mod_small by lia. lia.
Qed.

(** exact agreement for traces that never return to their first id *)
Theorem C25_lru_profiler_norepeat (rs : list req) (size c : Z) fuel :
  Forall (fun r => r_size r = 1 /\ req_ok 0 r) rs -> (length rs <= fuel)%nat ->
  Z.of_nat (length rs) < 2 ^ 63 -> 0 <= c <= size ->
  (forall i r r0, (0 < i)%nat -> rs !! i = Some r -> rs !! 0%nat = Some r0 -> r_id r <> r_id r0) ->
  exists hits misses s os,
    lru_hit_cnt size (map r_id rs) = Ok hits /\ lru_miss_cnt size (map r_id rs) = Ok misses /\
    run lru_ops fuel (lru_init false c AdmNone) (map CGet rs) = Ok (s, os) /\
    hits !! Z.to_nat c = Some (Z.of_nat (count_hits os)) /\
    misses !! Z.to_nat c = Some (Z.of_nat (length rs) - Z.of_nat (count_hits os)).
Proof.
  intros Hrs Hf Hl Hc Hno.
  destruct (C25_lru_profiler_partial rs size c fuel Hrs Hf Hl Hc) as (h & m & s & os & e & H1 & H2 & H3 & H4 & H5 & H6 & H7).
  exists h, m, s, os. assert (e = 0) as ->.
  { destruct H6 as [->|He]; [done|]. exfalso. apply H7 in He as (i & (Hi & x & Hx & H0 & _) & _).
    change (map r_id rs) with (r_id <$> rs) in Hx, H0. rewrite list_lookup_fmap in Hx, H0.
    destruct (rs !! i) as [r|] eqn:Er; [|done]. destruct (rs !! 0%nat) as [r0|] eqn:E0; [|done].
    cbn in Hx, H0. apply (Hno i r r0); [lia|done|done|congruence]. }
  rewrite Z.sub_0_r in H4. rewrite Z.add_0_r in H5. done.
Qed.

Theorem C25_lru_profiler_refuted : exists (rs : list req) (size c : Z) hits s os,
  Forall (fun r => r_size r = 1 /\ req_ok 0 r) rs /\ 0 <= c <= size /\
  lru_hit_cnt size (map r_id rs) = Ok hits /\
  run lru_ops 10 (lru_init false c AdmNone) (map CGet rs) = Ok (s, os) /\
  hits !! Z.to_nat c <> Some (Z.of_nat (count_hits os)).
Proof.
  exists [mkReq 7 1 0 0 0; mkReq 7 1 1 0 0], 2, 2.
  eexists _, _, _. split_and!; [|lia|lia|vm_compute; reflexivity|vm_compute; reflexivity|by vm_compute].
  repeat (apply Forall_cons; split; [split; [done|unfold req_ok; cbn; lia]|]). constructor.
Qed.
Example C25_ex : lru_hit_cnt 4 [7; 1; 2; 2; 3; 1; 2; 7; 3; 7] = Ok [0; 1; 2; 4; 5] /\
  lru_miss_cnt 4 [7; 1; 2; 2; 3; 1; 2; 7; 3; 7] = Ok [10; 9; 8; 6; 5].
Proof. vm_compute. done. Qed.
