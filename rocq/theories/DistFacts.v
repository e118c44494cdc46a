(** Invariant of the reuse distance computation. *)
From stdpp Require Import gmap list numbers sorting.
From Verif Require Import Base ModelSplay SplayFacts ModelDist SpecDist.
Open Scope Z_scope.

(** [p] is the last request for [x] among the first [n] *)
Definition last_in (ids : list Z) (n : nat) (x : Z) (p : nat) : Prop :=
  (p < n)%nat /\ ids !! p = Some x /\ forall j, (p < j < n)%nat -> ids !! j <> Some x.

Definition tinv (ids : list Z) (n : nat) (T : gmap Z Z) : Prop :=
  forall x k, T !! x = Some k <-> exists p, k = Z.of_nat p /\ last_in ids n x p.
Definition dinv (ids : list Z) (n : nat) (st : gmap Z Z * tree) : Prop :=
  tinv ids n st.1 /\ good st.2 /\
  forall k, k ∈ keys st.2 <-> (exists x, st.1 !! x = Some k) \/ (k = 0 /\ (0 < n)%nat).

Lemma tinv_0 ids : tinv ids 0 ∅.
Proof. intros x k. rewrite lookup_empty. split; [done|]. intros (p & _ & ? & _). lia. Qed.

Lemma tinv_S ids n T x : tinv ids n T -> ids !! n = Some x -> tinv ids (S n) (<[x := Z.of_nat n]> T).
Proof.
  intros H Hx y k. destruct (decide (x = y)) as [<-|Hne].
  - rewrite lookup_insert. split.
    + intros [= <-]. exists n. split; [done|]. split_and!; [lia|done|lia].
    + intros (p & -> & Hp & Hpx & Hj). do 2 f_equal. destruct (decide (p = n)) as [->|]; [done|].
      exfalso. apply (Hj n); [lia|done].
  - rewrite lookup_insert_ne by done. rewrite (H y k). split; intros (p & -> & Hp & Hpx & Hj); exists p; (split; [done|]).
    + split_and!; [lia|done|]. intros j Hj'. destruct (decide (j = n)) as [->|]; [congruence|]. apply Hj. lia.
    + destruct (decide (p = n)) as [->|]; [congruence|]. split_and!; [lia|done|]. intros j Hj'. apply Hj. lia.
Qed.

Lemma last_in_fun ids n x p q : last_in ids n x p -> last_in ids n x q -> p = q.
Proof.
  intros (H1 & H2 & H3) (H4 & H5 & H6). destruct (lt_eq_lt_dec p q) as [[?| ->]|?]; [|done|].
  - exfalso. by apply (H3 q); [lia|].
  - exfalso. by apply (H6 p); [lia|].
Qed.

Lemma last_in_ex ids n : (n <= length ids)%nat -> forall x j, (j < n)%nat -> ids !! j = Some x ->
  exists p, last_in ids n x p /\ (j <= p)%nat.
Proof.
  induction n as [|n IH]; intros Hn x j Hj Hjx; [lia|].
  destruct (lookup_lt_is_Some_2 ids n ltac:(lia)) as [y Hy].
  destruct (decide (y = x)) as [->|Hne].
  - exists n. split; [|lia]. split_and!; [lia|done|lia].
  - assert (j <> n) by congruence. destruct (IH ltac:(lia) x j ltac:(lia) Hjx) as (p & (Hp & Hpx & Hl) & Hjp).
    exists p. split; [|done]. split_and!; [lia|done|]. intros i Hi.
    destruct (decide (i = n)) as [->|]; [congruence|]. apply Hl. lia.
Qed.

Lemma prev_at_last_in ids n x p : ids !! n = Some x -> prev_at ids n p <-> last_in ids n x p.
Proof.
  intros Hx. split.
  - intros (Hp & y & Hy & Hpy & Hj). rewrite Hx in Hy. injection Hy as <-. done.
  - intros (Hp & Hpx & Hj). split; [done|]. eauto.
Qed.

Lemma slice_elem (ids : list Z) p n y : (n <= length ids)%nat ->
  y ∈ take (n - S p) (drop (S p) ids) <-> exists j, (p < j < n)%nat /\ ids !! j = Some y.
Proof.
  intros Hn. rewrite elem_of_list_lookup. split.
  - intros (i & Hi). apply lookup_take_Some in Hi as [Hi Hlt]. rewrite lookup_drop in Hi.
    exists (S p + i)%nat. split; [lia|done].
  - intros (j & Hj & Hy). exists (j - S p)%nat. apply lookup_take_Some. split; [|lia].
    rewrite lookup_drop. replace (S p + (j - S p))%nat with j by lia. done.
Qed.

Lemma sorted_NoDup l : StronglySorted Z.lt l -> NoDup l.
Proof.
  induction 1 as [|x l Hl IH Hf]; constructor; [|done]. intros Hx. rewrite Forall_forall in Hf.
  specialize (Hf x Hx). lia.
Qed.

Lemma count_larger ids n T t x p : (n <= length ids)%nat -> dinv ids n (T, t) -> last_in ids n x p -> p <> 0%nat ->
  length (filter (fun k => Z.of_nat p < k) (keys t)) = distinct_between ids p n.
Proof.
  intros Hn (HT & [Ho _] & Hk) Hlast Hp0. cbn [fst snd] in *.
  set (S := list_to_set (take (n - Datatypes.S p) (drop (Datatypes.S p) ids)) : gset Z).
  set (f := fun y => default 0 (T !! y)).
  assert (HS : forall y, y ∈ S -> exists q, last_in ids n y q /\ T !! y = Some (Z.of_nat q) /\ (p < q)%nat).
  { intros y Hy. unfold S in Hy. rewrite elem_of_list_to_set in Hy. apply slice_elem in Hy as (j & Hj & Hyj); [|done].
    destruct (last_in_ex ids n Hn y j ltac:(lia) Hyj) as (q & Hq & Hjq).
    exists q. split; [done|]. split; [|lia]. apply HT. eauto. }
  assert (Hperm : filter (fun k => Z.of_nat p < k) (keys t) ≡ₚ f <$> elements S).
  { apply NoDup_Permutation.
    - apply NoDup_filter, sorted_NoDup, Ho.
    - apply NoDup_fmap_2_strong; [|apply NoDup_elements].
      intros y z Hy%elem_of_elements Hz%elem_of_elements Heq.
      apply HS in Hy as (q & (_ & Hq & _) & Hy & _). apply HS in Hz as (r & (_ & Hr & _) & Hz & _).
      unfold f in Heq. rewrite Hy, Hz in Heq. cbn in Heq. assert (q = r) as -> by lia. congruence.
    - intros k. rewrite elem_of_list_filter, elem_of_list_fmap, Hk. split.
      + intros [Hlt [(y & Hy)|[-> ?]]]; [|lia]. exists y. unfold f. rewrite Hy. split; [done|].
        rewrite elem_of_elements. unfold S. rewrite elem_of_list_to_set. apply slice_elem; [done|].
        apply HT in Hy as (q & -> & (Hq1 & Hq2 & Hq3)). exists q. split; [lia|done].
      + intros (y & -> & Hy%elem_of_elements). apply HS in Hy as (q & _ & Hy & Hpq).
        unfold f. rewrite Hy. cbn. split; [lia|]. left. eauto. }
  rewrite Hperm, fmap_length. done.
Qed.

Lemma dinv_0 ids : dinv ids 0 (∅, Leaf).
Proof.
  split; [apply tinv_0|]. split; [split; [constructor|done]|]. intros k. cbn. setoid_rewrite lookup_empty.
  rewrite elem_of_nil. split; [done|]. intros [[? ?]|[_ ?]]; [done|lia].
Qed.

(** what [stack_add] reports *)
Definition sd_result (ids : list Z) (n : nat) (d last : Z) : Prop :=
  (first_at ids n -> d = -1 /\ last = -1) /\
  (prev_at ids n 0 -> d = -1 /\ last = -1) /\
  (forall p, prev_at ids n p -> p <> 0%nat -> d = Z.of_nat (distinct_between ids p n) /\ last = Z.of_nat p).

Lemma stack_add_spec ids n x st : (n < length ids)%nat -> dinv ids n st -> ids !! n = Some x ->
  exists d last st', stack_add x (Z.of_nat n) st = Ok (d, last, st') /\ dinv ids (S n) st' /\ sd_result ids n d last.
Proof.
  intros Hlen Hinv Hx. destruct st as [T t]. pose proof Hinv as (HT & Hg & Hk). cbn [fst snd] in *.
  unfold stack_add.
  assert (Hnk : forall k, k ∈ keys t -> k < Z.of_nat n).
  { intros k. rewrite Hk. intros [(y & Hy)|[-> ?]]; [|lia]. apply HT in Hy as (p & -> & ? & _). lia. }
  unfold ts_lookup. destruct (T !! x) as [k|] eqn:Ek; [destruct (decide (k = 0)) as [->|Hk0]|].
  - (* the stored timestamp is 0 *)
    destruct (sp_insert_spec (Z.of_nat n) t Hg) as (t' & -> & Hg' & Hk'). cbn [rbind].
    pose proof Ek as Ek'. apply HT in Ek' as (p & Hp & Hlast). assert (p = 0%nat) as -> by lia.
    eexists _, _, _. split; [reflexivity|]. split.
    + split; [by apply tinv_S|]. split; [done|]. intros k. cbn [fst snd]. rewrite Hk', Hk. split.
      * intros [->|[(y & Hy)|[-> ?]]].
        -- left. exists x. by rewrite lookup_insert.
        -- destruct (decide (x = y)) as [<-|Hne].
           ++ right. rewrite Ek in Hy. injection Hy as <-. split; [done|lia].
           ++ left. exists y. by rewrite lookup_insert_ne.
        -- right. split; [done|lia].
      * intros [(y & Hy)|[-> ?]].
        -- destruct (decide (x = y)) as [<-|Hne].
           ++ rewrite lookup_insert in Hy. injection Hy as <-. by left.
           ++ rewrite lookup_insert_ne in Hy by done. right. left. eauto.
        -- right. left. eauto.
    + split; [done|]. split; [done|]. intros p Hp' Hp0. apply (prev_at_last_in _ _ x) in Hp'; [|done].
      exfalso. apply Hp0. eapply last_in_fun; [exact Hp'|exact Hlast].
  - (* found *)
    pose proof Ek as Ek'. apply HT in Ek' as (p & -> & Hlast).
    assert (Hp0 : p <> 0%nat) by lia.
    destruct (splay_spec (Z.of_nat p) t Hg) as (t1 & Ht1 & Hg1 & Hk1 & _). rewrite Ht1. cbn [rbind].
    assert (Hin : Z.of_nat p ∈ keys t) by (apply Hk; left; eauto).
    destruct t1 as [|tl k v tr]; [by rewrite <- Hk1 in Hin; apply elem_of_nil in Hin|].
    destruct (splay_right _ _ _ _ _ _ Hg Hin Ht1) as [-> Hnv].
    destruct (sp_delete_spec (Z.of_nat p) _ Hg1) as (t2 & -> & Hg2 & Hk2). cbn [rbind].
    destruct (sp_insert_spec (Z.of_nat n) _ Hg2) as (t3 & -> & Hg3 & Hk3). cbn [rbind].
    eexists _, _, _. split; [reflexivity|]. split.
    + split; [by apply tinv_S|]. split; [done|]. intros k. cbn [fst snd]. rewrite Hk3, Hk2, Hk1, Hk. split.
      * intros [->|[Hne [(y & Hy)|[-> ?]]]].
        -- left. exists x. by rewrite lookup_insert.
        -- left. exists y. rewrite lookup_insert_ne by congruence. done.
        -- right. split; [done|lia].
      * intros [(y & Hy)|[-> ?]].
        -- destruct (decide (x = y)) as [<-|Hne].
           ++ rewrite lookup_insert in Hy. injection Hy as <-. by left.
           ++ rewrite lookup_insert_ne in Hy by done. right. split; [|left; eauto].
              intros ->. apply HT in Hy as (q & Hq & (_ & Hqy & _)). assert (q = p) as -> by lia.
              destruct Hlast as (_ & Hl & _). congruence.
        -- destruct Hlast as (Hl1 & _ & _). right. split; [lia|]. right. split; [done|lia].
    + split; [|split].
      * intros (y & Hy & Hj). rewrite Hx in Hy. injection Hy as <-. exfalso. destruct Hlast as (Hl1 & Hl2 & _).
        by apply (Hj p).
      * intros Hp'. apply (prev_at_last_in _ _ x) in Hp'; [|done]. exfalso. apply Hp0.
        eapply last_in_fun; [exact Hlast|exact Hp'].
      * intros q Hq _. apply (prev_at_last_in _ _ x) in Hq; [|done].
        assert (q = p) as -> by (eapply last_in_fun; eauto). split; [|done].
        rewrite Hnv. f_equal. by eapply count_larger; [lia| | |].
  - (* never requested *)
    destruct (sp_insert_spec (Z.of_nat n) t Hg) as (t' & -> & Hg' & Hk'). cbn [rbind].
    assert (Hno : forall p, ~ last_in ids n x p).
    { intros p Hp. assert (T !! x = Some (Z.of_nat p)) by (apply HT; eauto). congruence. }
    eexists _, _, _. split; [reflexivity|]. split.
    + split; [by apply tinv_S|]. split; [done|]. intros k. cbn [fst snd]. rewrite Hk', Hk. split.
      * intros [->|[(y & Hy)|[-> ?]]].
        -- left. exists x. by rewrite lookup_insert.
        -- left. exists y. rewrite lookup_insert_ne by congruence. done.
        -- right. split; [done|lia].
      * intros [(y & Hy)|[-> ?]].
        -- destruct (decide (x = y)) as [<-|Hne].
           ++ rewrite lookup_insert in Hy. injection Hy as <-. by left.
           ++ rewrite lookup_insert_ne in Hy by done. right. left. eauto.
        -- destruct n as [|n]; [by left|]. right. right. split; [done|lia].
    + split; [done|]. split; [done|]. intros p Hp _. apply (prev_at_last_in _ _ x) in Hp; [|done]. by apply Hno in Hp.
Qed.
