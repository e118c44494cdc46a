(** C22: the chained hash table is a finite map. *)
From stdpp Require Import gmap list numbers fin_maps.
From Verif Require Import Base ModelHash HashFacts.
Open Scope Z_scope.

(** * Specification: a finite map from object ids to objects (addresses) *)
Inductive hop : Type :=
| HInsert (a id : Z)   (* insert id; malloc returns the address a *)
| HFind (id : Z)
| HDelete (a : Z)
| HTryDelete (a : Z)
| HDeleteId (id : Z)
| HForeach
| HCount.
Inductive hout : Type := HNone | HPtr (p : option Z) | HBool (b : bool) | HList (l : list Z) | HNum (n : Z).

(** what a caller must guarantee: ids are not inserted twice, malloc returns fresh
    memory, only stored objects are deleted by address *)
Definition contract (m : gmap Z Z) (o : hop) : Prop :=
  match o with
  | HInsert a id => m !! id = None /\ forall id', m !! id' <> Some a
  | HDelete a | HTryDelete a => exists id, m !! id = Some a
  | _ => True
  end.
Definition map_step (m : gmap Z Z) (o : hop) (m' : gmap Z Z) : Prop :=
  match o with
  | HInsert a id => m' = <[id := a]> m
  | HDelete a | HTryDelete a => exists id, m !! id = Some a /\ m' = delete id m
  | HDeleteId id => m' = delete id m
  | _ => m' = m
  end.
Definition map_out (m : gmap Z Z) (o : hop) (r : hout) : Prop :=
  match o with
  | HInsert _ _ | HDelete _ => r = HNone
  | HFind id => r = HPtr (m !! id)
  | HTryDelete _ => r = HBool true
  | HDeleteId id => r = HBool (bool_decide (is_Some (m !! id)))
  | HForeach => exists l, r = HList l /\ NoDup l /\ forall a, a ∈ l <-> exists id, m !! id = Some a
  | HCount => r = HNum (Z.of_nat (size m))
  end.

(** more than 64 stored ids share a bucket *)
Definition overfull (hash : Z -> Z) (pow : Z) (m : gmap Z Z) : Prop :=
  exists (i : Z) (l : list Z), NoDup l /\ (64 < length l)%nat /\
    forall id, id ∈ l -> is_Some (m !! id) /\ hash id mod 2 ^ pow = i.

(** * The table *)
Definition ht_step (hash : Z -> Z) (t : htab) (o : hop) : res (htab * hout) :=
  match o with
  | HInsert a id => let! t := ht_insert hash t a id in Ok (t, HNone)
  | HFind id => let! r := ht_find hash t id in Ok (t, HPtr r)
  | HDelete a => let! t := ht_delete hash t a in Ok (t, HNone)
  | HTryDelete a => let! (t, b) := ht_try_delete hash t a in Ok (t, HBool b)
  | HDeleteId id => let! (t, b) := ht_delete_id hash t id in Ok (t, HBool b)
  | HForeach => let! l := ht_foreach t in Ok (t, HList l)
  | HCount => Ok (t, HNum (ht_n t))
  end.

Definition repr (hash : Z -> Z) (t : htab) (m : gmap Z Z) : Prop :=
  tbl_ok hash t (fun id a => m !! id = Some a) /\ ht_n t = Z.of_nat (size m) /\ ht_ext t = false /\
  (forall a, is_Some (ht_heap t !! a) -> exists id, m !! id = Some a) /\ ht_n t <= 2 ^ ht_pow t + 1.

Lemma gone_repr hash t t' m id a : repr hash t m -> m !! id = Some a ->
  gone hash t t' (fun id a => m !! id = Some a) id a -> repr hash t' (delete id m).
Proof.
  intros (Hok & Hn & He & Hh & Hl) Hm (Hok' & Hn' & He' & Hp' & Hout & Hfree). split; [|split; [|split; [|split]]].
  - eapply tab_ok_ext; [|exact Hok']. intros id' b. cbn. unfold removed. destruct (decide (id' = id)) as [->|Hne].
    + rewrite lookup_delete. split; [by intros [_ ?]|done].
    + rewrite lookup_delete_ne by done. tauto.
  - rewrite Hn', Hn. pose proof (map_size_delete_Some id m (mk_is_Some _ _ Hm)).
    assert (size m <> 0)%nat. { intros Hz. apply map_size_empty_inv in Hz. subst m. by rewrite lookup_empty in Hm. } lia.
  - congruence.
  - intros b Hb. destruct (decide (b = a)) as [->|Hba].
    { rewrite (Hfree He) in Hb. by destruct Hb. }
    destruct (decide (Exists (fun id' => m !! id' = Some b) (map_to_list m).*1)) as [Hx|Hx].
    + apply Exists_exists in Hx as (id' & _ & Hid'). exists id'. rewrite lookup_delete_ne; [done|]. intros <-. congruence.
    + assert (Hno : forall id', m !! id' <> Some b).
      { intros id' Hid'. apply Hx. apply Exists_exists. exists id'. split; [|done].
        apply elem_of_list_fmap. exists (id', b). split; [done|]. by apply elem_of_map_to_list. }
      exfalso. rewrite (Hout b Hno) in Hb. destruct (Hh b Hb) as (id' & ?). by apply (Hno id').
  - rewrite Hn', Hp'. lia.
Qed.

Lemma step_correct hash t m o : repr hash t m -> contract m o ->
  (exists t' r m', ht_step hash t o = Ok (t', r) /\ map_out m o r /\ map_step m o m' /\ repr hash t' m') \/
  (exists a, o = HDelete a /\ ht_step hash t o = Err OutOfBounds /\ overfull hash (ht_pow t) m).
Proof.
  intros HR Hk. pose proof HR as (Hok & Hn & He & Hh & Hl).
  destruct o as [a id|id|a|a|id| |]; cbn [contract map_step map_out ht_step] in *.
  - left. destruct Hk as [Hid Ha]. destruct (insert_spec hash t _ a id Hok) as (t' & Ht & Hok' & Hn' & He' & _ & Hp' & Hout).
    { destruct (ht_heap t !! a) eqn:E; [|done]. exfalso. destruct (Hh a) as (id' & ?); [eauto|]. by apply (Ha id'). }
    { intros b. congruence. }
    rewrite Ht. cbn [rbind]. exists t', HNone, (<[id := a]> m). split_and!; [done|done|done|].
    split; [|split; [|split; [|split]]].
    + eapply tab_ok_ext; [|exact Hok']. intros id' b. cbn. destruct (decide (id' = id)) as [->|Hne].
      * rewrite lookup_insert. rewrite Hid. split; [intros [?|[_ ->]]; done|]. intros [= ->]. by right.
      * rewrite lookup_insert_ne by done. split; [intros [?|[? _]]; done|by left].
    + rewrite Hn', Hn, map_size_insert_None by done. lia.
    + congruence.
    + intros b Hb. destruct (decide (b = a)) as [->|Hba]; [exists id; by rewrite lookup_insert|].
      destruct (decide (Exists (fun id' => m !! id' = Some b) (map_to_list m).*1)) as [Hx|Hx].
      * apply Exists_exists in Hx as (id' & _ & Hid'). exists id'. rewrite lookup_insert_ne; [done|]. intros <-. congruence.
      * assert (Hno : forall id', m !! id' <> Some b).
        { intros id' Hid'. apply Hx. apply Exists_exists. exists id'. split; [|done].
          apply elem_of_list_fmap. exists (id', b). split; [done|]. by apply elem_of_map_to_list. }
        exfalso. rewrite (Hout b Hno Hba) in Hb. destruct (Hh b Hb) as (id' & ?). by apply (Hno id').
    + rewrite Hn', Hp'. pose proof Hok as (P0 & _). destruct (decide _); [|lia]. rewrite Z.pow_add_r by lia.
      pose proof (Z.pow_pos_nonneg 2 (ht_pow t) ltac:(lia) P0). lia.
  - left. destruct (find_spec hash t _ id Hok) as (r & Hr & Hm). rewrite Hr. cbn [rbind].
    exists t, (HPtr r), m. split_and!; [done| |done|done]. f_equal. apply option_eq. exact Hm.
  - destruct Hk as (id & Hm). destruct (delete_spec hash t _ id a Hok Hm) as [(t' & Ht & Hg)|[Ht Hlong]].
    + left. rewrite Ht. cbn [rbind]. exists t', HNone, (delete id m). split_and!; [done|done|eauto|]. by eapply gone_repr.
    + right. exists a. rewrite Ht. split_and!; [done|done|]. pose proof Hok as (P0 & _).
      destruct Hlong as (i & l & Hnd & Hl' & Hlen). pose proof Hok as (_ & _ & G1 & _).
      (* the ids of the objects of [l] *)
      set (idof := fun a => match ht_heap t !! a with Some o => ho_id o | None => 0 end).
      assert (Hidof : forall b id', m !! id' = Some b -> idof b = id').
      { intros b id' Hb. destruct (G1 _ _ Hb) as (nx & Hnx). unfold idof. by rewrite Hnx. }
      exists i, (idof <$> l). split; [|split].
      * apply NoDup_fmap_2_strong; [|done]. intros x y Hx Hy Heq. destruct (Hl' x Hx) as (ix & Hix & _). destruct (Hl' y Hy) as (iy & Hiy & _).
        rewrite (Hidof _ _ Hix), (Hidof _ _ Hiy) in Heq. congruence.
      * by rewrite fmap_length.
      * intros id' Hid'. apply elem_of_list_fmap in Hid' as (b & -> & Hb). destruct (Hl' b Hb) as (ib & Hib & Hbk).
        rewrite (Hidof _ _ Hib). split; [eauto|]. rewrite <- Hbk. unfold bucket.
        replace (2 ^ ht_pow t - 1) with (Z.ones (ht_pow t)) by (rewrite Z.ones_equiv; lia). by rewrite Z.land_ones.
  - left. destruct Hk as (id & Hm). destruct (try_delete_spec hash t _ id a Hok Hm) as (t' & Ht & Hg).
    rewrite Ht. cbn [rbind]. exists t', (HBool true), (delete id m). split_and!; [done|done|eauto|]. by eapply gone_repr.
  - left. destruct (m !! id) as [a|] eqn:Em.
    + destruct (delete_id_spec hash t _ id a Hok Em) as (t' & Ht & Hg). rewrite Ht. cbn [rbind].
      exists t', (HBool true), (delete id m). split_and!; [done|done|done|]. by eapply gone_repr.
    + rewrite (delete_id_absent hash t _ id Hok) by congruence. cbn [rbind].
      exists t, (HBool false), m. split_and!; [done|done|by rewrite delete_notin|done].
  - left. destruct (foreach_spec hash t _ Hok) as (l & Hl1 & Hnd & Hm). rewrite Hl1. cbn [rbind].
    exists t, (HList l), m. split_and!; [done|eauto|done|done].
  - left. exists t, (HNum (ht_n t)), m. split_and!; [done|by rewrite Hn|done|done].
Qed.

(** * Runs *)
Fixpoint ht_run (hash : Z -> Z) (t : htab) (os : list hop) : res (htab * list hout) :=
  match os with
  | [] => Ok (t, [])
  | o :: os => let! (t, r) := ht_step hash t o in let! (t, rs) := ht_run hash t os in Ok (t, r :: rs)
  end.
(** the results [rs] of the calls [os] are those of a finite map that goes from [m] to [m'] *)
Fixpoint map_run (m : gmap Z Z) (os : list hop) (rs : list hout) (m' : gmap Z Z) : Prop :=
  match os, rs with
  | [], [] => m' = m
  | o :: os, r :: rs => map_out m o r /\ exists m1, map_step m o m1 /\ map_run m1 os rs m'
  | _, _ => False
  end.
Fixpoint contracts (m : gmap Z Z) (os : list hop) : Prop :=
  match os with
  | [] => True
  | o :: os => contract m o /\ forall m', map_step m o m' -> contracts m' os
  end.

Lemma run_correct hash : forall os t m, repr hash t m -> contracts m os ->
  (exists t' rs m', ht_run hash t os = Ok (t', rs) /\ map_run m os rs m' /\ repr hash t' m') \/
  (ht_run hash t os = Err OutOfBounds /\ exists os1 a os2 rs m1 pow,
     os = os1 ++ HDelete a :: os2 /\ map_run m os1 rs m1 /\ overfull hash pow m1).
Proof.
  induction os as [|o os IH]; intros t m HR Hk.
  - left. exists t, [], m. done.
  - destruct Hk as [Hk Hks]. cbn [ht_run].
    destruct (step_correct hash t m o HR Hk) as [(t1 & r & m1 & Hs & Ho & Hm & HR1)|(a & -> & Hs & Hov)].
    + rewrite Hs. cbn [rbind]. destruct (IH t1 m1 HR1 (Hks m1 Hm)) as [(t2 & rs & m2 & Hr & Hmr & HR2)|[Hr (os1 & a & os2 & rs & m2 & pow & -> & Hmr & Hov)]].
      * left. rewrite Hr. cbn [rbind]. exists t2, (r :: rs), m2. split; [done|]. split; [|done]. cbn. eauto.
      * right. rewrite Hr. split; [done|]. exists (o :: os1), a, os2, (r :: rs), m2, pow. split; [done|]. split; [|done]. cbn. eauto.
    + right. rewrite Hs. split; [done|]. exists [], a, os, [], m, (ht_pow t). done.
Qed.

Lemma create_repr hash pow : 0 <= pow -> repr hash (ht_create pow false) ∅.
Proof.
  intros Hp. split; [|split; [|split; [|split]]].
  - eapply tab_ok_ext; [|by apply tab_ok_empty]. intros id a. cbn. by rewrite lookup_empty.
  - by rewrite map_size_empty.
  - done.
  - intros a [x Hx]. cbn in Hx. by rewrite lookup_empty in Hx.
  - cbn. pose proof (Z.pow_nonneg 2 pow). lia.
Qed.

(** C22.  For every hash function and every initial size, a run of calls that
    respects the contract gives the results of a finite map, and n_obj and the
    table's load stay right.  The one exception is chained_hashtable_delete_v2's
    debugging printout: with more than 64 ids in one bucket it can overrun its
    array; see C22_delete_overflow_refuted. *)
Theorem C22_hash_table_partial : forall hash pow os, 0 <= pow -> contracts ∅ os ->
  (exists t rs m, ht_run hash (ht_create pow false) os = Ok (t, rs) /\ map_run ∅ os rs m /\
     ht_n t = Z.of_nat (size m) /\ ht_n t <= 2 ^ ht_pow t + 1) \/
  (ht_run hash (ht_create pow false) os = Err OutOfBounds /\
   exists os1 a os2 rs m pow', os = os1 ++ HDelete a :: os2 /\ map_run ∅ os1 rs m /\ overfull hash pow' m).
Proof.
  intros hash pow os Hp Hk. destruct (run_correct hash os _ _ (create_repr hash pow Hp) Hk) as [(t & rs & m & H1 & H2 & H3)|H]; [|by right].
  left. exists t, rs, m. destruct H3 as (_ & ? & _ & _ & ?). done.
Qed.

(** Without chained_hashtable_delete_v2 (try_delete and delete_obj_id do not print),
    or with at most 64 objects, there is no exception. *)
Definition no_delete (o : hop) : Prop := match o with HDelete _ => False | _ => True end.
Theorem C22_hash_table_no_delete : forall hash pow os, 0 <= pow -> contracts ∅ os -> Forall no_delete os ->
  exists t rs m, ht_run hash (ht_create pow false) os = Ok (t, rs) /\ map_run ∅ os rs m /\ ht_n t = Z.of_nat (size m).
Proof.
  intros hash pow os Hp Hk Hnd. destruct (C22_hash_table_partial hash pow os Hp Hk) as [(t & rs & m & H1 & H2 & H3 & _)|[_ Hbad]].
  - exists t, rs, m. done.
  - destruct Hbad as (os1 & a & os2 & rs & m & pow' & -> & _). apply Forall_app in Hnd as [_ Hnd]. by apply Forall_cons in Hnd as [? _].
Qed.

Fixpoint n_inserts (os : list hop) : nat :=
  match os with [] => 0 | HInsert _ _ :: os => S (n_inserts os) | _ :: os => n_inserts os end.
Lemma map_run_size : forall os rs m m', map_run m os rs m' -> (size m' <= size m + n_inserts os)%nat.
Proof.
  induction os as [|o os IH]; intros [|r rs] m m' Hr; cbn [map_run] in Hr; try done; [subst; cbn; lia|].
  destruct Hr as [_ (m1 & Hs & Hr)]. apply IH in Hr.
  assert (Hd : forall id, (size (delete id m) <= size m)%nat).
  { intros id. destruct (m !! id) eqn:E; [rewrite (map_size_delete_Some id m) by eauto; lia|by rewrite delete_notin]. }
  destruct o as [a id|id|a|a|id| |]; cbn [map_step n_inserts] in *.
  - subst m1. pose proof (map_size_insert id a m) as Hi. destruct (m !! id); cbn in Hi; lia.
  - subst; lia.
  - destruct Hs as (id & _ & ->). specialize (Hd id). lia.
  - destruct Hs as (id & _ & ->). specialize (Hd id). lia.
  - subst m1. specialize (Hd id). lia.
  - subst; lia.
  - subst; lia.
Qed.
Lemma n_inserts_app os1 os2 : n_inserts (os1 ++ os2) = (n_inserts os1 + n_inserts os2)%nat.
Proof. induction os1 as [|o os1 IH]; [done|]. destruct o; cbn; rewrite IH; done. Qed.

(** A table of at most 64 insertions never overruns, whatever the hash function. *)
Theorem C22_hash_table_small : forall hash pow os, 0 <= pow -> contracts ∅ os -> (n_inserts os <= 64)%nat ->
  exists t rs m, ht_run hash (ht_create pow false) os = Ok (t, rs) /\ map_run ∅ os rs m /\ ht_n t = Z.of_nat (size m).
Proof.
  intros hash pow os Hp Hk Hn. destruct (C22_hash_table_partial hash pow os Hp Hk) as [(t & rs & m & H1 & H2 & H3 & _)|[_ Hbad]].
  - exists t, rs, m. done.
  - exfalso. destruct Hbad as (os1 & a & os2 & rs & m & pow' & -> & Hr & (i & l & Hnd & Hl & Hin)).
    apply map_run_size in Hr. rewrite map_size_empty in Hr. rewrite n_inserts_app in Hn.
    assert (length l <= size m)%nat; [|lia].
    rewrite <- (size_dom (D := gset Z)). rewrite <- (size_list_to_set (C := gset Z) l) by done.
    apply subseteq_size. intros x Hx. apply elem_of_list_to_set in Hx. apply elem_of_dom. by apply Hin.
Qed.

(** an object drawn at random is a stored one *)
Theorem C22_random_object : forall hash t m fuel seed a seed', repr hash t m ->
  ht_rand_obj fuel t seed = Ok (a, seed') -> exists id, m !! id = Some a.
Proof. intros hash t m fuel seed a seed' (Hok & _) Hr. exact (rand_obj_spec hash t _ fuel seed a seed' Hok Hr). Qed.

(** A run that grows the table from one bucket, with collisions. *)
Definition ops_ex : list hop :=
  [HInsert 101 1; HInsert 102 2; HInsert 103 3; HInsert 104 5; HInsert 105 9; HFind 5; HFind 4; HForeach;
   HDelete 104; HDeleteId 9; HDeleteId 9; HTryDelete 101; HFind 1; HCount].
Example C22_ex_contract : contracts ∅ ops_ex.
Proof.
  assert (E : forall (m : gmap Z Z) a, Forall (fun p => p.2 <> a) (map_to_list m) -> forall id, m !! id <> Some a).
  { intros m a Hf id Hm. apply elem_of_map_to_list in Hm. eapply Forall_forall in Hf; [|exact Hm]. by apply Hf. }
  unfold ops_ex. cbn [contracts contract map_step].
  repeat match goal with
  | |- _ /\ _ => split
  | |- forall m', m' = _ -> _ => intros m' ->
  | |- forall m', (exists id, _) -> _ => intros m' (id & Hid & ->)
  | |- <[_ := _]> _ !! _ = None => vm_compute; reflexivity
  | |- ∅ !! _ = None => vm_compute; reflexivity
  | |- forall id, _ !! id <> Some _ => apply E; vm_compute; repeat (constructor; [done|]); constructor
  | |- True => exact I
  end.
  - exists 5. done.
  - exists 1. rewrite lookup_delete_ne by done. rewrite lookup_delete_ne by done. rewrite lookup_delete_ne; [done|].
    intros ->. vm_compute in Hid. done.
  - intros m' _. split; [done|]. intros m2 _. split; [done|]. by intros m3 _.
Qed.
Example C22_ex :
  (let! (t, rs) := ht_run (fun id => id * 4) (ht_create 0 false) ops_ex in Ok (ht_pow t, rs)) =
  Ok (2, [HNone; HNone; HNone; HNone; HNone; HPtr (Some 104); HPtr None; HList [105; 104; 102; 101; 103];
          HNone; HBool true; HBool false; HBool true; HPtr None; HNum 2]).
Proof. vm_compute. reflexivity. Qed.

(** 66 colliding ids, then the deletion of an object deep in its chain: the
    debugging printout writes past its array of 64 ids. *)
Definition colliding (n : nat) : list hop := (fun i => HInsert (1000 + i) i) <$> seqZ 1 (Z.of_nat n).
Theorem C22_delete_overflow_refuted : exists hash os a,
  (let! (t, _) := ht_run hash (ht_create 4 false) os in ht_find hash t 1) = Ok (Some a) /\
  ht_run hash (ht_create 4 false) (os ++ [HDelete a]) = Err OutOfBounds.
Proof. exists (fun _ => 7), (colliding 66), 1001. split; vm_compute; reflexivity. Qed.

(** * Objects owned by the caller (insert_obj) *)
(** An object that is not in the table and whose hash_next is NULL *)
Theorem C22_insert_obj_partial : forall hash t (m : gmap Z Z) a id,
  tbl_ok hash t (fun id a => m !! id = Some a) -> m !! id = None -> (forall id', m !! id' <> Some a) ->
  ht_heap t !! a = Some (mkHo id None) ->
  exists t', ht_insert_obj hash t a = Ok t' /\ tbl_ok hash t' (fun id' b => <[id := a]> m !! id' = Some b) /\
    forall id', ht_find hash t' id' = Ok (<[id := a]> m !! id').
Proof.
  intros hash t m a id Hok Hid Ha Hh.
  destruct (insert_obj_spec hash t _ a id Hok Hh ltac:(intros b; congruence) Ha) as (t' & Ht & Hok' & _).
  assert (Hok2 : tbl_ok hash t' (fun id' b => <[id := a]> m !! id' = Some b)).
  { eapply tab_ok_ext; [|exact Hok']. intros id' b. cbn. destruct (decide (id' = id)) as [->|Hne].
    - rewrite lookup_insert, Hid. split; [intros [?|[_ ->]]; done|]. intros [= ->]. by right.
    - rewrite lookup_insert_ne by done. split; [intros [?|[? _]]; done|by left]. }
  exists t'. split; [done|]. split; [done|]. intros id'. destruct (find_spec hash t' _ id' Hok2) as (r & Hr & Hm).
  rewrite Hr. f_equal. apply option_eq. exact Hm.
Qed.
(** Deleting an object of the caller leaves its hash_next set; inserting it again
    into an empty bucket links the bucket to objects that are no longer there:
    a deleted id is found. *)
Definition ext0 : htab := mkHt {[11 := mkHo 1 None; 12 := mkHo 2 None]} ∅ 2 0 true 16.
Theorem C22_insert_obj_refuted : exists hash,
  (let! t := ht_insert_obj hash ext0 11 in let! t := ht_insert_obj hash t 12 in
   let! t := ht_delete hash t 12 in let! t := ht_delete hash t 11 in
   let! r1 := ht_find hash t 1 in
   let! t := ht_insert_obj hash t 12 in
   let! r2 := ht_find hash t 1 in Ok (r1, r2)) = Ok (None, Some 11).
Proof. exists (fun _ => 0). vm_compute. reflexivity. Qed.
