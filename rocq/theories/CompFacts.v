(** Facts about queue contents shared by the caches built from several queues. *)
From stdpp Require Import gmap list numbers fin_maps.
From Verif Require Import Base Driver ModelQueue QueueFacts QList SpecApi SpecComp.
Open Scope Z_scope.

Definition disj (l1 l2 : qlist) : Prop := forall id, id ∈ ids l1 -> id ∈ ids l2 -> False.

Lemma disj_comm l1 l2 : disj l1 l2 -> disj l2 l1.
Proof. intros H id H1 H2. by apply (H id). Qed.
Lemma disj_sub l1 l2 l1' l2' : (forall id, id ∈ ids l1' -> id ∈ ids l1) ->
  (forall id, id ∈ ids l2' -> id ∈ ids l2) -> disj l1 l2 -> disj l1' l2'.
Proof. intros H1 H2 H id ? ?. apply (H id); auto. Qed.

(** [G id size]: an arbitrary condition on the sizes of the requests for each
    id; every queued object keeps satisfying it. *)
Definition allG (G : Z -> Z -> Prop) (l : qlist) : Prop := Forall (fun x => G x.1 (o_size x.2)) l.

Lemma allG_elem G l id o : allG G l -> (id, o) ∈ l -> G id (o_size o).
Proof. unfold allG. rewrite Forall_forall. intros H Ho. by apply (H (id, o)). Qed.
Lemma allG_del G id l : allG G l -> allG G (l_del id l).
Proof. apply Forall_del. Qed.
Lemma allG_app G l1 l2 : allG G (l1 ++ l2) <-> allG G l1 /\ allG G l2.
Proof. apply Forall_app. Qed.
Lemma allG_cons (G : Z -> Z -> Prop) x l : G x.1 (o_size x.2) -> allG G l -> allG G (x :: l).
Proof. intros. by apply Forall_cons. Qed.
Lemma allG_fits G sz md need l1 l : fits sz md need l1 l -> allG G l -> allG G l1.
Proof. intros (l2 & -> & _) H. by apply allG_app in H as [? _]. Qed.

Lemma o_size_of_req r md : req_ok md r -> 0 <= md -> o_size (obj_of_req r) = r_size r.
Proof. intros [? ?] ?. cbn. unfold u32. rewrite Z.mod_small; lia. Qed.

Lemma fits_ids sz md need l1 l : fits sz md need l1 l -> forall id, id ∈ ids l1 -> id ∈ ids l.
Proof. intros (l2 & -> & _) id ?. rewrite ids_app. apply elem_of_app. by left. Qed.
Lemma fits_length sz md need l1 l : fits sz md need l1 l -> (length l1 <= length l)%nat.
Proof. intros (l2 & -> & _). rewrite app_length. lia. Qed.

Lemma subget_fuel sz md s l : qok sz md s l -> (length l <= Z.to_nat (q_nobj s))%nat.
Proof. intros HQ. unfold q_nobj. rewrite (qok_nobj _ _ _ _ HQ). lia. Qed.

Lemma del_sub id l : forall j, j ∈ ids (l_del id l) -> j ∈ ids l.
Proof. intros j Hj. by apply elem_ids_del in Hj as [? _]. Qed.

Lemma bytes_del_le md sz s l id : 0 <= md -> qok sz md s l -> bytes md (l_del id l) <= bytes md l.
Proof.
  intros Hmd HQ. destruct (decide (id ∈ ids l)) as [Hin|Hn]; [|by rewrite l_del_notin].
  apply ids_elem in Hin as (o & Ho). rewrite (bytes_del _ _ o); [|apply HQ|done].
  pose proof (qok_osz _ _ _ _ HQ) as Hosz. rewrite Forall_forall in Hosz. apply Hosz in Ho as [? _]. cbn in *. lia.
Qed.

Lemma length_del_le id (l : qlist) : (length (l_del id l) <= length l)%nat.
Proof. apply filter_length. Qed.

Lemma in_q (O : ops qstate) sz m s l : qok sz m s l -> op_find O s = fifo_find s \/ op_find O s = lru_find s ->
  forall id, resident O s id <-> id ∈ ids l.
Proof.
  intros HQ HO id. unfold resident. split.
  - intros H. destruct (H (mkReq id 0 0 0 0) eq_refl) as (s' & Hf).
    destruct HO as [HO|HO]; rewrite HO in Hf.
    + rewrite (qok_find_false _ _ _ _ HQ) in Hf. injection Hf as _ Hf. by apply bool_decide_eq_true in Hf.
    + rewrite (qok_lru_false _ _ _ _ HQ) in Hf. injection Hf as _ Hf. by apply bool_decide_eq_true in Hf.
  - intros Hid r <-. exists s. destruct HO as [HO|HO]; rewrite HO.
    + rewrite (qok_find_false _ _ _ _ HQ). by rewrite bool_decide_eq_true_2.
    + rewrite (qok_lru_false _ _ _ _ HQ). by rewrite bool_decide_eq_true_2.
Qed.

(** The contents of a queue as (id, size) pairs. *)
Definition szs (l : qlist) : list (Z * Z) := (fun x => (x.1, o_size x.2)) <$> l.

Lemma szs_ids l : (szs l).*1 = ids l.
Proof. unfold ids, szs. rewrite <- list_fmap_compose. by apply list_fmap_ext. Qed.
Lemma szs_length l : length (szs l) = length l.
Proof. apply fmap_length. Qed.
Lemma szs_bytes m l : bytes m l = total_bytes (szs l) + m * Z.of_nat (length l).
Proof.
  induction l as [|x l IH]; [cbn; lia|]. rewrite bytes_cons, IH.
  change (total_bytes (szs (x :: l))) with (o_size x.2 + total_bytes (szs l)). cbn [length]. lia.
Qed.
Lemma szs_G G l : allG G l -> Forall (fun x => G x.1 x.2) (szs l).
Proof. intros H. apply Forall_fmap. exact H. Qed.
