(** C18: ARC. *)
From stdpp Require Import gmap list numbers fin_maps.
From Coq Require Import QArith Qround.
From Verif Require Import Base Driver ModelARC SpecARC ARCFacts.
Open Scope Z_scope.

Definition arc_md (consider : bool) : Z := if consider then 40 else 0.

Lemma arc_md_nonneg b : 0 <= arc_md b.
Proof. destruct b; cbn; lia. Qed.

(** Two roundings: none, and down to an integer. *)
Lemma rounding_exact : rounding (fun q => q).
Proof. split; [done|apply Qeq_refl|intros; apply Qeq_refl]. Qed.
Lemma rounding_floor : rounding (fun q => inject_Z (Qfloor q)).
Proof.
  split.
  - intros x y H. rewrite <- Zle_Qle. by apply Qfloor_resp_le.
  - apply Qeq_refl.
  - intros x. by rewrite Qfloor_Z.
Qed.

(** The bytes charged for the objects of a list, read from the table. *)
Definition charged (c : cache) (ids : list Z) : Z :=
  foldr (fun id n => match c_tbl c !! id with Some o => o_size o + c_md c + n | None => n end) 0 ids.

Lemma own_charged (c : cache) md k g l : c_md c = md -> own (c_tbl c) md k g l -> charged c l.*1 = wt l.
Proof.
  intros Hm. induction 1 as [|x l [Hx (o & Ho & Hs & _)] _ IH]; [done|].
  rewrite wt_cons, fmap_cons. unfold charged in *. cbn [foldr]. rewrite Ho, IH. lia.
Qed.
Lemma charged_app c l1 l2 : charged c (l1 ++ l2) = charged c l1 + charged c l2.
Proof.
  induction l1 as [|x l IH]; [done|]. unfold charged in *. cbn [foldr app]. rewrite IH. destruct (c_tbl c !! x); lia.
Qed.

(** ** The invariant *)

(** For every program of calls that ARC survives, with any admission policy
    and any rounding of the double parameter p: no crash; the bytes charged
    are those of the two live lists and within the cache size; p is between 0
    and the cache size; the four lists share no object and list none twice.
    Missing: the calls that [ARC_call] excludes, refuted below. *)
Theorem C18_invariant_partial rnd consider cap adm cs fuel :
  rounding rnd -> 0 <= cap -> (length cs <= fuel)%nat ->
  Forall (ARC_call cap (arc_md consider)) cs ->
  exists s os,
    run (arc_ops rnd) fuel (arc_init consider cap adm) cs = Ok (s, os) /\
    c_occ (ar_c s) <= cap /\
    c_occ (ar_c s) = charged (ar_c s) (ar_t1 s ++ ar_t2 s) /\
    c_nobj (ar_c s) = Z.of_nat (length (ar_t1 s ++ ar_t2 s)) /\
    (0 <= ar_p s)%Q /\ (ar_p s <= rnd (inject_Z cap))%Q /\
    NoDup (ar_t1 s ++ ar_b1 s ++ ar_t2 s ++ ar_b2 s) /\
    (forall id, id ∈ ar_t1 s ++ ar_b1 s ++ ar_t2 s ++ ar_b2 s -> is_Some (c_tbl (ar_c s) !! id)).
Proof.
  intros [Hm Hz Hi] Hcap Hf Hcs.
  destruct (arel_init rnd cap (arc_md consider) Hm Hz Hcap consider adm eq_refl) as [H0 _].
  destruct (arc_run_ok rnd cap (arc_md consider) Hm Hz Hi Hcap (arc_md_nonneg _) cs _ _ _ _ _ _ fuel H0 Hcs)
    as (s & os & t1 & b1 & t2 & b2 & z & Hr & H & Hw & _); [cbn; lia|rewrite !wt_nil; lia|].
  exists s, os.
  destruct H as [E1 E2 E3 E4 Hnd Hcov O1 O2 O3 O4 Oz S1 S2 G1 G2 Hocc Hno Hsz Hmd Hp].
  split_and!; auto; try apply Hp.
  - lia.
  - rewrite charged_app, E1, E3, (own_charged _ _ _ _ _ Hmd O1), (own_charged _ _ _ _ _ Hmd O3). lia.
  - rewrite app_length, E1, E3, !fmap_length. done.
  - rewrite E1, E2, E3, E4, <- !fmap_app.
    assert (X : forall id, (cnt id (t1 ++ b1 ++ t2 ++ b2) <= 1)%nat).
    { intros id. specialize (Hnd id). unfold sum5 in Hnd. rewrite !cnt_app. lia. }
    revert X. generalize (t1 ++ b1 ++ t2 ++ b2). intros l X.
    induction l as [|x l IH]; [constructor|]. cbn. constructor.
    + rewrite <- cnt_zero. specialize (X x.1). rewrite cnt_cons, decide_True in X by done. lia.
    + apply IH. intros id. specialize (X id). rewrite cnt_cons in X. lia.
  - intros id. rewrite E1, E2, E3, E4, <- !fmap_app, elem_of_list_fmap. intros ([i c] & -> & Hin).
    cbn. rewrite !elem_of_app in Hin.
    destruct Hin as [Hin|[Hin|[Hin|Hin]]]; apply elem_of_list_split in Hin as (l1 & l2 & ->).
    + destruct (own_lookup _ _ _ _ _ _ _ _ O1) as (_ & o & -> & _). eauto.
    + destruct (own_lookup _ _ _ _ _ _ _ _ O2) as (_ & o & -> & _). eauto.
    + destruct (own_lookup _ _ _ _ _ _ _ _ O3) as (_ & o & -> & _). eauto.
    + destruct (own_lookup _ _ _ _ _ _ _ _ O4) as (_ & o & -> & _). eauto.
Qed.

(** ** The machine *)

(** On every trace whose objects charge between one byte and the cache size,
    without admission policy, the code is the ARC machine of SpecARC.v: same
    hits, same four lists, same target.  The machine has no other way to run. *)
Theorem C18_machine_partial rnd consider cap rs fuel :
  rounding rnd -> 0 <= cap -> (length rs <= fuel)%nat ->
  Forall (fun r => 0 <= r_size r /\ r_size r + arc_md consider < 2 ^ 32 /\
                   0 < r_size r + arc_md consider <= cap) rs ->
  exists s hits a,
    run (arc_ops rnd) fuel (arc_init consider cap AdmNone) (map CGet rs) = Ok (s, map OBool hits) /\
    REQUESTS rnd cap (arc_md consider) ARC_start rs hits a /\
    ar_t1 s = (T1 a).*1 /\ ar_b1 s = (B1 a).*1 /\ ar_t2 s = (T2 a).*1 /\ ar_b2 s = (B2 a).*1 /\
    ar_p s = p a /\ c_occ (ar_c s) = wt (T1 a) + wt (T2 a) /\ c_occ (ar_c s) <= cap /\
    (forall hits' a', REQUESTS rnd cap (arc_md consider) ARC_start rs hits' a' -> hits' = hits /\ a' = a).
Proof.
  intros [Hm Hz Hi] Hcap Hf Hrs.
  destruct (arel_init rnd cap (arc_md consider) Hm Hz Hcap consider AdmNone eq_refl) as [_ H0].
  destruct (arc_gets_ok rnd cap (arc_md consider) Hm Hz Hi Hcap (arc_md_nonneg _) rs _ _ fuel (H0 eq_refl))
    as (s & bs & a & Hr & Hcl & Hreq & Hw & Hu).
  { eapply Forall_impl; [exact Hrs|]. intros r (? & ? & ?). split; [by split|done]. }
  { cbn. lia. }
  { cbn. lia. }
  exists s, bs, a. destruct Hcl as (H & _ & _ & _ & _ & Hp & _).
  split_and!; auto; try apply H.
  by rewrite (a_occ _ _ _ _ _ _ _ _ _ H).
Qed.


(** ** to_evict and evict agree *)

(** In every state such a program reaches, for every request that fits:
    evict takes out of the cache the object to_evict named, and no other. *)
Theorem C36_arc rnd consider cap adm cs fuel s os r v :
  rounding rnd -> 0 <= cap -> (length cs <= fuel)%nat ->
  Forall (ARC_call cap (arc_md consider)) cs -> r_size r + arc_md consider <= cap ->
  run (arc_ops rnd) fuel (arc_init consider cap adm) cs = Ok (s, os) ->
  0 < c_nobj (ar_c s) ->
  arc_to_evict rnd s r = Ok (s, v) ->
  exists x s', v = Some x /\ arc_evict rnd s r = Ok s' /\ x ∈ ar_t1 s ++ ar_t2 s /\
    forall id, id ∈ ar_t1 s' ++ ar_t2 s' <-> id ∈ ar_t1 s ++ ar_t2 s /\ id <> x.
Proof.
  intros [Hm Hz Hi] Hcap Hf Hcs Hr Hrun Hn Hv.
  destruct (arel_init rnd cap (arc_md consider) Hm Hz Hcap consider adm eq_refl) as [H0 _].
  destruct (arc_run_ok rnd cap (arc_md consider) Hm Hz Hi Hcap (arc_md_nonneg _) cs _ _ _ _ _ _ fuel H0 Hcs)
    as (s0 & os0 & t1 & b1 & t2 & b2 & z & Hr0 & H & Hw & _); [cbn; lia|rewrite !wt_nil; lia|].
  rewrite Hrun in Hr0. injection Hr0 as <- <-.
  pose proof (own_wt _ _ _ _ _ (a_o1 _ _ _ _ _ _ _ _ _ H)). pose proof (own_wt _ _ _ _ _ (a_o3 _ _ _ _ _ _ _ _ _ H)).
  destruct (arc_evict_ok rnd cap (arc_md consider) s t1 b1 t2 b2 z r H)
    as (s' & t1' & b1' & t2' & b2' & x & He & Hev & Hto & _); [|done|].
  { rewrite (a_nobj _ _ _ _ _ _ _ _ _ H) in Hn.
    pose proof (own_total _ _ _ _ _ (a_o1 _ _ _ _ _ _ _ _ _ H)).
    pose proof (own_total _ _ _ _ _ (a_o3 _ _ _ _ _ _ _ _ _ H)). lia. }
  rewrite Hto in Hv. injection Hv as <-. exists x, s'.
  clear H1 H2. destruct Hev as [H1 Hk Hd1 Hd2 Hsub Hlive Hlen Hwt].
  rewrite (a_t1 _ _ _ _ _ _ _ _ _ H), (a_t2 _ _ _ _ _ _ _ _ _ H),
    (a_t1 _ _ _ _ _ _ _ _ _ H1), (a_t2 _ _ _ _ _ _ _ _ _ H1), <- !fmap_app.
  assert (Hin : forall i (a b : list (Z * Z)), i ∈ (a ++ b).*1 <-> (1 <= cnt i a + cnt i b)%nat).
  { intros i a b. rewrite <- cnt_app. pose proof (cnt_zero i (a ++ b)).
    destruct (decide (cnt i (a ++ b) = 0%nat)) as [e|e].
    - split; [|lia]. intros X. by apply H2 in e.
    - split; [lia|]. intros _. destruct (decide (i ∈ (a ++ b).*1)); [done|]. by destruct e; apply H2. }
  pose proof (a_nd _ _ _ _ _ _ _ _ _ H) as Hnd. unfold sum5 in Hnd.
  split_and!; auto.
  - apply Hin. specialize (Hlive x). rewrite decide_True in Hlive by done. lia.
  - intros id. rewrite !Hin. specialize (Hlive id). specialize (Hnd id).
    destruct (decide (x = id)) as [->|Hne].
    + split; [lia|intros [_ ?]; done].
    + split; [intros; split; [lia|congruence]|intros [? _]; lia].
Qed.

(** ** What the other calls do *)

Definition rq (id size : Z) : req := mkReq id size 0 0 0.
Local Notation exact := (fun q : Q => q).

(** find without update reads through a null pointer whenever the object is
    neither cached nor a ghost: lines 223-227. *)
Theorem C18_find_false_refuted rnd s r :
  c_tbl (ar_c s) !! r_id r = None -> op_find (arc_ops rnd) s r false = Err NullDeref.
Proof. intros H. cbn. unfold arc_find, cache_find_base. by rewrite H, H. Qed.
Example C18_find_false_ex :
  run (arc_ops exact) 10 (arc_init true 100 AdmNone) [CFind (rq 1 1) false] = Err NullDeref.
Proof. reflexivity. Qed.

(** evict for a request larger than the cache dereferences a null pointer when
    no object was requested only once: L1 counts as full though it is empty. *)
Theorem C18_evict_big_refuted :
  exists cs r s os, Forall (ARC_call 10 0) cs /\
    run (arc_ops exact) 10 (arc_init false 10 AdmNone) cs = Ok (s, os) /\ c_nobj (ar_c s) = 1 /\
    step (arc_ops exact) 10 s (CEvict r) = Err NullDeref.
Proof.
  exists [CGet (rq 1 5); CGet (rq 1 5)], (rq 2 20). eexists _, _. split_and!.
  - repeat (apply Forall_cons; split; [cbn; unfold req_ok; cbn; lia|]). constructor.
  - vm_compute. reflexivity.
  - reflexivity.
  - vm_compute. reflexivity.
Qed.

(** A cached object of no bytes, requested twice: evict dereferences a null
    pointer, because the second list counts as empty. *)
Theorem C18_evict_zero_refuted :
  exists s os, run (arc_ops exact) 10 (arc_init false 10 AdmNone) [CGet (rq 1 0); CGet (rq 1 0)] = Ok (s, os) /\
    c_nobj (ar_c s) = 1 /\ step (arc_ops exact) 10 s (CEvict (rq 2 1)) = Err NullDeref.
Proof.
  eexists _, _. split_and!.
  - vm_compute. reflexivity.
  - reflexivity.
  - vm_compute. reflexivity.
Qed.

(** remove says it removed an object that was not cached (it was a ghost),
    says so again when asked again, and the second time the ghost byte count
    goes below zero. *)
Theorem C18_remove_ghost_refuted :
  exists s os, Forall (ARC_call 2 0) [CGet (rq 1 1); CGet (rq 1 1); CGet (rq 2 1); CGet (rq 3 1)] /\
    run (arc_ops exact) 10 (arc_init false 2 AdmNone)
      [CGet (rq 1 1); CGet (rq 1 1); CGet (rq 2 1); CGet (rq 3 1)] = Ok (s, os) /\
    2 ∉ ar_t1 s ++ ar_t2 s /\
    exists s1 s2, step (arc_ops exact) 10 s (CRemove 2) = Ok (s1, OBool true) /\
      step (arc_ops exact) 10 s1 (CRemove 2) = Ok (s2, OBool true) /\
      is_Some (c_tbl (ar_c s2) !! 2) /\ ar_b1 s2 = [] /\ ar_g1 s2 = -1.
Proof.
  eexists _, _. split_and!.
  - repeat (apply Forall_cons; split; [cbn; unfold req_ok; cbn; lia|]). constructor.
  - vm_compute. reflexivity.
  - vm_compute. intros H. repeat (apply elem_of_cons in H as [H|H]; [discriminate|]). by apply elem_of_nil in H.
  - eexists _, _. split_and!.
    + vm_compute. reflexivity.
    + vm_compute. reflexivity.
    + vm_compute. eauto.
    + reflexivity.
    + reflexivity.
Qed.

(** A hit in the second ghost list that is then refused (the object has grown
    beyond the cache size) leaves its flag behind.  The next miss, of an object
    in no list, evicts from T1 although T1 is not over its target and T2 is
    not empty. *)
Definition stale_trace : list req :=
  [rq 6 1; rq 1 1; rq 6 9; rq 4 1; rq 5 1; rq 1 1; rq 4 1; rq 6 9].
Theorem C18_stale_flag_refuted :
  exists s os, Forall (fun r => 0 < r_size r) stale_trace /\
    run (arc_ops exact) 10 (arc_init false 3 AdmNone) (map CGet stale_trace) = Ok (s, os) /\
    2 ∉ ar_t1 s ++ ar_b1 s ++ ar_t2 s ++ ar_b2 s /\ ar_t2 s <> [] /\
    (ar_s1 s = charged (ar_c s) (ar_t1 s) /\ inject_Z (ar_s1 s) <= ar_p s)%Q /\
    exists s', arc_evict exact s (rq 2 1) = Ok s' /\ ar_t1 s' <> ar_t1 s /\ ar_t2 s' = ar_t2 s.
Proof.
  eexists _, _. split_and!.
  - repeat (apply Forall_cons; split; [cbn; lia|]). constructor.
  - vm_compute. reflexivity.
  - vm_compute. intros H. repeat (apply elem_of_cons in H as [H|H]; [discriminate|]). by apply elem_of_nil in H.
  - vm_compute. discriminate.
  - reflexivity.
  - vm_compute. discriminate.
  - eexists. split_and!.
    + vm_compute. reflexivity.
    + vm_compute. discriminate.
    + reflexivity.
Qed.

(** ** Examples *)

(** A trace through every list: hits in both ghost lists move the target. *)
Definition arc_trace : list req :=
  [rq 1 1; rq 1 1; rq 2 1; rq 3 1; rq 2 1; rq 1 1; rq 3 1].
Definition arc_view (x : res (arc * list obs)) :=
  match x with
  | Ok (s, os) => Some (ar_t1 s, ar_b1 s, ar_t2 s, ar_b2 s, Qred (ar_p s), os)
  | Err _ => None
  end.
Example C18_trace_ok : Forall (fun r => 0 <= r_size r /\ r_size r + arc_md false < 2 ^ 32 /\
                   0 < r_size r + arc_md false <= 2) arc_trace.
Proof. repeat (apply Forall_cons; split; [cbn; lia|]). constructor. Qed.
Example C18_trace_ex :
  arc_view (run (arc_ops exact) 10 (arc_init false 2 AdmNone) (map CGet arc_trace)) =
    Some ([], [], [3; 1], [2], 1%Q,
      [OBool false; OBool true; OBool false; OBool false; OBool false; OBool false; OBool false]).
Proof. vm_compute. reflexivity. Qed.
Example C18_trace_mid :
  arc_view (run (arc_ops exact) 10 (arc_init false 2 AdmNone) (map CGet (take 5 arc_trace))) =
    Some ([3], [], [2], [1], 1%Q, [OBool false; OBool true; OBool false; OBool false; OBool false]).
Proof. vm_compute. reflexivity. Qed.

(** A program of all the calls [ARC_call] allows, with metadata and rounding. *)
Definition arc_prog : list call :=
  [CGet (rq 1 10); CGet (rq 1 10); CGet (rq 2 20); CGet (rq 3 15); CFind (rq 2 20) true; CRemove 2;
   CGet (rq 2 20); CToEvict (rq 4 1); CEvict (rq 4 1); CRemove 9].
Example C18_prog_ok : Forall (ARC_call 120 (arc_md true)) arc_prog.
Proof. repeat (apply Forall_cons; split; [cbn; unfold req_ok; cbn; try done; lia|]). constructor. Qed.
Example C18_prog_ex :
  arc_view (run (arc_ops (fun q => inject_Z (Qfloor q))) 10 (arc_init true 120 AdmNone) arc_prog) =
    Some ([], [2], [1], [], 1%Q,
      [OBool false; OBool true; OBool false; OBool false; OBool false; OBool false; OBool false;
       OVictim (Some 2); OUnit; OBool false]).
Proof. vm_compute. reflexivity. Qed.
