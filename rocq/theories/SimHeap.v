(** Belady and Size: caches whose victim is the top of a heap. *)
From stdpp Require Import gmap list numbers fin_maps.
From Verif Require Import Base Driver Abs AbsFacts Sim ModelPQ PQFacts.
Open Scope Z_scope.

(** the farthest next access, as doubles compare it *)
Definition pol_max_dbl (ekey : entry -> Z) : policy := fun m v =>
  forall e id e', m !! v = Some e -> m !! id = Some e' -> dbl (ekey e') <= dbl (ekey e).

Section Heap.
  Context (key : req -> Z) (ekey : entry -> Z) (bad : req -> bool) (cap : Z) (P : req -> Prop).
  Context (HP : forall r, P r -> req_ok 0 r /\ bad r = false).
  Context (Kf : forall t r, ekey (fresh t r) = key r) (Kt : forall t r e, ekey (touch t r e) = key r).

  Definition pris (m : gmap Z entry) : gmap Z Z := (fun e => dbl (ekey e)) <$> m.

  Definition hrel (s : hstate) (a : abs) : Prop :=
    brel cap 0 (h_c s) a /\ pq_ok (h_q s) (pris (a_m a)).

  Lemma heap_pop_rel s t m a r : abs_ok cap 0 (mkAbs t m a) -> hrel s (mkAbs t m a) -> m <> ∅ ->
    exists v s2, heap_to_evict s r = Ok (s, Some v) /\ is_Some (m !! v) /\ pol_max_dbl ekey m v /\
      heap_evict s r = Ok s2 /\ hrel s2 (mkAbs t (delete v m) a).
  Proof.
    intros Hok [Hb Hq] Hne. destruct s as [c q]. cbn in *.
    destruct (pq_pop_ok q (pris m) Hq) as (q' & v & p & Hpeek & Hpop & Hv & Hmax & Hok').
    { unfold pris. intros He. by apply fmap_empty_inv in He. }
    unfold pris in Hv. rewrite lookup_fmap in Hv. destruct (m !! v) as [e|] eqn:E; [|done].
    cbn in Hv. injection Hv as Hv.
    destruct (brel_some _ _ _ _ _ _ Hb E) as (o & Ho & _).
    destruct (brel_remove _ _ _ _ _ _ _ _ Hok Hb E) as (c' & Hc & Hb' & _).
    exists v. unfold heap_to_evict, heap_evict. cbn. rewrite Hpeek, Hpop. cbn [rbind]. rewrite Ho.
    unfold cache_evict_base. rewrite Hc. cbn [rbind]. eexists.
    split_and!; [done|eauto| |done|].
    - intros e0 id e' He0 He'. rewrite E in He0. injection He0 as <-.
      rewrite Hv. apply (Hmax id). unfold pris. by rewrite lookup_fmap, He'.
    - split; [done|]. cbn. unfold pris. rewrite fmap_delete. done.
  Qed.

  Lemma heap_sim : simulation (pol_max_dbl ekey) (heap_ops key bad) cap 0 P hrel.
  Proof.
    constructor; cbn.
    - intros r Hr. apply HP in Hr. apply Hr.
    - intros s a [H _]. apply H.
    - intros s a [H _]. apply H.
    - intros s a [H _]. apply H.
    - intros s a [H _]. apply H.
    - intros s a [H1 H2]. split; [by apply brel_tick|done].
    - intros s t m a [H1 H2]. split; [by eapply brel_clock|done].
    - intros [c q] a r [H1 H2]. unfold heap_find. cbn. rewrite (brel_find_false _ _ _ _ _ H1).
      by rewrite andb_false_r.
    - intros [c q] t m a r e Hok [H1 H2] He. unfold heap_find. cbn in *.
      destruct (brel_find_hit _ _ _ _ _ _ _ _ H1 He) as (c' & -> & Hb & _). cbn.
      destruct (pq_change_ok q (pris m) (r_id r) (dbl (key r)) H2) as (q' & -> & Hq').
      { unfold pris. rewrite lookup_fmap, He. cbn. eauto. }
      cbn. eexists. split; [done|]. split; [done|]. cbn. unfold pris. rewrite fmap_insert, Kt. done.
    - intros [c q] a r [H1 H2] Hn. unfold heap_find. cbn in *.
      rewrite (brel_find_miss _ _ _ _ _ _ H1 Hn). cbn. eexists. split; [done|]. done.
    - intros [c q] t m a r [H1 H2]. unfold heap_can_insert. cbn in *.
      destruct (brel_can _ _ _ _ _ _ r H1) as (c' & -> & Hb & _). eexists. split; [done|]. done.
    - intros [c q] t m a r Hok [H1 H2] Hn Hr Hfit. destruct (HP r Hr) as [Hrq Hbad].
      unfold heap_insert. rewrite Hbad. cbn in *.
      destruct (brel_insert _ _ _ _ _ _ _ H1 Hn Hrq) as (c' & -> & Hb & _); [lia|]. cbn.
      destruct (pq_insert_ok q (pris m) (r_id r) (dbl (key r)) H2) as (q' & -> & Hq').
      { unfold pris. by rewrite lookup_fmap, Hn. }
      cbn. eexists. split; [done|]. split; [done|]. cbn. unfold pris. rewrite fmap_insert, Kf. done.
    - intros s t m a r Hok HR Hne.
      destruct (heap_pop_rel s t m a r Hok HR Hne) as (v & s2 & H1 & H2 & H3 & H4 & H5).
      exists s, v, s2. split_and!; auto.
      intros r'. exists s2. split; [|done]. rewrite <- H4. done.
    - intros [c q] t m a id Hok [H1 H2]. unfold heap_remove. cbn in *.
      destruct (m !! id) as [e|] eqn:E.
      + destruct (brel_some _ _ _ _ _ _ H1 E) as (o & -> & _).
        destruct (pq_remove_ok q (pris m) id H2) as (q' & -> & Hq').
        { unfold pris. rewrite lookup_fmap, E. cbn. eauto. }
        cbn. destruct (brel_remove _ _ _ _ _ _ _ _ Hok H1 E) as (c' & -> & Hb' & _). cbn.
        eexists. split; [done|]. split; [done|].
        cbn. unfold pris. by rewrite fmap_delete.
      + rewrite (brel_none _ _ _ _ _ H1 E). rewrite bool_decide_false by (by intros []).
        eexists. split; [done|]. rewrite delete_notin by done. done.
  Qed.

  Lemma heap_init_rel adm : hrel (heap_init cap adm) (abs_init adm).
  Proof. split; cbn; [apply brel_init|]. unfold pris. rewrite fmap_empty. apply pq_empty_ok. Qed.
End Heap.

(** Belady accepts any request but those annotated -1. *)
Definition belady_req (r : req) : Prop := req_ok 0 r /\ r_next r <> -1.

Lemma belady_sim cap : simulation (pol_max_dbl e_next) belady_ops cap 0 belady_req (hrel e_next cap).
Proof.
  apply heap_sim; [|done|done]. intros r [H1 H2]. split; [done|]. by apply bool_decide_eq_false.
Qed.

Lemma size_sim cap : simulation (pol_max_dbl e_lsz) size_ops cap 0 (req_ok 0) (hrel e_lsz cap).
Proof. by apply heap_sim. Qed.

(** ** Conversion to double *)
Lemma dbl_exact x : Z.abs x < 2 ^ 53 -> dbl x = x.
Proof.
  intros H. unfold dbl. rewrite decide_True; [done|].
  destruct (decide (x = 0)) as [->|Hx]; [by vm_compute|].
  assert (Z.log2 (Z.abs x) < 53) by (apply Z.log2_lt_pow2; lia). lia.
Qed.

Lemma dbl_int64_max : dbl (2 ^ 63 - 1) = 2 ^ 63.
Proof. vm_compute. reflexivity. Qed.

(** Annotations that doubles tell apart: below 2^53, or INT64_MAX. *)
Definition exact53 (x : Z) : Prop := Z.abs x < 2 ^ 53 \/ x = 2 ^ 63 - 1.

Lemma dbl_le_exact x y : exact53 x -> exact53 y -> dbl x <= dbl y -> x <= y.
Proof.
  intros [Hx| ->] [Hy| ->]; rewrite ?dbl_int64_max; try rewrite !dbl_exact by lia; lia.
Qed.

(** ** Passing from one policy to another along a run *)
Definition call_key_ok (Q : Z -> Prop) (key : req -> Z) (c : call) : Prop :=
  match c with CGet r | CInsert r | CFind r true => Q (key r) | _ => True end.

Section Weaken.
  Context (pol pol' : policy) (cap md : Z) (Q : Z -> Prop) (key : req -> Z) (ekey : entry -> Z).
  Context (Kf : forall t r, ekey (fresh t r) = key r) (Kt : forall t r e, ekey (touch t r e) = key r).
  Let all (m : gmap Z entry) := forall id e, m !! id = Some e -> Q (ekey e).
  Context (Hpol : forall m v, all m -> pol m v -> pol' m v).

  Lemma all_delete m v : all m -> all (delete v m).
  Proof. intros H id e He. apply lookup_delete_Some in He as [_ He]. eauto. Qed.
  Lemma all_insert m id e : all m -> Q (ekey e) -> all (<[id := e]> m).
  Proof. intros H He i e' Hi. apply lookup_insert_Some in Hi as [[_ <-]|[_ Hi]]; eauto. Qed.

  Lemma evict_to_weaken n m m' : all m -> evict_to pol cap md n m m' -> evict_to pol' cap md n m m' /\ all m'.
  Proof.
    intros Ha He. induction He as [m Hle|m v m' Hgt Hv Hp He IH].
    - split; [by apply ev_done|done].
    - destruct IH as [IH Ha']; [by apply all_delete|]. split; [|done].
      apply (ev_more _ _ _ _ _ v); auto.
  Qed.

  Lemma abs_step_weaken a c o a' : all (a_m a) -> call_key_ok Q key c ->
    abs_step pol cap md a c o a' -> abs_step pol' cap md a c o a' /\ all (a_m a').
  Proof.
    intros Ha Hc Hs. destruct Hs; cbn in *.
    - split; [by apply AGetHit|]. apply all_insert; [done|by rewrite Kt].
    - split; [by apply AGetRefused|done].
    - split; [by apply AGetTooBig|done].
    - destruct (evict_to_weaken _ _ _ Ha H2) as [He Ha']. split; [by eapply AGetMiss|].
      apply all_insert; [done|by rewrite Kf].
    - split; [by apply AFind|done].
    - split; [by apply AFindHit|]. apply all_insert; [done|by rewrite Kt].
    - split; [by apply AFindMiss|done].
    - split; [by apply AInsert|]. apply all_insert; [done|by rewrite Kf].
    - split; [by apply AInsertSkip|done].
    - split; [by apply ARemove|by apply all_delete].
    - split; [apply AEvict; auto|by apply all_delete].
    - split; [by apply AEvictEmpty|done].
    - split; [apply AToEvict; auto|done].
    - split; [by apply AToEvictEmpty|done].
  Qed.

  Lemma abs_run_weaken a cs os a' : all (a_m a) -> Forall (call_key_ok Q key) cs ->
    abs_run pol cap md a cs os a' -> abs_run pol' cap md a cs os a' /\ all (a_m a').
  Proof.
    intros Ha Hc Hr. induction Hr as [|a c o a1 cs os a2 Hs Hr IH]; [split; [constructor|done]|].
    inversion Hc; subst. destruct (abs_step_weaken _ _ _ _ Ha H1 Hs) as [Hs' Ha1].
    destruct (IH Ha1 H2) as [Hr' Ha2]. split; [|done]. econstructor; eauto.
  Qed.
End Weaken.
