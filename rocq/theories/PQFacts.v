(** The binary heap of pqueue.c implements a priority map. *)
From stdpp Require Import gmap list numbers fin_maps.
From Verif Require Import Base Driver ModelPQ.
Open Scope Z_scope.

(** [cbn] would unfold division on nat *)
Tactic Notation "pcbn" := cbn -[Nat.div Nat.mul].
Tactic Notation "pcbn" "in" ident(H) := cbn -[Nat.div Nat.mul] in H.
Tactic Notation "pcbn" "in" ident(H) "," ident(K) := pcbn in H; pcbn in K.
Tactic Notation "pcbn" "in" "*" := cbn -[Nat.div Nat.mul] in *.

(** priority of the node in slot [i] *)
Definition sp (q : pq) (i : nat) : Z :=
  match pq_d q !! i with Some x => default 0 (pq_pri q !! x) | None => 0 end.

Record pq_wf (L : Z -> Prop) (q : pq) : Prop := {
  wf_sz : (1 <= pq_sz q)%nat;
  wf_slot i : (1 <= i < pq_sz q)%nat ->
    exists x, pq_d q !! i = Some x /\ pq_pos q !! x = Some i /\ is_Some (pq_pri q !! x) /\ L x;
  wf_node x : L x -> exists i, (1 <= i < pq_sz q)%nat /\ pq_d q !! i = Some x
}.

Definition heap (q : pq) : Prop :=
  forall i, (2 <= i < pq_sz q)%nat -> sp q i <= sp q (i / 2).

Lemma half_lt i : (1 < i)%nat -> (1 <= i / 2 < i)%nat.
Proof. intros. split; [apply Nat.div_le_lower_bound; lia|apply Nat.div_lt; lia]. Qed.

Lemma half_child j i : (j / 2 = i)%nat <-> (j = 2 * i \/ j = 2 * i + 1)%nat.
Proof.
  split.
  - intros <-. pose proof (Nat.div_mod j 2 ltac:(lia)). pose proof (Nat.mod_upper_bound j 2 ltac:(lia)). lia.
  - intros [->| ->].
    + by rewrite Nat.mul_comm, Nat.div_mul.
    + rewrite Nat.add_comm, Nat.mul_comm, Nat.div_add by lia. done.
Qed.

Lemma sp_slot q i x p : pq_d q !! i = Some x -> pq_pri q !! x = Some p -> sp q i = p.
Proof. intros H1 H2. unfold sp. by rewrite H1, H2. Qed.

Lemma pq_put_id q i x : pq_d q !! i = Some x -> pq_pos q !! x = Some i -> pq_put q i x = q.
Proof. destruct q. pcbn. intros. unfold pq_put. pcbn. by rewrite !insert_id. Qed.

(** Exchanging the contents of two slots keeps the structure. *)
Section Swap.
  Context (L : Z -> Prop) (q : pq) (mv y : Z) (mp py : Z) (i k : nat).
  Context (Hwf : pq_wf L (pq_put q i mv)).
  Context (Hi : (1 <= i < pq_sz q)%nat) (Hk : (1 <= k < pq_sz q)%nat) (Hik : i <> k).
  Context (Hmv : pq_pri q !! mv = Some mp).
  Context (Hy : pq_d q !! k = Some y) (Hpy : pq_pri q !! y = Some py).
  Let q2 := pq_put (pq_put q i y) k mv.

  Lemma swap_pos : pq_pos q !! y = Some k /\ y <> mv.
  Proof.
    destruct (wf_slot _ _ Hwf k Hk) as (x & Hx & Hp & _). pcbn in *.
    rewrite lookup_insert_ne in Hx by done. rewrite Hy in Hx. injection Hx as <-.
    destruct (decide (y = mv)) as [->|Hne].
    - rewrite lookup_insert in Hp. congruence.
    - rewrite lookup_insert_ne in Hp by done. done.
  Qed.

  Lemma swap_wf : pq_wf L q2.
  Proof.
    destruct swap_pos as [Hpos Hne]. constructor.
    - apply (wf_sz _ _ Hwf).
    - intros j Hj. pcbn in *. destruct (decide (j = k)) as [->|Hjk].
      + exists mv. rewrite !lookup_insert. split_and!; [done|done|eauto|].
        destruct (wf_slot _ _ Hwf i Hi) as (x & Hx & _ & _ & HL). pcbn in Hx.
        rewrite lookup_insert in Hx. by injection Hx as <-.
      + rewrite lookup_insert_ne by done. destruct (decide (j = i)) as [->|Hji].
        * exists y. rewrite lookup_insert. rewrite lookup_insert_ne by done. rewrite lookup_insert.
          split_and!; [done|done|eauto|].
          destruct (wf_slot _ _ Hwf k Hk) as (x & Hx & _ & _ & HL). pcbn in Hx.
          rewrite lookup_insert_ne in Hx by done. rewrite Hy in Hx. by injection Hx as <-.
        * rewrite lookup_insert_ne by done.
          destruct (wf_slot _ _ Hwf j Hj) as (x & Hx & Hp & Hs & HL). pcbn in *.
          rewrite lookup_insert_ne in Hx by done. exists x.
          assert (Hxm : x <> mv) by (intros ->; rewrite lookup_insert in Hp; congruence).
          rewrite lookup_insert_ne in Hp by done.
          assert (Hxy : x <> y) by (intros ->; congruence).
          split_and!; [done| |done|done]. by rewrite !lookup_insert_ne by done.
    - intros x HL. destruct (wf_node _ _ Hwf x HL) as (j & Hj & Hx). pcbn in *.
      destruct (decide (j = i)) as [->|Hji].
      + rewrite lookup_insert in Hx. injection Hx as <-. exists k. by rewrite lookup_insert.
      + rewrite lookup_insert_ne in Hx by done. destruct (decide (j = k)) as [->|Hjk].
        * rewrite Hy in Hx. injection Hx as <-. exists i. rewrite lookup_insert_ne by done.
          by rewrite lookup_insert.
        * exists j. by rewrite !lookup_insert_ne by done.
  Qed.

  Lemma swap_sp_i : sp q2 i = py.
  Proof. eapply sp_slot; pcbn; [|done]. rewrite lookup_insert_ne by done. apply lookup_insert. Qed.
  Lemma swap_sp_k : sp q2 k = mp.
  Proof. eapply sp_slot; pcbn; [|done]. apply lookup_insert. Qed.
  Lemma swap_sp_other j : j <> i -> j <> k -> sp q2 j = sp (pq_put q i mv) j.
  Proof. intros. unfold sp. pcbn. by rewrite !lookup_insert_ne by done. Qed.
  Lemma hole_sp_i : sp (pq_put q i mv) i = mp.
  Proof. eapply sp_slot; pcbn; [|done]. apply lookup_insert. Qed.
  Lemma hole_sp_k : sp (pq_put q i mv) k = py.
  Proof. eapply sp_slot; pcbn; [|done]. by rewrite lookup_insert_ne. Qed.
End Swap.

Lemma bubble_loop_ok L fuel : forall q mv mp i,
  pq_wf L (pq_put q i mv) -> pq_pri q !! mv = Some mp -> (1 <= i < pq_sz q)%nat -> (i <= fuel)%nat ->
  (forall j, (2 <= j < pq_sz q)%nat -> j <> i -> sp (pq_put q i mv) j <= sp (pq_put q i mv) (j / 2)) ->
  (forall j, (2 <= j < pq_sz q)%nat -> (j / 2 = i)%nat -> (2 <= i)%nat ->
     sp (pq_put q i mv) j <= sp (pq_put q i mv) (i / 2)) ->
  exists q' i', bubble_loop fuel q mp i = Ok (q', i') /\
    pq_wf L (pq_put q' i' mv) /\ heap (pq_put q' i' mv) /\ pq_sz q' = pq_sz q /\ pq_pri q' = pq_pri q.
Proof.
  induction fuel as [|fuel IH]; intros q mv mp i Hwf Hmv Hi Hf H1 H2; [lia|].
  cbn [bubble_loop]. destruct (decide (1 < i)%nat) as [Hi1|Hi1].
  - pose proof (half_lt i Hi1) as Hh.
    destruct (wf_slot _ _ Hwf (i / 2)%nat) as (y & Hy & _ & [py Hpy] & _); [pcbn; lia|].
    pcbn in Hy, Hpy. rewrite lookup_insert_ne in Hy by lia.
    unfold pq_at. rewrite Hy. cbn [rbind]. unfold pq_getpri. rewrite Hpy. cbn [rbind].
    assert (Hik : i <> (i / 2)%nat) by lia.
    pose proof (hole_sp_i q mv mp i Hmv) as Hspi.
    pose proof (hole_sp_k q mv y py i (i / 2)%nat Hik Hy Hpy) as Hspk.
    destruct (decide (py < mp)) as [Hlt|Hge].
    + assert (Hk : (1 <= i / 2 < pq_sz q)%nat) by lia.
      pose proof (swap_sp_i q mv y py i (i / 2)%nat Hik Hpy) as S1.
      pose proof (swap_sp_k q mv y mp i (i / 2)%nat Hmv) as S2.
      pose proof (swap_sp_other q mv y i (i / 2)%nat) as S3.
      destruct (IH (pq_put q i y) mv mp (i / 2)%nat) as (q' & i' & Hr & Hw' & Hh' & Hs' & Hp'); auto.
      * eapply swap_wf; eauto.
      * pcbn. lia.
      * intros j Hj Hjne. pcbn in Hj. destruct (decide (j = i)) as [->|Hji].
        { rewrite S1, S2. lia. }
        rewrite (S3 j) by done. destruct (decide (j / 2 = i)%nat) as [Hji2|Hji2].
        { rewrite Hji2, S1. specialize (H2 j Hj Hji2 ltac:(lia)). lia. }
        destruct (decide (j / 2 = i / 2)%nat) as [Hjk2|Hjk2].
        { rewrite Hjk2, S2. specialize (H1 j Hj Hji). rewrite Hjk2 in H1. lia. }
        rewrite (S3 (j / 2)%nat) by done. by apply H1.
      * intros j Hj Hjk Hi2. pcbn in Hj. pose proof (half_lt (i / 2) ltac:(lia)) as Hq.
        rewrite (S3 (i / 2 / 2)%nat) by lia.
        assert (Hpar : py <= sp (pq_put q i mv) (i / 2 / 2)).
        { specialize (H1 (i / 2)%nat ltac:(lia) ltac:(lia)). lia. }
        destruct (decide (j = i)) as [->|Hji]; [lia|].
        rewrite (S3 j) by (apply half_child in Hjk; lia).
        specialize (H1 j Hj Hji). rewrite Hjk in H1. lia.
      * exists q', i'. split_and!; auto.
    + exists q, i. split_and!; auto. intros j Hj. pcbn in Hj.
      destruct (decide (j = i)) as [->|Hji]; [lia|]. by apply H1.
  - exists q, i. split_and!; auto. intros j Hj. pcbn in Hj. apply H1; lia.
Qed.

Lemma maxchild_ok L q mv i : pq_wf L (pq_put q i mv) -> (1 <= i)%nat ->
  exists c, maxchild q i = Ok c /\
    (c = 0%nat -> forall j, (2 <= j < pq_sz q)%nat -> (j / 2 <> i)%nat) /\
    (c <> 0%nat -> (i < c < pq_sz q)%nat /\ (c / 2 = i)%nat /\
       forall j, (2 <= j < pq_sz q)%nat -> (j / 2 = i)%nat ->
         sp (pq_put q i mv) j <= sp (pq_put q i mv) c).
Proof.
  intros Hwf Hi. unfold maxchild. destruct (decide _) as [Hge|Hlt].
  - exists 0%nat. split_and!; [done| |done]. intros _ j Hj Hji. apply half_child in Hji. lia.
  - assert (Hslot : forall j, (i < j < pq_sz q)%nat -> exists x p,
      pq_at q j = Ok x /\ pq_getpri q x = Ok p /\ sp (pq_put q i mv) j = p).
    { intros j Hj. destruct (wf_slot _ _ Hwf j) as (x & Hx & _ & [p Hp] & _); [pcbn; lia|]. pcbn in Hx, Hp.
      rewrite lookup_insert_ne in Hx by lia. exists x, p. unfold pq_at, pq_getpri. rewrite Hx, Hp.
      split_and!; [done|done|]. eapply sp_slot; pcbn; [|done]. by rewrite lookup_insert_ne by lia. }
    destruct (decide _) as [H2|H2].
    + destruct (Hslot (2 * i)%nat) as (x & px & -> & Hpx & Hsx); [lia|]. cbn [rbind]. rewrite Hpx. cbn [rbind].
      destruct (Hslot (2 * i + 1)%nat) as (y & py & -> & Hpy & Hsy); [lia|]. cbn [rbind]. rewrite Hpy. cbn [rbind].
      destruct (decide _) as [Hl|Hl].
      * exists (2 * i + 1)%nat. split_and!; [done|lia|]. intros _. split_and!; [lia|lia|apply half_child; lia|].
        intros j Hj Hji. apply half_child in Hji as [->| ->]; lia.
      * exists (2 * i)%nat. split_and!; [done|lia|]. intros _. split_and!; [lia|lia|apply half_child; lia|].
        intros j Hj Hji. apply half_child in Hji as [->| ->]; lia.
    + exists (2 * i)%nat. split_and!; [done|lia|]. intros _. split_and!; [lia|lia|apply half_child; lia|].
      intros j Hj Hji. apply half_child in Hji as [->| ->]; lia.
Qed.

Lemma percolate_loop_ok L fuel : forall q mv mp i,
  pq_wf L (pq_put q i mv) -> pq_pri q !! mv = Some mp -> (1 <= i < pq_sz q)%nat ->
  (pq_sz q - i <= fuel)%nat ->
  (forall j, (2 <= j < pq_sz q)%nat -> (j / 2 <> i)%nat -> sp (pq_put q i mv) j <= sp (pq_put q i mv) (j / 2)) ->
  (forall j, (2 <= j < pq_sz q)%nat -> (j / 2 = i)%nat -> (2 <= i)%nat ->
     sp (pq_put q i mv) j <= sp (pq_put q i mv) (i / 2)) ->
  exists q' i', percolate_loop fuel q mp i = Ok (q', i') /\
    pq_wf L (pq_put q' i' mv) /\ heap (pq_put q' i' mv) /\ pq_sz q' = pq_sz q /\ pq_pri q' = pq_pri q.
Proof.
  induction fuel as [|fuel IH]; intros q mv mp i Hwf Hmv Hi Hf H1 H2; [lia|].
  cbn [percolate_loop].
  destruct (maxchild_ok L q mv i Hwf) as (c & Hc & Hc0 & Hc1); [lia|].
  rewrite Hc. cbn [rbind].
  destruct (decide (c = 0%nat)) as [->|Hne].
  - exists q, i. split_and!; auto. intros j Hj. pcbn in Hj. apply H1; [done|]. by apply Hc0.
  - destruct (Hc1 Hne) as (Hcr & Hch & Hmax).
    destruct (wf_slot _ _ Hwf c) as (y & Hy & _ & [py Hpy] & _); [pcbn; lia|].
    pcbn in Hy, Hpy. rewrite lookup_insert_ne in Hy by lia.
    unfold pq_at. rewrite Hy. cbn [rbind]. unfold pq_getpri. rewrite Hpy. cbn [rbind].
    assert (Hik : i <> c) by lia.
    pose proof (hole_sp_i q mv mp i Hmv) as Hspi.
    pose proof (hole_sp_k q mv y py i c Hik Hy Hpy) as Hspk.
    destruct (decide (mp < py)) as [Hlt|Hge].
    + pose proof (swap_sp_i q mv y py i c Hik Hpy) as S1.
      pose proof (swap_sp_k q mv y mp i c Hmv) as S2.
      pose proof (swap_sp_other q mv y i c) as S3.
      destruct (IH (pq_put q i y) mv mp c) as (q' & i' & Hr & Hw' & Hh' & Hs' & Hp'); auto.
      * eapply swap_wf; eauto. lia.
      * pcbn. lia.
      * pcbn. lia.
      * intros j Hj Hjc. pcbn in Hj. destruct (decide (j = c)) as [->|Hjc'].
        { rewrite Hch, S1, S2. lia. }
        destruct (decide (j = i)) as [->|Hji].
        { pose proof (half_lt i ltac:(lia)). rewrite S1, (S3 (i / 2)%nat) by lia.
          specialize (H2 c ltac:(lia) Hch ltac:(lia)). lia. }
        rewrite (S3 j) by done. destruct (decide (j / 2 = i)%nat) as [Hji2|Hji2].
        { rewrite Hji2, S1. specialize (Hmax j Hj Hji2). lia. }
        rewrite (S3 (j / 2)%nat) by done. by apply H1.
      * intros j Hj Hjc Hc2. pcbn in Hj. rewrite Hch, S1.
        rewrite (S3 j) by (apply half_child in Hjc; lia).
        specialize (H1 j Hj ltac:(lia)). rewrite Hjc in H1. lia.
      * exists q', i'. split_and!; auto.
    + exists q, i. split_and!; auto. intros j Hj. pcbn in Hj.
      destruct (decide (j / 2 = i)%nat) as [Hji|Hji]; [|by apply H1].
      rewrite Hji. specialize (Hmax j Hj Hji). lia.
Qed.

(** ** The priority-map view *)
Record pq_ok (q : pq) (m : gmap Z Z) : Prop := {
  ok_wf : pq_wf (fun x => is_Some (m !! x)) q;
  ok_heap : heap q;
  ok_pri : pq_pri q = m
}.

Lemma pq_empty_ok : pq_ok pq_empty ∅.
Proof.
  constructor; [constructor| |done]; pcbn.
  - lia.
  - intros i Hi. lia.
  - intros x [? Hx]. by rewrite lookup_empty in Hx.
  - intros i Hi. pcbn in Hi. lia.
Qed.

Lemma heap_top q i : heap q -> (1 <= i < pq_sz q)%nat -> sp q i <= sp q 1.
Proof.
  intros Hh. induction (lt_wf i) as [i _ IH]. intros Hi.
  destruct (decide (i = 1%nat)) as [->|Hne]; [lia|].
  pose proof (half_lt i ltac:(lia)). specialize (IH (i / 2)%nat ltac:(lia) ltac:(lia)).
  specialize (Hh i ltac:(lia)). lia.
Qed.

Lemma bubble_up_ok L q i mv mp :
  pq_d q !! i = Some mv -> pq_pri q !! mv = Some mp ->
  pq_wf L (pq_put q i mv) -> (1 <= i < pq_sz q)%nat ->
  (forall j, (2 <= j < pq_sz q)%nat -> j <> i -> sp q j <= sp q (j / 2)) ->
  (forall j, (2 <= j < pq_sz q)%nat -> (j / 2 = i)%nat -> (2 <= i)%nat -> sp q j <= sp q (i / 2)) ->
  exists q', bubble_up q i = Ok q' /\ pq_wf L q' /\ heap q' /\ pq_sz q' = pq_sz q /\ pq_pri q' = pq_pri q.
Proof.
  intros Hd Hp Hwf Hi H1 H2. unfold bubble_up, pq_at, pq_getpri. rewrite Hd. cbn [rbind]. rewrite Hp. cbn [rbind].
  assert (Hsp : forall j, sp (pq_put q i mv) j = sp q j).
  { intros j. unfold sp. pcbn. by rewrite insert_id. }
  destruct (bubble_loop_ok L i q mv mp i Hwf Hp Hi) as (q' & i' & -> & Hw & Hh & Hs & Hpp); [lia| | |].
  - intros j Hj Hne. rewrite !Hsp. by apply H1.
  - intros j Hj Hji Hi2. rewrite !Hsp. by apply H2.
  - cbn [rbind]. eexists. split; [done|]. by split_and!.
Qed.

Lemma percolate_down_ok L q i mv mp :
  pq_d q !! i = Some mv -> pq_pri q !! mv = Some mp ->
  pq_wf L (pq_put q i mv) -> (1 <= i < pq_sz q)%nat ->
  (forall j, (2 <= j < pq_sz q)%nat -> (j / 2 <> i)%nat -> sp q j <= sp q (j / 2)) ->
  (forall j, (2 <= j < pq_sz q)%nat -> (j / 2 = i)%nat -> (2 <= i)%nat -> sp q j <= sp q (i / 2)) ->
  exists q', percolate_down q i = Ok q' /\ pq_wf L q' /\ heap q' /\ pq_sz q' = pq_sz q /\ pq_pri q' = pq_pri q.
Proof.
  intros Hd Hp Hwf Hi H1 H2. unfold percolate_down, pq_at, pq_getpri. rewrite Hd. cbn [rbind]. rewrite Hp. cbn [rbind].
  assert (Hsp : forall j, sp (pq_put q i mv) j = sp q j).
  { intros j. unfold sp. pcbn. by rewrite insert_id. }
  destruct (percolate_loop_ok L (pq_sz q) q mv mp i Hwf Hp Hi) as (q' & i' & -> & Hw & Hh & Hs & Hpp); [lia| | |].
  - intros j Hj Hne. rewrite !Hsp. by apply H1.
  - intros j Hj Hji Hi2. rewrite !Hsp. by apply H2.
  - cbn [rbind]. eexists. split; [done|]. by split_and!.
Qed.

(** percolating from beyond the end does nothing *)
Lemma percolate_down_past q i mv mp :
  pq_d q !! i = Some mv -> pq_pri q !! mv = Some mp -> (pq_sz q <= i)%nat ->
  percolate_down q i = Ok (pq_put q i mv).
Proof.
  intros Hd Hp Hi. unfold percolate_down, pq_at, pq_getpri. rewrite Hd. cbn [rbind]. rewrite Hp. cbn [rbind].
  destruct (pq_sz q) eqn:Hs; cbn [percolate_loop]; unfold maxchild; rewrite decide_True by lia; cbn [rbind];
    rewrite decide_True by done; done.
Qed.

Lemma pq_insert_ok q m x p : pq_ok q m -> m !! x = None ->
  exists q', pq_insert q x p = Ok q' /\ pq_ok q' (<[x := p]> m).
Proof.
  intros [Hwf Hh Hpri] Hx. pose proof (wf_sz _ _ Hwf) as Hsz. unfold pq_insert.
  set (q1 := mkPq _ _ _ _).
  assert (Hz : (pq_sz q1 - 1 = pq_sz q)%nat) by (pcbn; lia). rewrite Hz.
  assert (Hsp : forall j, (1 <= j < pq_sz q)%nat -> sp q1 j = sp q j).
  { intros j Hj. unfold sp. pcbn. rewrite lookup_insert_ne by lia.
    destruct (wf_slot _ _ Hwf j Hj) as (y & -> & _ & _ & [? HL]).
    rewrite lookup_insert_ne; [done|]. intros ->. congruence. }
  destruct (bubble_up_ok (fun y => is_Some (<[x := p]> m !! y)) q1 (pq_sz q) x p) as (q' & -> & Hw' & Hh' & Hs' & Hp').
  - pcbn. apply lookup_insert.
  - pcbn. apply lookup_insert.
  - constructor; pcbn.
    + lia.
    + intros i Hi. destruct (decide (i = pq_sz q)) as [->|Hne].
      * exists x. rewrite !lookup_insert. split_and!; eauto.
      * rewrite lookup_insert_ne by done. rewrite lookup_insert_ne by done.
        destruct (wf_slot _ _ Hwf i) as (y & Hy & Hp & Hs & HL); [lia|].
        assert (x <> y) by (intros ->; rewrite Hx in HL; by destruct HL).
        exists y. rewrite !lookup_insert_ne by done. by split_and!.
    + intros y HL. destruct (decide (y = x)) as [->|Hne].
      * exists (pq_sz q). rewrite lookup_insert. split; [lia|done].
      * rewrite lookup_insert_ne in HL by done. destruct (wf_node _ _ Hwf y HL) as (i & Hi & Hy).
        exists i. rewrite !lookup_insert_ne by lia. split; [lia|done].
  - pcbn. lia.
  - intros j Hj Hne. pcbn in Hj. pose proof (half_lt j ltac:(lia)). rewrite !Hsp by lia. apply Hh. lia.
  - intros j Hj Hji _. pcbn in Hj. apply half_child in Hji. lia.
  - eexists. split; [done|]. constructor; [done|done|]. rewrite Hp'. pcbn. by rewrite Hpri.
Qed.

Lemma pq_slot_of q m x : pq_ok q m -> is_Some (m !! x) ->
  exists i, (1 <= i < pq_sz q)%nat /\ pq_d q !! i = Some x /\ pq_pos q !! x = Some i.
Proof.
  intros [Hwf Hh Hpri] Hx. destruct (wf_node _ _ Hwf x Hx) as (i & Hi & Hd).
  destruct (wf_slot _ _ Hwf i Hi) as (y & Hy & Hp & _). rewrite Hd in Hy. injection Hy as <-. eauto.
Qed.

Lemma pq_change_ok q m x p : pq_ok q m -> is_Some (m !! x) ->
  exists q', pq_change q x p = Ok q' /\ pq_ok q' (<[x := p]> m).
Proof.
  intros Hok [old Hx]. destruct (pq_slot_of q m x Hok) as (i & Hi & Hd & Hpos); [eauto|].
  destruct Hok as [Hwf Hh Hpri]. unfold pq_change, pq_getpri, pq_getpos. rewrite Hpri, Hx. cbn [rbind pq_pos].
  rewrite Hpos. cbn [rbind]. set (q1 := mkPq _ _ _ _).
  assert (Hput : pq_put q1 i x = q1) by (by apply pq_put_id).
  assert (Hspi : sp q1 i = p). { eapply sp_slot; pcbn; [done|]. apply lookup_insert. }
  assert (Hspi0 : sp q i = old). { eapply sp_slot; [done|]. by rewrite Hpri. }
  assert (Hsp : forall j, (1 <= j < pq_sz q)%nat -> j <> i -> sp q1 j = sp q j).
  { intros j Hj Hne. unfold sp. pcbn. destruct (wf_slot _ _ Hwf j Hj) as (y & -> & Hpy & _).
    rewrite lookup_insert_ne; [by rewrite Hpri|]. intros ->. congruence. }
  assert (Hwf1 : pq_wf (fun y => is_Some (<[x := p]> m !! y)) q1).
  { constructor; pcbn.
    - apply (wf_sz _ _ Hwf).
    - intros j Hj. destruct (wf_slot _ _ Hwf j Hj) as (y & Hy & Hp & Hs & HL). exists y.
      split_and!; [done|done| |]; (destruct (decide (y = x)) as [->|]; [rewrite lookup_insert; eauto|]);
        rewrite lookup_insert_ne by done; [by rewrite Hpri in Hs|done].
    - intros y HL. apply (wf_node _ _ Hwf). destruct (decide (y = x)) as [->|Hne]; [eauto|].
      by rewrite lookup_insert_ne in HL. }
  assert (Hres : forall q', pq_wf (fun y => is_Some (<[x := p]> m !! y)) q' -> heap q' ->
            pq_pri q' = pq_pri q1 -> pq_ok q' (<[x := p]> m)).
  { intros q' ? ? Hp'. by constructor. }
  destruct (decide (old < p)) as [Hlt|Hge].
  - destruct (bubble_up_ok (fun y => is_Some (<[x := p]> m !! y)) q1 i x p) as (q' & -> & Hw' & Hh' & _ & Hp').
    + done.
    + pcbn. apply lookup_insert.
    + by rewrite Hput.
    + done.
    + intros j Hj Hne. pcbn in Hj. pose proof (half_lt j ltac:(lia)). rewrite (Hsp j) by lia.
      destruct (decide (j / 2 = i)%nat) as [Hji|Hji].
      * rewrite Hji, Hspi. specialize (Hh j Hj). rewrite Hji in Hh. lia.
      * rewrite Hsp by lia. by apply Hh.
    + intros j Hj Hji Hi2. pcbn in Hj. pose proof (half_lt i ltac:(lia)).
      assert (j <> i) by (apply half_child in Hji; lia). rewrite (Hsp j), (Hsp (i / 2)%nat) by lia.
      pose proof (Hh j Hj) as Ha. rewrite Hji in Ha. pose proof (Hh i ltac:(lia)). lia.
    + eexists. split; [done|]. by apply Hres.
  - destruct (percolate_down_ok (fun y => is_Some (<[x := p]> m !! y)) q1 i x p) as (q' & -> & Hw' & Hh' & _ & Hp').
    + done.
    + pcbn. apply lookup_insert.
    + by rewrite Hput.
    + done.
    + intros j Hj Hne. pcbn in Hj. pose proof (half_lt j ltac:(lia)). rewrite (Hsp (j / 2)%nat) by lia.
      destruct (decide (j = i)) as [->|Hji].
      * rewrite Hspi. specialize (Hh i Hj). lia.
      * rewrite Hsp by lia. by apply Hh.
    + intros j Hj Hji Hi2. pcbn in Hj. pose proof (half_lt i ltac:(lia)).
      assert (j <> i) by (apply half_child in Hji; lia). rewrite (Hsp j), (Hsp (i / 2)%nat) by lia.
      pose proof (Hh j Hj) as Ha. rewrite Hji in Ha. pose proof (Hh i ltac:(lia)). lia.
    + eexists. split; [done|]. by apply Hres.
Qed.

(** Common part of remove and pop: the last node moved to slot [i]. *)
Section Fill.
  Context (q : pq) (m : gmap Z Z) (x l : Z) (i : nat) (px pl : Z).
  Context (Hok : pq_ok q m) (Hi : (1 <= i < pq_sz q)%nat) (Hd : pq_d q !! i = Some x).
  Context (Hl : pq_d q !! (pq_sz q - 1)%nat = Some l).
  Context (Hpx : m !! x = Some px) (Hpl : m !! l = Some pl).
  Let q1 := mkPq (<[i := l]> (pq_d q)) (pq_sz q - 1) (pq_pri q) (pq_pos q).
  Let L := fun y => is_Some (m !! y) /\ y <> x.

  Lemma fill_free q' : pq_wf L q' -> heap q' -> pq_pri q' = pq_pri q -> pq_ok (pq_free q' x) (delete x m).
  Proof.
    intros Hw Hh Hp. destruct Hok as [_ _ Hpri]. rewrite Hpri in Hp.
    assert (Hsp : forall j, (1 <= j < pq_sz q')%nat -> sp (pq_free q' x) j = sp q' j).
    { intros j Hj. unfold sp. pcbn. destruct (wf_slot _ _ Hw j Hj) as (y & -> & _ & _ & [_ Hne]).
      by rewrite lookup_delete_ne by congruence. }
    constructor; [constructor| |]; pcbn.
    - apply (wf_sz _ _ Hw).
    - intros j Hj. destruct (wf_slot _ _ Hw j Hj) as (y & Hy & Hpos & Hs & [HL Hne]). exists y.
      rewrite !lookup_delete_ne by congruence. by split_and!.
    - intros y [p Hy]. apply lookup_delete_Some in Hy as [Hne Hy]. apply (wf_node _ _ Hw). split; [eauto|congruence].
    - intros j Hj. pcbn in Hj. pose proof (half_lt j ltac:(lia)). rewrite !Hsp by lia. by apply Hh.
    - by rewrite Hp.
  Qed.

  (** removing the last node *)
  Lemma fill_last : i = (pq_sz q - 1)%nat -> l = x /\ pq_wf L (pq_put q1 i x) /\ heap (pq_put q1 i x).
  Proof.
    intros Hil. assert (l = x) as -> by (subst i; congruence). split; [done|].
    destruct Hok as [Hwf Hh Hpri]. split.
    - constructor; pcbn.
      + lia.
      + intros j Hj. destruct (wf_slot _ _ Hwf j) as (y & Hy & Hpos & Hs & HL); [lia|].
        destruct (wf_slot _ _ Hwf i) as (x' & Hx' & Hposx & _ & _); [lia|].
        rewrite Hd in Hx'. injection Hx' as <-.
        assert (y <> x) by (intros ->; rewrite Hpos in Hposx; injection Hposx; lia).
        exists y. rewrite !lookup_insert_ne by (congruence || lia). by split_and!.
      + intros y [HL Hne]. destruct (wf_node _ _ Hwf y HL) as (j & Hj & Hy).
        assert (j <> i) by congruence.
        exists j. rewrite !lookup_insert_ne by congruence. split; [lia|done].
    - intros j Hj. pcbn in Hj. pose proof (half_lt j ltac:(lia)).
      assert (Hsp : forall k, (k < pq_sz q - 1)%nat -> sp (pq_put q1 i x) k = sp q k).
      { intros k Hk. unfold sp. pcbn. by rewrite !lookup_insert_ne by lia. }
      rewrite !Hsp by lia. apply Hh. lia.
  Qed.

  Lemma fill_inner : (i < pq_sz q - 1)%nat ->
    pq_wf L (pq_put q1 i l) /\ (forall j, (1 <= j < pq_sz q - 1)%nat -> j <> i -> sp q1 j = sp q j) /\
    sp q1 i = pl /\ sp q i = px.
  Proof.
    intros Hil. destruct Hok as [Hwf Hh Hpri].
    destruct (wf_slot _ _ Hwf i Hi) as (x' & Hx' & Hposx & _ & _). rewrite Hd in Hx'. injection Hx' as <-.
    destruct (wf_slot _ _ Hwf (pq_sz q - 1)%nat) as (l' & Hl' & Hposl & Hsl & HLl); [lia|].
    rewrite Hl in Hl'. injection Hl' as <-.
    assert (Hlx : l <> x) by (intros ->; rewrite Hposl in Hposx; injection Hposx; lia).
    split_and!.
    - constructor; pcbn.
      + lia.
      + intros j Hj. destruct (decide (j = i)) as [->|Hne].
        * exists l. rewrite !lookup_insert. by split_and!.
        * destruct (wf_slot _ _ Hwf j) as (y & Hy & Hpos & Hs & HL); [lia|].
          assert (y <> x) by (intros ->; rewrite Hpos in Hposx; injection Hposx; lia).
          assert (y <> l) by (intros ->; rewrite Hpos in Hposl; injection Hposl; lia).
          exists y. rewrite !lookup_insert_ne by congruence. by split_and!.
      + intros y [HL Hne]. destruct (wf_node _ _ Hwf y HL) as (j & Hj & Hy).
        destruct (decide (j = (pq_sz q - 1)%nat)) as [->|Hjl].
        * exists i. rewrite lookup_insert. split; [lia|congruence].
        * assert (j <> i) by congruence. exists j. rewrite !lookup_insert_ne by congruence. split; [lia|done].
    - intros j Hj Hne. unfold sp. pcbn. by rewrite lookup_insert_ne by done.
    - eapply sp_slot; pcbn; [apply lookup_insert|]. by rewrite Hpri.
    - eapply sp_slot; [done|]. by rewrite Hpri.
  Qed.

  Lemma fill_percolate : pl <= px -> exists q', percolate_down q1 i = Ok q' /\ pq_ok (pq_free q' x) (delete x m).
  Proof.
    intros Hle. destruct Hok as [Hwf Hh Hpri]. destruct (decide (i = (pq_sz q - 1)%nat)) as [Hil|Hil].
    - destruct (fill_last Hil) as (Hlx & Hw' & Hh'). subst l.
      rewrite (percolate_down_past q1 i x px).
      + eexists. split; [done|]. by apply fill_free.
      + pcbn. apply lookup_insert.
      + pcbn. by rewrite Hpri.
      + pcbn. lia.
    - destruct fill_inner as (Hw & Hsp & Hsi & Hsi0); [lia|].
      destruct (percolate_down_ok L q1 i l pl) as (q' & -> & Hw' & Hh' & Hs' & Hp').
      + pcbn. apply lookup_insert.
      + pcbn. by rewrite Hpri.
      + done.
      + pcbn. lia.
      + intros j Hj Hne. pcbn in Hj. pose proof (half_lt j ltac:(lia)). rewrite (Hsp (j / 2)%nat) by lia.
        destruct (decide (j = i)) as [->|Hji].
        * rewrite Hsi. specialize (Hh i ltac:(lia)). lia.
        * rewrite Hsp by lia. apply Hh. lia.
      + intros j Hj Hji Hi2. pcbn in Hj. pose proof (half_lt i ltac:(lia)).
        assert (j <> i) by (apply half_child in Hji; lia). rewrite (Hsp j), (Hsp (i / 2)%nat) by lia.
        pose proof (Hh j ltac:(lia)) as Ha. rewrite Hji in Ha. pose proof (Hh i ltac:(lia)). lia.
      + eexists. split; [done|]. by apply fill_free.
  Qed.

  Lemma fill_bubble : px < pl -> exists q', bubble_up q1 i = Ok q' /\ pq_ok (pq_free q' x) (delete x m).
  Proof.
    intros Hlt. destruct Hok as [Hwf Hh Hpri]. destruct (decide (i = (pq_sz q - 1)%nat)) as [Hil|Hil].
    - assert (l = x) by (subst i; congruence). subst l. rewrite Hpx in Hpl. injection Hpl. lia.
    - destruct fill_inner as (Hw & Hsp & Hsi & Hsi0); [lia|].
      destruct (bubble_up_ok L q1 i l pl) as (q' & -> & Hw' & Hh' & Hs' & Hp').
      + pcbn. apply lookup_insert.
      + pcbn. by rewrite Hpri.
      + done.
      + pcbn. lia.
      + intros j Hj Hne. pcbn in Hj. pose proof (half_lt j ltac:(lia)). rewrite (Hsp j) by lia.
        destruct (decide (j / 2 = i)%nat) as [Hji|Hji].
        * rewrite Hji, Hsi. specialize (Hh j ltac:(lia)). rewrite Hji in Hh. lia.
        * rewrite Hsp by lia. apply Hh. lia.
      + intros j Hj Hji Hi2. pcbn in Hj. pose proof (half_lt i ltac:(lia)).
        assert (j <> i) by (apply half_child in Hji; lia). rewrite (Hsp j), (Hsp (i / 2)%nat) by lia.
        pose proof (Hh j ltac:(lia)) as Ha. rewrite Hji in Ha. pose proof (Hh i ltac:(lia)). lia.
      + eexists. split; [done|]. by apply fill_free.
  Qed.
End Fill.

Lemma pq_last q m : pq_ok q m -> (1 < pq_sz q)%nat ->
  exists l pl, pq_d q !! (pq_sz q - 1)%nat = Some l /\ m !! l = Some pl.
Proof.
  intros [Hwf Hh Hpri] Hs. destruct (wf_slot _ _ Hwf (pq_sz q - 1)%nat) as (l & Hl & _ & _ & [pl Hpl]); [lia|].
  eauto.
Qed.

Lemma pq_remove_ok q m x : pq_ok q m -> is_Some (m !! x) ->
  exists q', pq_remove q x = Ok q' /\ pq_ok (pq_free q' x) (delete x m).
Proof.
  intros Hok [px Hx]. destruct (pq_slot_of q m x Hok) as (i & Hi & Hd & Hpos); [eauto|].
  destruct (pq_last q m Hok) as (l & pl & Hl & Hpl); [lia|].
  assert (Hx' : pq_pri q !! x = Some px) by (by rewrite (ok_pri _ _ Hok)).
  assert (Hpl' : pq_pri q !! l = Some pl) by (by rewrite (ok_pri _ _ Hok)).
  unfold pq_remove, pq_getpos, pq_at, pq_getpri. rewrite Hpos. cbn [rbind]. rewrite Hl. cbn [rbind pq_pri].
  rewrite Hx'. cbn [rbind]. rewrite Hpl'. cbn [rbind].
  destruct (decide (px < pl)).
  - by eapply fill_bubble.
  - eapply fill_percolate; eauto. lia.
Qed.

Lemma pq_size_empty q m : pq_ok q m -> pq_sz q = 1%nat <-> m = ∅.
Proof.
  intros [Hwf Hh Hpri]. split.
  - intros Hs. apply map_eq. intros x. rewrite lookup_empty. destruct (m !! x) eqn:E; [|done].
    destruct (wf_node _ _ Hwf x) as (i & Hi & _); [eauto|]. lia.
  - intros ->. pose proof (wf_sz _ _ Hwf). destruct (decide (pq_sz q = 1%nat)); [done|].
    destruct (wf_slot _ _ Hwf 1) as (x & _ & _ & _ & [? Hx]); [lia|]. by rewrite lookup_empty in Hx.
Qed.

Lemma pq_pop_ok q m : pq_ok q m -> m <> ∅ ->
  exists q' x p, pq_peek q = Ok (Some x) /\ pq_pop q = Ok (q', Some x) /\ m !! x = Some p /\
    (forall y py, m !! y = Some py -> py <= p) /\ pq_ok (pq_free q' x) (delete x m).
Proof.
  intros Hok Hne. pose proof (pq_size_empty q m Hok) as Hse.
  pose proof (wf_sz _ _ (ok_wf _ _ Hok)) as Hsz.
  assert (Hs1 : pq_sz q <> 1%nat) by tauto.
  destruct (wf_slot _ _ (ok_wf _ _ Hok) 1) as (x & Hx & Hpos & _ & [p Hp]); [lia|].
  destruct (pq_last q m Hok) as (l & pl & Hl & Hpl); [lia|].
  assert (Hmax : forall y py, m !! y = Some py -> py <= p).
  { intros y py Hy. destruct (pq_slot_of q m y Hok) as (j & Hj & Hd & _); [eauto|].
    pose proof (heap_top q j (ok_heap _ _ Hok) Hj) as Ht.
    rewrite (sp_slot q j y py), (sp_slot q 1 x p) in Ht; auto; by rewrite (ok_pri _ _ Hok). }
  destruct (fill_percolate q m x l 1 p pl Hok ltac:(lia) Hx Hl Hp Hpl) as (q' & Hper & Hok').
  { eauto. }
  exists q', x, p. unfold pq_peek, pq_pop, pq_at. rewrite !decide_False by done. rewrite Hx. cbn [rbind].
  rewrite Hl. cbn [rbind]. rewrite Hper. cbn [rbind]. by split_and!.
Qed.
