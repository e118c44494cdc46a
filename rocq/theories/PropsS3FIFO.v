(** C17: S3-FIFO keeps small queue, ghost queue and main queue disjoint and
    within the cache size, moves an object to the main queue only after enough
    hits or on a ghost hit, and every client program runs to completion. *)
From stdpp Require Import gmap list numbers fin_maps.
From Verif Require Import Base Driver ModelQueue QueueFacts QList SpecApi SpecComp CompFacts ModelTwoQ ModelS3FIFO S3Facts.
Open Scope Z_scope.

Definition in_small (s : s3) (id : Z) : Prop := resident fifo_ops (s_fifo s) id.
Definition in_main (s : s3) (id : Z) : Prop := resident fifo_ops (s_main s) id.
Definition in_ghost (s : s3) (id : Z) : Prop :=
  match s_gq s with Some q => resident fifo_ops q id | None => False end.

(** The number of hits on each object since it was last admitted, as the client
    counts them from its own calls and the answers. *)
Definition hits_step (h : Z -> Z) (c : call) (o : obs) : Z -> Z :=
  match c, o with
  | CGet r, OBool true | CFind r true, OBool true => fun j => if decide (j = r_id r) then h j + 1 else h j
  | CGet r, OBool false => fun j => if decide (j = r_id r) then 0 else h j
  | _, _ => h
  end.
Fixpoint hits_of (h : Z -> Z) (cs : list call) (os : list obs) : Z -> Z :=
  match cs, os with
  | c :: cs, o :: os => hits_of (hits_step h c o) cs os
  | _, _ => h
  end.
Definition hits (cs : list call) (os : list obs) : Z -> Z := hits_of (fun _ => 0) cs os.

Section Props.
  Context (cap fsz gsz thr : Z) (G : Z -> Z -> Prop).
  Context (Hfsz : 0 <= fsz <= cap).
  Notation s0 := (s3_init cap fsz gsz thr).
  Notation ok H := (sok G H cap fsz gsz thr).

  Lemma sok_ext H H' s lf lg lm : (forall j, H' j = H j) -> ok H s lf lg lm -> ok H' s lf lg lm.
  Proof. intros He []. split; try done. eapply allH_ext; [|done]. intros; apply He. Qed.

  Lemma s3_in H s lf lg lm : ok H s lf lg lm -> (forall id, in_small s id <-> id ∈ ids lf) /\
    (forall id, in_ghost s id <-> id ∈ ids lg) /\ (forall id, in_main s id <-> id ∈ ids lm).
  Proof.
    intros []. unfold in_small, in_ghost, in_main. split_and!.
    - apply (in_q fifo_ops _ _ _ _ sok_f). by left.
    - unfold gok in sok_g. destruct (s_gq s) as [q|].
      + apply (in_q fifo_ops _ _ _ _ (proj1 sok_g)). by left.
      + subst. intros id. split; [done|]. intros H1. by apply elem_of_nil in H1.
    - apply (in_q fifo_ops _ _ _ _ sok_m). by left.
  Qed.

  Lemma s3_res H s lf lg lm : ok H s lf lg lm ->
    (forall id, resident s3_ops s id <-> id ∈ ids lf \/ id ∈ ids lm) /\
    (forall id, absent s3_ops s id <-> ~ (id ∈ ids lf \/ id ∈ ids lm)).
  Proof.
    intros HS. unfold resident, absent. cbn [op_find s3_ops].
    assert (HF : forall r, s3_find s r false = Ok (s, bool_decide (r_id r ∈ ids lf \/ r_id r ∈ ids lm)))
      by (intros r; by apply (sok_find_false G cap fsz gsz thr Hfsz H s lf lg lm r)).
    split; intros id; split.
    - intros HR. destruct (HR (mkReq id 0 0 0 0) eq_refl) as (s' & Hf). rewrite HF in Hf.
      injection Hf as _ Hf. by apply bool_decide_eq_true in Hf.
    - intros Hid r <-. exists s. rewrite HF. by rewrite bool_decide_eq_true_2.
    - intros HR. destruct (HR (mkReq id 0 0 0 0) eq_refl) as (s' & Hf). rewrite HF in Hf.
      injection Hf as _ Hf. by apply bool_decide_eq_false in Hf.
    - intros Hid r <-. exists s. rewrite HF. by rewrite bool_decide_eq_false_2.
  Qed.

  Lemma s3_nobj H s lf lg lm : ok H s lf lg lm ->
    op_nobj s3_ops s = Z.of_nat (length lf + length lm) /\
    op_occupied s3_ops s = bytes 0 lf + bytes 0 lm.
  Proof.
    intros []. cbn. unfold q_nobj, q_occ. rewrite (qok_nobj _ _ _ _ sok_f), (qok_nobj _ _ _ _ sok_m).
    rewrite (qok_occ _ _ _ _ sok_f), (qok_occ _ _ _ _ sok_m). split; lia.
  Qed.

  Lemma s3_step H s lf lg lm fuel c : ok H s lf lg lm -> comp_call G 0 c ->
    (2 * length lf + length lm <= fuel)%nat ->
    exists s' o lf' lg' lm', step s3_ops fuel s c = Ok (s', o) /\ ok (hits_step H c o) s' lf' lg' lm' /\
      (length lf' + length lm' <= length lf + length lm + 1)%nat /\
      (forall id, id ∈ ids lm' -> id ∈ ids lm \/ (id ∈ ids lf /\ H id >= thr) \/
         (id ∈ ids lg /\ exists r, c = CGet r /\ r_id r = id)) /\
      (forall id, id ∈ ids lg' -> id ∈ ids lg \/ (id ∈ ids lf /\ H id < thr)).
  Proof.
    intros HS Hc Hfu. destruct c as [r|r u|r|id|r|r]; cbn [comp_call] in Hc; try done; cbn [step].
    - destruct Hc as [Hr HG].
      destruct (sok_get G cap fsz gsz thr Hfsz H s lf lg lm r fuel HS Hr HG Hfu)
        as (s' & lf' & lg' & lm' & -> & HS' & Hl & Hhit & Hbig & Hmiss). cbn [rbind].
      eexists s', _, lf', lg', lm'. split; [done|].
      destruct (bool_decide (r_id r ∈ ids lf \/ r_id r ∈ ids lm)) eqn:Eb.
      + destruct (Hhit eq_refl) as (E1 & -> & E3). split_and!; try done; intros id Hid; [|by left].
        rewrite E3 in Hid. by left.
      + destruct (decide (r_size r <= fsz)) as [Hs|Hs].
        * destruct (Hmiss eq_refl Hs) as (_ & _ & Hm & Hg & _). split_and!; try done.
          intros id Hid. apply Hm in Hid as [?|[?|[-> ?]]]; [by left|right; by left|].
          right. right. split; [done|]. by exists r.
        * destruct (Hbig eq_refl ltac:(lia)) as (-> & -> & ->).
          split_and!; try done; intros id Hid; left; [done|by apply del_sub in Hid].
    - cbn [op_find s3_ops]. destruct u.
      + destruct (sok_find_true G cap fsz gsz thr Hfsz H s lf lg lm r HS) as (s' & b & lf' & lg' & lm' & -> & -> & HS' & E1 & E2 & HF & HT).
        cbn [rbind]. eexists s', _, lf', lg', lm'. split; [done|].
        assert (length (ids lf') = length (ids lf) /\ length (ids lm') = length (ids lm)) as [L1 L2] by (by rewrite E1, E2).
        unfold ids in L1, L2. rewrite !fmap_length in *.
        destruct (bool_decide (r_id r ∈ ids lf \/ r_id r ∈ ids lm)) eqn:Eb.
        * rewrite (HT eq_refl) in *. split_and!; try done; [lia| |intros; by left].
          intros id Hid. rewrite E2 in Hid. by left.
        * destruct (HF eq_refl) as (-> & -> & -> & _). split_and!; try done; [lia|intros; by left|].
          intros id Hid. left. by apply del_sub in Hid.
      + rewrite (sok_find_false G cap fsz gsz thr Hfsz H s lf lg lm r HS). cbn [rbind].
        eexists s, _, lf, lg, lm. split_and!; try done; [lia|intros; by left|intros; by left].
    - cbn [op_remove s3_ops].
      destruct (sok_remove G cap fsz gsz thr Hfsz H s lf lg lm id HS) as (s' & -> & HS'). cbn [rbind].
      eexists s', _, _, _, _. split; [done|]. split; [exact HS'|].
      pose proof (length_del_le id lf). pose proof (length_del_le id lm).
      split_and!; [lia| |]; intros j Hj; left; by apply del_sub in Hj.
    - destruct (decide (op_nobj s3_ops s <= 0)).
      { eexists s, _, lf, lg, lm. split_and!; try done; [lia|intros; by left|intros; by left]. }
      cbn [op_evict s3_ops].
      destruct (sok_evict G cap fsz gsz thr Hfsz H s lf lg lm r HS)
        as (s1 & lf1 & lg1 & lm1 & -> & HS1 & _ & _ & Hm & Hg & _ & Hl & _). cbn [rbind].
      eexists s1, _, lf1, lg1, lm1. split_and!; try done; [lia|].
      intros id Hid. apply Hm in Hid as [?|?]; [by left|right; by left].
  Qed.

  Lemma s3_run cs : forall H s lf lg lm fuel, ok H s lf lg lm -> Forall (comp_call G 0) cs ->
    (2 * (length lf + length lm + length cs) <= fuel)%nat ->
    exists s' os lf' lg' lm', run s3_ops fuel s cs = Ok (s', os) /\ ok (hits_of H cs os) s' lf' lg' lm' /\
      (length lf' + length lm' <= length lf + length lm + length cs)%nat.
  Proof.
    induction cs as [|c cs IH]; intros H s lf lg lm fuel HS Hc Hf.
    - exists s, [], lf, lg, lm. split_and!; try done. cbn. lia.
    - apply Forall_cons in Hc as [Hc Hcs]. cbn [length] in Hf. cbn [run].
      destruct (s3_step H s lf lg lm fuel c HS Hc ltac:(lia)) as (s1 & o & lf1 & lg1 & lm1 & -> & H1 & Hl & _).
      cbn [rbind]. destruct (IH (hits_step H c o) s1 lf1 lg1 lm1 fuel H1 Hcs ltac:(lia))
          as (s' & os & lf' & lg' & lm' & -> & H' & Hl').
      cbn [rbind length]. exists s', (o :: os), lf', lg', lm'. split_and!; try done. lia.
  Qed.

  Lemma s3_from_init cs fuel : Forall (comp_call G 0) cs -> (2 * length cs <= fuel)%nat ->
    exists s os lf lg lm, run s3_ops fuel s0 cs = Ok (s, os) /\ ok (hits cs os) s lf lg lm /\
      (length lf + length lm <= length cs)%nat.
  Proof.
    intros Hcs Hf. destruct (s3_run cs (fun _ => 0) s0 [] [] [] fuel) as (s & os & lf & lg & lm & Hr & HS & Hl).
    - by apply sok_init.
    - done.
    - cbn. lia.
    - exists s, os, lf, lg, lm. by split_and!.
  Qed.

  (** Every program of gets, finds, removes and evicts completes (for the whole
      program together, 2 evictions per call are enough). *)
  Theorem C17_s3fifo_completes : forall cs fuel, Forall (comp_call G 0) cs -> (2 * length cs <= fuel)%nat ->
    exists s os, run s3_ops fuel s0 cs = Ok (s, os).
  Proof.
    intros cs fuel Hcs Hf. destruct (s3_from_init cs fuel Hcs Hf) as (s & os & _ & _ & _ & Hr & _). by exists s, os.
  Qed.

  Section After.
    Context (cs : list call) (fuel : nat) (s : s3) (os : list obs).
    Context (Hcs : Forall (comp_call G 0) cs) (Hfu : (2 * length cs <= fuel)%nat)
            (Hrun : run s3_ops fuel s0 cs = Ok (s, os)).

    Lemma s3_after : exists lf lg lm, ok (hits cs os) s lf lg lm /\ (length lf + length lm <= length cs)%nat.
    Proof.
      destruct (s3_from_init cs fuel Hcs Hfu) as (s' & os' & lf & lg & lm & Hr & HS & Hl).
      rewrite Hrun in Hr. injection Hr as <- <-. by exists lf, lg, lm.
    Qed.

    (** No id is in two of the queues; the occupied bytes never exceed the
        configured size; the counters are the number of resident objects and
        their bytes, every size being one that the client asked for that id. *)
    Theorem C17_s3fifo_invariant :
      (forall id, ~ (in_small s id /\ in_main s id)) /\
      (forall id, ~ (in_small s id /\ in_ghost s id)) /\
      (forall id, ~ (in_main s id /\ in_ghost s id)) /\
      (forall id, resident s3_ops s id <-> in_small s id \/ in_main s id) /\
      0 <= op_occupied s3_ops s <= cap /\
      (forall q, s_gq s = Some q -> op_occupied fifo_ops q <= gsz) /\
      exists L, ledger s3_ops L G s /\ op_occupied s3_ops s = total_bytes L.
    Proof.
      destruct s3_after as (lf & lg & lm & HS & _). pose proof (s3_in _ _ _ _ _ HS) as (Hi & Ho & Hm).
      pose proof (s3_res _ _ _ _ _ HS) as (HR & HA). pose proof (s3_nobj _ _ _ _ _ HS) as (Hn & Hocc). pose proof HS as [].
      pose proof (bytes_nonneg 0 lf (Z.le_refl 0) (qok_osz _ _ _ _ sok_f)) as Hn1.
      pose proof (bytes_nonneg 0 lm (Z.le_refl 0) (qok_osz _ _ _ _ sok_m)) as Hn2.
      split_and!; try lia.
      - intros id. rewrite Hi, Hm. intros [? ?]. by apply (sok_fm id).
      - intros id. rewrite Hi, Ho. intros [? ?]. by apply (sok_fg id).
      - intros id. rewrite Ho, Hm. intros [? ?]. by apply (sok_gm id).
      - intros id. by rewrite Hi, Hm, HR.
      - intros q Hq. rewrite Hq in sok_g. destruct sok_g as [HQ Hb]. cbn. unfold q_occ. by rewrite (qok_occ _ _ _ _ HQ).
      - exists (szs (lf ++ lm)). split.
        + unfold ledger. rewrite !szs_ids, szs_length, ids_app, app_length. split_and!.
          * apply NoDup_app. split_and!; [apply sok_f|intros id ? ?; by apply (sok_fm id)|apply sok_m].
          * intros id. by rewrite HR, elem_of_app.
          * intros id. by rewrite HA, elem_of_app.
          * done.
          * apply szs_G, allG_app. by split.
        + rewrite Hocc, <- bytes_app, (szs_bytes 0). lia.
    Qed.

    (** Quick demotion: whatever the next call, an object enters the main queue
        only out of the small queue after at least [thr] hits, or by a get on a
        remembered ghost; and an object becomes a ghost only out of the small
        queue with fewer than [thr] hits. *)
    Theorem C17_s3fifo_promotion : forall c s' o, comp_call G 0 c ->
      step s3_ops fuel s c = Ok (s', o) ->
      (forall id, in_main s' id -> ~ in_main s id ->
         (in_small s id /\ hits cs os id >= thr) \/ (in_ghost s id /\ exists r, c = CGet r /\ r_id r = id)) /\
      (forall id, in_ghost s' id -> ~ in_ghost s id -> in_small s id /\ hits cs os id < thr).
    Proof.
      intros c s' o Hc Hst. destruct s3_after as (lf & lg & lm & HS & Hl).
      pose proof (s3_in _ _ _ _ _ HS) as (Hi & Ho & Hm).
      destruct (s3_step _ s lf lg lm fuel c HS Hc ltac:(lia)) as (s1 & o1 & lf1 & lg1 & lm1 & Hst1 & HS1 & _ & H1 & H2).
      rewrite Hst in Hst1. injection Hst1 as <- <-. pose proof (s3_in _ _ _ _ _ HS1) as (Hi1 & Ho1 & Hm1).
      split; intros id.
      - rewrite Hm1, Hm, Hi, Ho. intros Hid Hn. apply H1 in Hid as [?|[?|?]]; [done|by left|by right].
      - rewrite Ho1, Ho, Hi. intros Hid Hn. by apply H2 in Hid as [?|?].
    Qed.

    (** A lookup without update changes nothing; a get hits exactly on a
        resident object, and a hit keeps the contents of all queues; a missed
        ghost goes to the main queue, another missed object smaller than the
        small queue goes to the small queue. *)
    Theorem C17_s3fifo_get : forall r, req_ok 0 r -> G (r_id r) (r_size r) ->
      (exists b, op_find s3_ops s r false = Ok (s, b)) /\
      exists s' h, cache_get_base s3_ops fuel s r = Ok (s', h) /\
        (h = true <-> resident s3_ops s (r_id r)) /\
        (h = true -> forall id, (in_small s' id <-> in_small s id) /\ (in_main s' id <-> in_main s id) /\
           (in_ghost s' id <-> in_ghost s id)) /\
        (h = false -> fsz < r_size r -> forall id, (in_small s' id <-> in_small s id) /\ (in_main s' id <-> in_main s id)) /\
        (h = false -> r_size r <= fsz ->
           (forall id, resident s3_ops s' id -> id = r_id r \/ resident s3_ops s id) /\
           (in_ghost s (r_id r) -> in_main s' (r_id r)) /\
           (~ in_ghost s (r_id r) -> r_size r < fsz -> in_small s' (r_id r)) /\
           (~ in_ghost s (r_id r) -> r_size r = fsz -> ~ resident s3_ops s' (r_id r))).
    Proof.
      intros r Hr HG. destruct s3_after as (lf & lg & lm & HS & Hl).
      pose proof (s3_in _ _ _ _ _ HS) as (Hi & Ho & Hm). pose proof (s3_res _ _ _ _ _ HS) as (HR & HA).
      split. { eexists. apply (sok_find_false G cap fsz gsz thr Hfsz _ s lf lg lm r HS). }
      destruct (sok_get G cap fsz gsz thr Hfsz _ s lf lg lm r fuel HS Hr HG ltac:(lia))
        as (s' & lf' & lg' & lm' & He & HS' & _ & Hhit & Hbig & Hmiss).
      pose proof (s3_in _ _ _ _ _ HS') as (Hi' & Ho' & Hm'). pose proof (s3_res _ _ _ _ _ HS') as (HR' & HA').
      exists s', (bool_decide (r_id r ∈ ids lf \/ r_id r ∈ ids lm)). split; [exact He|]. rewrite HR. split_and!.
      - apply bool_decide_eq_true.
      - intros Hb id. destruct (Hhit Hb) as (E1 & E2 & E3). by rewrite Hi', Ho', Hm', E1, E2, E3, Hi, Ho, Hm.
      - intros Hb Hs id. destruct (Hbig Hb Hs) as (E1 & E2 & _). by rewrite Hi', Hm', E1, E2, Hi, Hm.
      - intros Hb Hs. destruct (Hmiss Hb Hs) as (_ & H1 & H2 & _ & H3 & H4). apply bool_decide_eq_false in Hb.
        rewrite Ho. split_and!.
        + intros id. rewrite HR', HR. intros [Hid|Hid].
          * apply H1 in Hid as [?|?]; [by left|right; by left].
          * apply H2 in Hid as [?|[[? _]|[? _]]]; [right; by right|right; by left|by left].
        + rewrite Hm'. done.
        + rewrite Hi'. intros Hg Hlt. by apply H4.
        + rewrite HR'. intros Hg Heq. destruct (H4 Hg) as [_ H5]. destruct (H5 Heq). tauto.
    Qed.

    (** remove takes the id out of all three queues and touches nothing else;
        its answer is true also for a mere ghost. *)
    Theorem C17_s3fifo_remove : forall id,
      exists s' b, op_remove s3_ops s id = Ok (s', b) /\
        (b = true <-> resident s3_ops s id \/ in_ghost s id) /\
        ~ in_small s' id /\ ~ in_ghost s' id /\ ~ in_main s' id /\
        forall j, j <> id -> (in_small s' j <-> in_small s j) /\ (in_ghost s' j <-> in_ghost s j) /\ (in_main s' j <-> in_main s j).
    Proof.
      intros id. destruct s3_after as (lf & lg & lm & HS & Hl).
      pose proof (s3_in _ _ _ _ _ HS) as (Hi & Ho & Hm). pose proof (s3_res _ _ _ _ _ HS) as (HR & HA).
      destruct (sok_remove G cap fsz gsz thr Hfsz _ s lf lg lm id HS) as (s' & He & H').
      pose proof (s3_in _ _ _ _ _ H') as (Hi' & Ho' & Hm').
      eexists _, _. split; [exact He|]. rewrite bool_decide_eq_true, HR, Ho, Hi', Ho', Hm', !elem_ids_del.
      split_and!; try tauto. intros j Hj. rewrite Hi', Ho', Hm', !elem_ids_del, Hi, Ho, Hm. tauto.
    Qed.

    (** An evict makes progress: with any byte cached, either an object leaves or
        one moves from the small to the main queue; nothing enters from outside. *)
    Theorem C17_s3fifo_evict : forall r,
      exists s', op_evict s3_ops s r = Ok s' /\
        (forall id, resident s3_ops s' id -> resident s3_ops s id) /\
        (forall id, in_small s' id -> in_small s id) /\
        op_occupied s3_ops s' <= op_occupied s3_ops s /\
        (op_occupied s3_ops s > 0 ->
           op_nobj fifo_ops (s_fifo s') + op_nobj s3_ops s' < op_nobj fifo_ops (s_fifo s) + op_nobj s3_ops s).
    Proof.
      intros r. destruct s3_after as (lf & lg & lm & HS & Hl).
      pose proof (s3_in _ _ _ _ _ HS) as (Hi & Ho & Hm). pose proof (s3_res _ _ _ _ _ HS) as (HR & HA).
      pose proof (s3_nobj _ _ _ _ _ HS) as (Hn & Hocc).
      destruct (sok_evict G cap fsz gsz thr Hfsz _ s lf lg lm r HS)
        as (s1 & lf1 & lg1 & lm1 & He & HS1 & _ & (d & Hd) & Hm1 & Hg1 & Hb & Hl1 & Hdec).
      pose proof (s3_in _ _ _ _ _ HS1) as (Hi' & Ho' & Hm'). pose proof (s3_res _ _ _ _ _ HS1) as (HR' & HA').
      pose proof (s3_nobj _ _ _ _ _ HS1) as (Hn' & Hocc').
      assert (Hsub : forall id, id ∈ ids lf1 -> id ∈ ids lf).
      { intros id Hid. rewrite Hd, ids_app. apply elem_of_app. by left. }
      exists s1. split_and!; try done.
      - intros id. rewrite HR', HR. intros [Hid|Hid]; [left; by apply Hsub|]. apply Hm1 in Hid as [?|[? _]]; [by right|by left].
      - intros id. rewrite Hi', Hi. apply Hsub.
      - lia.
      - rewrite Hocc, Hn, Hn'. intros Hpos. specialize (Hdec Hpos). cbn [op_nobj fifo_ops]. unfold q_nobj.
        rewrite (qok_nobj _ _ _ _ (sok_f _ _ _ _ _ _ _ _ _ _ HS)), (qok_nobj _ _ _ _ (sok_f _ _ _ _ _ _ _ _ _ _ HS1)). lia.
    Qed.
  End After.
End Props.

(** A program in which objects are demoted to ghosts, a ghost hit and enough
    hits lead to the main queue, the main queue overflows, and one call to
    evict moves everything to the main queue without evicting. *)
Definition u1 (id : Z) : call := CGet (mkReq id 1 0 0 0).
Example C17_s3fifo_ex :
  let cs := [u1 1; u1 2; u1 2; u1 2; u1 3; u1 4; u1 5; u1 6; u1 1; u1 7; u1 3; u1 3; u1 8; u1 8; u1 8; u1 9; CRemove 9; u1 4] in
  Forall (comp_call (fun _ z => z = 1) 0) cs /\
  (let! (s, os) := run s3_ops 40 (s3_init 5 2 3 2) cs in
     Ok (q_q (s_fifo s), q_q <$> s_gq s, q_q (s_main s), hits cs os 8, os)) =
  Ok ([4; 8], Some [7; 6; 5], [3; 1; 2], 2,
      [OBool false; OBool false; OBool true; OBool true; OBool false; OBool false; OBool false; OBool false;
       OBool false; OBool false; OBool false; OBool true; OBool false; OBool true; OBool true; OBool false; OBool true; OBool false]).
Proof.
  split; [|vm_compute; reflexivity].
  repeat (apply Forall_cons; split; [cbn; unfold req_ok; cbn; lia|]). constructor.
Qed.

(** Refuted (C06 for S3-FIFO): can_insert accepts an object as large as the small
    queue and objects are evicted for it, but it is not inserted.  In
    particular a cache whose small queue has size 0 (any cache below 10 bytes
    with the default ratio) never caches anything. *)
Theorem C17_s3fifo_admit_refuted :
  (let! (s, os) := run s3_ops 40 (s3_init 4 2 3 2) [u1 1; u1 2; u1 3; u1 4; CGet (mkReq 5 2 0 0 0); CGet (mkReq 5 2 0 0 0)] in
     Ok (op_nobj s3_ops s, os)) =
  Ok (2, [OBool false; OBool false; OBool false; OBool false; OBool false; OBool false]).
Proof. vm_compute. reflexivity. Qed.

Theorem C17_s3fifo_small_cache_refuted : forall cap gsz thr cs fuel, 0 <= cap ->
  Forall (fun c => exists r, c = CGet r /\ req_ok 0 r) cs -> (1 <= fuel)%nat ->
  exists s os, run s3_ops fuel (s3_init cap 0 gsz thr) cs = Ok (s, os) /\ Forall (fun o => o = OBool false) os.
Proof.
  intros cap gsz thr cs fuel Hcap Hcs Hfu.
  pose (G := fun _ _ : Z => True).
  assert (Hfz : 0 <= 0 <= cap) by lia.
  cut (forall H s, sok G H cap 0 gsz thr s [] [] [] ->
    exists s' os, run s3_ops fuel s cs = Ok (s', os) /\ Forall (fun o => o = OBool false) os).
  { intros Hx. apply (Hx (fun _ => 0)). by apply sok_init. }
  induction Hcs as [|c cs (r & -> & Hr) _ IH]; intros H s HS.
  { exists s, []. by split. }
  cbn [run step].
  destruct (sok_get G cap 0 gsz thr Hfz H s [] [] [] r fuel HS Hr I ltac:(cbn; lia))
    as (s' & lf' & lg' & lm' & -> & HS' & _ & _ & Hbig & Hmiss).
  assert (Hnil : forall l : qlist, (forall id, id ∉ ids l) -> l = []).
  { intros [|[k o] l] Hl; [done|]. exfalso. apply (Hl k). apply elem_of_list_here. }
  assert (Hf : bool_decide (r_id r ∈ ids [] \/ r_id r ∈ ids []) = false).
  { apply bool_decide_eq_false_2. intros [?%elem_of_nil|?%elem_of_nil]; done. }
  rewrite Hf in *.
  assert (lf' = [] /\ lg' = [] /\ lm' = []) as (-> & -> & ->).
  { destruct (decide (r_size r <= 0)) as [Hs|Hs].
    - destruct (Hmiss eq_refl Hs) as (_ & H1 & H2 & H3 & _ & H4).
      destruct (H4 (not_elem_of_nil _)) as [_ H5]. destruct H5 as [H5 H6]; [unfold req_ok in Hr; lia|].
      split_and!; apply Hnil; intros id Hid.
      + apply H1 in Hid as Hid'. destruct Hid' as [->|?%elem_of_nil]; done.
      + apply H3 in Hid as [?%elem_of_nil|[?%elem_of_nil _]]; done.
      + apply H2 in Hid as [?%elem_of_nil|[[?%elem_of_nil _]|[_ ?%elem_of_nil]]]; done.
    - destruct (Hbig eq_refl ltac:(lia)) as (-> & -> & ->). done. }
  cbn [rbind]. destruct (IH _ s' HS') as (s2 & os & -> & Hos). cbn [rbind].
  exists s2, (OBool false :: os). split; [done|]. by constructor.
Qed.

(** Refuted (C05 for S3-FIFO): remove answers true for a ghost. *)
Theorem C17_s3fifo_remove_ghost_refuted :
  (let! (s, os) := run s3_ops 40 (s3_init 4 2 3 2) [u1 1; u1 2; u1 3; u1 4; u1 5; CFind (mkReq 1 1 0 0 0) false; CRemove 1] in
     Ok os) =
  Ok [OBool false; OBool false; OBool false; OBool false; OBool false; OBool false; OBool true].
Proof. vm_compute. reflexivity. Qed.
