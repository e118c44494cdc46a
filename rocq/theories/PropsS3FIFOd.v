(** C74: S3FIFOd, the S3-FIFO that adapts the sizes of its parts, keeps its small
    queue, ghost and main cache disjoint and within the cache size, the two sizes
    adding up to the cache size and neither falling below about a hundredth of
    it; objects move between the parts by their hits, and every client program
    runs to completion, provided a freed object can still be read. *)
From stdpp Require Import gmap list numbers fin_maps.
From Verif Require Import Base Driver Abs AbsFacts Sim ModelQueue QueueFacts SimQueue ClockFacts SimClock
  QList SpecApi SpecComp CompFacts ModelTwoQ ModelS3FIFO S3Facts PropsS3FIFO ModelQDLP QDLPFacts PropsQDLP
  S3LRUFacts ModelS3FIFOd S3dFacts.
Open Scope Z_scope.

(** Where an object is. *)
Definition x_in_small {M} (s : s3d M) (id : Z) : Prop := resident fifo_ops (x_fifo s) id.
Definition x_in_main {M} (O : ops M) (s : s3d M) (id : Z) : Prop := resident O (x_main s) id.
Definition x_in_ghost {M} (s : s3d M) (id : Z) : Prop := resident fifo_ops (x_ghost s) id.

(** The client calls: get, find and remove always; evict when all objects have a
    positive size (otherwise it can crash: [C74_evict_refuted]). *)
Definition s3d_call (G : Z -> Z -> Prop) (c : call) : Prop :=
  comp_call G 0 c /\
  match c with
  | CEvict _ => forall id z, G id z -> 0 < z
  | _ => True
  end.

(** A hundredth of the cache, less a thousandth of that. *)
Definition s3d_low (cap : Z) : Z := cap / 100 - cap / 100 / 1000.

Section Props.
  Context {M : Type} (pol : policy) (O : ops M) (mobj : M -> Z -> option cobj) (R : M -> abs -> Prop) (main0 : M).
  Context (cap fsz thr : Z) (G : Z -> Z -> Prop).
  Context (Hfsz : 0 <= fsz <= cap).
  Context (HS : simulation pol (sized O cap) cap 0 (req_ok 0) R) (HR0 : R main0 (abs_init AdmNone)).
  Context (HM : forall ms t m id e, R ms (mkAbs t m AdmNone) -> m !! id = Some e -> exists o, mobj ms id = Some o /\ orel o e).
  (** No object is larger than the main cache can become. *)
  Context (HGs : forall id z, G id z -> z <= Z.min (cap - fsz) (s3d_low cap)).
  Notation s0 := (s3d_init cap fsz thr main0).
  Notation Ops := (s3d_ops O mobj true).
  Notation ok H := (xok R G cap fsz thr H).

  Lemma s3d_in H s lf lg t m : ok H s lf lg t m -> (forall id, x_in_small s id <-> id ∈ ids lf) /\
    (forall id, x_in_ghost s id <-> id ∈ ids lg) /\ (forall id, x_in_main O s id <-> is_Some (m !! id)).
  Proof using All.
    intros []. unfold x_in_small, x_in_ghost, x_in_main. split; [|split].
    - apply (in_q fifo_ops _ _ _ _ xok_f). by left.
    - apply (in_q fifo_ops _ _ _ _ xok_g). by left.
    - intros id. unfold resident.
      assert (HF : forall r, op_find O (x_main s) r false = Ok (x_main s, bool_decide (is_Some (m !! r_id r))))
        by (intros r; exact (sim_find_false _ _ _ _ _ _ HS _ _ r xok_m)).
      split.
      + intros HR. destruct (HR (mkReq id 0 0 0 0) eq_refl) as (s' & Hf).
        rewrite HF in Hf. injection Hf as _ Hf. by apply bool_decide_eq_true in Hf.
      + intros Hid r <-. exists (x_main s). rewrite HF. by rewrite bool_decide_eq_true_2.
  Qed.

  Lemma s3d_res H s lf lg t m : ok H s lf lg t m ->
    (forall id, resident Ops s id <-> id ∈ ids lf \/ is_Some (m !! id)) /\
    (forall id, absent Ops s id <-> ~ (id ∈ ids lf \/ is_Some (m !! id))).
  Proof using All.
    intros HD. unfold resident, absent. cbn [op_find s3d_ops].
    assert (HF : forall r, s3d_find O s r false = Ok (s, bool_decide (r_id r ∈ ids lf \/ is_Some (m !! r_id r))))
      by (intros r; eapply (xok_find_false pol O mobj R G cap fsz thr Hfsz HS HM HGs); exact HD).
    split; intros id; split.
    - intros HR. destruct (HR (mkReq id 0 0 0 0) eq_refl) as (s' & Hf). rewrite HF in Hf.
      injection Hf as _ Hf. by apply bool_decide_eq_true in Hf.
    - intros Hid r <-. exists s. rewrite HF. by rewrite bool_decide_eq_true_2.
    - intros HR. destruct (HR (mkReq id 0 0 0 0) eq_refl) as (s' & Hf). rewrite HF in Hf.
      injection Hf as _ Hf. by apply bool_decide_eq_false in Hf.
    - intros Hid r <-. exists s. rewrite HF. by rewrite bool_decide_eq_false_2.
  Qed.

  Lemma s3d_nobj H s lf lg t m : ok H s lf lg t m ->
    op_nobj Ops s = Z.of_nat (length lf + size m) /\
    op_occupied Ops s = bytes 0 lf + msum 0 m /\
    op_occupied O (x_main s) = msum 0 m /\ op_occupied fifo_ops (x_fifo s) = bytes 0 lf.
  Proof using All.
    intros []. pose proof (sim_nobj _ _ _ _ _ _ HS _ _ xok_m) as H1. pose proof (sim_occ _ _ _ _ _ _ HS _ _ xok_m) as H2.
    cbn in H1, H2 |- *. unfold q_nobj, q_occ. rewrite (qok_nobj _ _ _ _ xok_f), (qok_occ _ _ _ _ xok_f), H1, H2.
    split_and!; try done; lia.
  Qed.

  Lemma s3d_pos H s lf lg t m : ok H s lf lg t m -> (forall id z, G id z -> 0 < z) ->
    0 < op_nobj Ops s -> bytes 0 lf + msum 0 m > 0.
  Proof using All.
    intros HD HG Hn. destruct (s3d_nobj _ _ _ _ _ _ HD) as [Hn' _]. rewrite Hn' in Hn.
    pose proof (xok_bytes pol O mobj R G cap fsz thr Hfsz HS HM HGs _ _ _ _ _ _ HD) as [Hb1 Hb2].
    destruct lf as [|x lf].
    - cbn in Hn. destruct (decide (m = ∅)) as [->|Hne]; [rewrite map_size_empty in Hn; lia|].
      apply map_choose in Hne as (id & e & He). rewrite <- (insert_delete _ _ _ He).
      rewrite msum_insert by apply lookup_delete.
      assert (HGm : forall id e, m !! id = Some e -> G id (e_size e)) by apply HD.
      pose proof (HG _ _ (HGm _ _ He)) as HGe.
      assert (0 <= msum 0 (delete id m)).
      { apply msum_nonneg; [lia|]. intros j e'. rewrite lookup_delete_Some. intros [_ Hj].
        pose proof (HG _ _ (HGm _ _ Hj)). lia. }
      lia.
    - pose proof (bytes_pos G (x :: lf) HG ltac:(apply HD) ltac:(done)). lia.
  Qed.

  Lemma s3d_step H s lf lg t m fuel c : ok H s lf lg t m -> s3d_call G c ->
    (2 * length lf + size m <= fuel)%nat ->
    exists s' o lf' lg' t' m', step Ops fuel s c = Ok (s', o) /\ ok (hits_step H c o) s' lf' lg' t' m' /\
      (length lf' + size m' <= length lf + size m + 1)%nat /\
      (forall id, is_Some (m' !! id) -> is_Some (m !! id) \/ (id ∈ ids lf /\ H id >= thr) \/
         (id ∈ ids lg /\ exists r, c = CGet r /\ r_id r = id)) /\
      (forall id, id ∈ ids lg' -> id ∈ ids lg \/ (id ∈ ids lf /\ H id < thr)).
  Proof using All.
    intros HD [Hc Hev] Hfu. destruct c as [r|r u|r|id|r|r]; cbn [comp_call] in Hc; try done; cbn [step].
    - destruct Hc as [Hr HG].
      destruct (xok_get pol O mobj R G cap fsz thr Hfsz HS HM HGs H s lf lg t m r fuel HD Hr HG Hfu)
        as (s' & lf' & lg' & t' & m' & -> & HS' & Hl & Hz & Hhit & Hbig & Hmiss). cbn [rbind].
      eexists s', _, lf', lg', t', m'. split; [done|].
      destruct (bool_decide (r_id r ∈ ids lf \/ is_Some (m !! r_id r))) eqn:Eb.
      + destruct (Hhit eq_refl) as (-> & _ & Hm). split; [done|]. split; [done|]. split; [|intros id Hid; by left].
        intros id Hid. left. by apply Hm.
      + destruct (decide (r_size r <= q_size (x_fifo (s3d_update s)))) as [Hs|Hs].
        * destruct (Hmiss eq_refl Hs) as (_ & _ & Hm & Hg & _). split; [done|]. split; [done|]. split; [|done].
          intros id Hid. apply Hm in Hid as [?|[?|[-> ?]]]; [by left|right; by left|].
          right. right. split; [done|]. by exists r.
        * destruct (Hbig eq_refl ltac:(lia)) as (-> & -> & ->).
          split; [done|]. split; [done|]. split; intros id Hid; left; [done|by apply del_sub in Hid].
    - cbn [op_find s3d_ops]. destruct u.
      + destruct (xok_find_true pol O mobj R G cap fsz thr Hfsz HS HM HGs H s lf lg t m r HD)
          as (s' & b & lf' & lg' & t' & m' & -> & -> & HS' & Hi & Hm & Hs & _ & HF & HT).
        cbn [rbind]. eexists s', _, lf', lg', t', m'. split; [done|].
        assert (Hlf : length lf' = length lf).
        { transitivity (length (ids lf')); [unfold ids; by rewrite fmap_length|]. rewrite Hi. unfold ids. by rewrite fmap_length. }
        destruct (bool_decide (r_id r ∈ ids lf \/ is_Some (m !! r_id r))) eqn:Eb.
        * rewrite (HT eq_refl) in *. split; [done|]. split; [lia|]. split; [|intros id Hid; by left].
          intros id Hid. left. by apply Hm.
        * destruct (HF eq_refl) as (-> & -> & -> & _). split; [done|]. split; [lia|]. split; [intros; by left|].
          intros id Hid. left. by apply del_sub in Hid.
      + rewrite (xok_find_false pol O mobj R G cap fsz thr Hfsz HS HM HGs H s lf lg t m r HD). cbn [rbind].
        eexists s, _, lf, lg, t, m. split; [done|]. split; [by destruct (bool_decide _)|]. split; [lia|]. split; intros; by left.
    - cbn [op_remove s3d_ops].
      destruct (xok_remove pol O mobj R G cap fsz thr Hfsz HS HM HGs H s lf lg t m id HD) as (s' & -> & HS'). cbn [rbind].
      eexists s', _, _, _, _, _. split; [done|]. split; [exact HS'|].
      pose proof (length_del_le id lf). pose proof (size_delete_le m id).
      split; [lia|]. split; intros j Hj; left; [|by apply del_sub in Hj].
      apply lookup_delete_is_Some in Hj. tauto.
    - destruct (decide (op_nobj Ops s <= 0)).
      { eexists s, _, lf, lg, t, m. split; [done|]. split; [done|]. split; [lia|]. split; intros; by left. }
      cbn [op_evict s3d_ops].
      destruct (xok_evict_w pol O mobj R G cap fsz thr Hfsz HS HM HGs H s lf lg t m r HD) as
        (s1 & lf1 & lg1 & t1 & m1 & -> & HS1 & _ & _ & _ & Hm & Hg & _ & Hl & _).
      { eapply s3d_pos; [done..|lia]. }
      cbn [rbind]. eexists s1, _, lf1, lg1, t1, m1. split; [done|]. split; [done|]. split; [lia|]. split; [|done].
      intros id Hid. apply Hm in Hid as [?|?]; [by left|right; by left].
  Qed.

  Lemma s3d_run cs : forall H s lf lg t m fuel, ok H s lf lg t m -> Forall (s3d_call G) cs ->
    (2 * (length lf + size m + length cs) <= fuel)%nat ->
    exists s' os lf' lg' t' m', run Ops fuel s cs = Ok (s', os) /\ ok (hits_of H cs os) s' lf' lg' t' m' /\
      (length lf' + size m' <= length lf + size m + length cs)%nat.
  Proof using All.
    induction cs as [|c cs IH]; intros H s lf lg t m fuel HD Hc Hf.
    - exists s, [], lf, lg, t, m. split; [done|]. split; [done|]. cbn. lia.
    - apply Forall_cons in Hc as [Hc Hcs]. cbn [length] in Hf. cbn [run].
      destruct (s3d_step H s lf lg t m fuel c HD Hc ltac:(lia)) as (s1 & o & lf1 & lg1 & t1 & m1 & -> & H1 & Hl & _).
      cbn [rbind]. destruct (IH (hits_step H c o) s1 lf1 lg1 t1 m1 fuel H1 Hcs ltac:(lia))
          as (s' & os & lf' & lg' & t' & m' & -> & H' & Hl').
      cbn [rbind length]. exists s', (o :: os), lf', lg', t', m'. split; [done|]. split; [done|]. lia.
  Qed.

  Lemma s3d_from_init cs fuel : Forall (s3d_call G) cs -> (2 * length cs <= fuel)%nat ->
    exists s os lf lg t m, run Ops fuel s0 cs = Ok (s, os) /\ ok (hits cs os) s lf lg t m /\
      (length lf + size m <= length cs)%nat.
  Proof using All.
    intros Hcs Hf. destruct (s3d_run cs (fun _ => 0) s0 [] [] 0 ∅ fuel) as (s & os & lf & lg & t & m & Hr & HD & Hl).
    - by apply (xok_init pol O mobj R G cap fsz thr Hfsz HS HM HGs).
    - done.
    - rewrite map_size_empty. cbn. lia.
    - rewrite map_size_empty in Hl. exists s, os, lf, lg, t, m. by split_and!.
  Qed.

  (** Every program completes (for the whole program together, two evictions per
      call are enough). *)
  Theorem C74_completes : forall cs fuel, Forall (s3d_call G) cs -> (2 * length cs <= fuel)%nat ->
    exists s os, run Ops fuel s0 cs = Ok (s, os).
  Proof using All.
    intros cs fuel Hcs Hf. destruct (s3d_from_init cs fuel Hcs Hf) as (s & os & _ & _ & _ & _ & Hr & _). by exists s, os.
  Qed.

  Section After.
    Context (cs : list call) (fuel : nat) (s : s3d M) (os : list obs).
    Context (Hcs : Forall (s3d_call G) cs) (Hfu : (2 * length cs <= fuel)%nat)
            (Hrun : run Ops fuel s0 cs = Ok (s, os)).

    Lemma s3d_after : exists lf lg t m, ok (hits cs os) s lf lg t m /\ (length lf + size m <= length cs)%nat.
    Proof using All.
      destruct (s3d_from_init cs fuel Hcs Hfu) as (s' & os' & lf & lg & t & m & Hr & HD & Hl).
      rewrite Hrun in Hr. injection Hr as <- <-. by exists lf, lg, t, m.
    Qed.

    (** The adapted sizes: those of the small queue and of the main cache add up to
        the cache size, that of the ghost moves along with the small queue, and
        neither part falls below [s3d_low], unless it started there. *)
    Theorem C74_sizes :
      op_size fifo_ops (x_fifo s) + x_msz s = cap /\
      op_size fifo_ops (x_ghost s) - (cap - fsz) = op_size fifo_ops (x_fifo s) - fsz /\
      Z.min fsz (s3d_low cap) <= op_size fifo_ops (x_fifo s) /\
      Z.min (cap - fsz) (s3d_low cap) <= x_msz s /\
      0 <= op_size fifo_ops (x_fifo s) <= cap.
    Proof using All.
      destruct s3d_after as (lf & lg & t & m & HD & _). destruct HD. cbn [op_size fifo_ops]. unfold s3d_low.
      rewrite xok_gs. split_and!; lia.
    Qed.

    (** No id is in two of the three parts; the occupied bytes never exceed the
        configured size; the counters are the number of resident objects and their
        bytes. *)
    Theorem C74_invariant :
      (forall id, ~ (x_in_small s id /\ x_in_main O s id)) /\
      (forall id, ~ (x_in_small s id /\ x_in_ghost s id)) /\
      (forall id, ~ (x_in_main O s id /\ x_in_ghost s id)) /\
      (forall id, resident Ops s id <-> x_in_small s id \/ x_in_main O s id) /\
      0 <= op_occupied Ops s <= cap /\
      exists L, ledger Ops L G s /\ op_occupied Ops s = total_bytes L.
    Proof using All.
      destruct s3d_after as (lf & lg & t & m & HD & _). pose proof (s3d_in _ _ _ _ _ _ HD) as (Hi & Ho & Hm).
      pose proof (s3d_res _ _ _ _ _ _ HD) as (HR & HA). pose proof (s3d_nobj _ _ _ _ _ _ HD) as (Hn & Hocc & _).
      pose proof (xok_bytes pol O mobj R G cap fsz thr Hfsz HS HM HGs _ _ _ _ _ _ HD) as [Hn1 Hn2]. pose proof HD as [].
      split; [|split; [|split; [|split; [|split]]]]; try lia.
      - intros id. rewrite Hi, Hm. intros [H1 [e H2]]. by rewrite (xok_fm id H1) in H2.
      - intros id. rewrite Hi, Ho. intros [? ?]. by apply (xok_fg id).
      - intros id. rewrite Ho, Hm. intros [[e H2] H1]. by rewrite (xok_gm id H1) in H2.
      - intros id. by rewrite Hi, Hm, HR.
      - set (Lm := prod_map id e_size <$> map_to_list m).
        assert (Hids : Lm.*1 = (map_to_list m).*1).
        { unfold Lm. rewrite <- list_fmap_compose. by apply list_fmap_ext; intros ? []. }
        assert (Hdom : forall id, is_Some (m !! id) <-> id ∈ (map_to_list m).*1).
        { intros id. rewrite elem_of_list_fmap. split.
          - intros [e He]. exists (id, e). split; [done|]. by apply elem_of_map_to_list.
          - intros ([j e] & -> & Hj). apply elem_of_map_to_list in Hj. eauto. }
        exists (szs lf ++ Lm). split.
        + unfold ledger. rewrite fmap_app, szs_ids, Hids, app_length, szs_length. split_and!.
          * apply NoDup_app. split_and!; [apply xok_f| |apply NoDup_fst_map_to_list].
            intros id H1 [e H2]%Hdom. by rewrite (xok_fm id H1) in H2.
          * intros id. by rewrite HR, elem_of_app, Hdom.
          * intros id. by rewrite HA, elem_of_app, Hdom.
          * rewrite Hn. unfold Lm. rewrite fmap_length. done.
          * apply Forall_app. split; [by apply szs_G|]. unfold Lm. apply Forall_fmap, Forall_forall.
            intros [j e] Hj. apply elem_of_map_to_list in Hj. cbn. by apply xok_Gm.
        + rewrite Hocc, (szs_bytes 0 lf). unfold total_bytes. rewrite foldr_app.
          assert (E : msum 0 m = foldr (fun x acc => x.2 + acc) 0 Lm) by apply msum_list.
          rewrite E. clear. generalize (foldr (fun (x : Z * Z) acc => x.2 + acc) 0 Lm). intros z.
          induction (szs lf) as [|x l IH]; cbn; lia.
    Qed.

    (** Whatever the next call, an object enters the main cache only out of the
        small queue with at least [thr] hits, or by a get on a remembered ghost; and
        it becomes a ghost only out of the small queue with fewer than [thr] hits. *)
    Theorem C74_promotion : forall c s' o, s3d_call G c ->
      step Ops fuel s c = Ok (s', o) ->
      (forall id, x_in_main O s' id -> ~ x_in_main O s id ->
         (x_in_small s id /\ hits cs os id >= thr) \/
         (x_in_ghost s id /\ exists r, c = CGet r /\ r_id r = id)) /\
      (forall id, x_in_ghost s' id -> ~ x_in_ghost s id -> x_in_small s id /\ hits cs os id < thr).
    Proof using All.
      intros c s' o Hc Hst. destruct s3d_after as (lf & lg & t & m & HD & Hl).
      pose proof (s3d_in _ _ _ _ _ _ HD) as (Hi & Ho & Hm).
      destruct (s3d_step _ s lf lg t m fuel c HD Hc ltac:(lia)) as (s1 & o1 & lf1 & lg1 & t1 & m1 & Hst1 & HS1 & _ & H1 & H2).
      rewrite Hst in Hst1. injection Hst1 as <- <-. pose proof (s3d_in _ _ _ _ _ _ HS1) as (Hi1 & Ho1 & Hm1).
      split; intros id.
      - rewrite Hm1, Hm, Hi, Ho. intros Hid Hn. apply H1 in Hid as [?|[?|?]]; [done|by left|by right].
      - rewrite Ho1, Ho, Hi. intros Hid Hn. by apply H2 in Hid as [?|?].
    Qed.

    (** A lookup without update changes nothing; a get hits exactly on a resident
        object and a hit keeps the contents of all parts; a missed object no larger
        than the (just adapted) small queue enters, a ghost the main cache, another
        the small queue; a larger one does not.  While there is room nothing leaves
        (for a ghost: while there is also room in the main cache). *)
    Theorem C74_get : forall r, req_ok 0 r -> G (r_id r) (r_size r) ->
      (exists b, op_find Ops s r false = Ok (s, b)) /\
      exists s' h, cache_get_base Ops fuel s r = Ok (s', h) /\
        (h = true <-> resident Ops s (r_id r)) /\
        (h = true -> forall id, (x_in_small s' id <-> x_in_small s id) /\ (x_in_main O s' id <-> x_in_main O s id) /\
           (x_in_ghost s' id <-> x_in_ghost s id)) /\
        (h = false -> op_size fifo_ops (x_fifo s') < r_size r ->
           forall id, (x_in_small s' id <-> x_in_small s id) /\ (x_in_main O s' id <-> x_in_main O s id)) /\
        (h = false -> r_size r <= op_size fifo_ops (x_fifo s') ->
           (forall id, resident Ops s' id -> id = r_id r \/ resident Ops s id) /\
           (x_in_ghost s (r_id r) -> x_in_main O s' (r_id r)) /\
           (~ x_in_ghost s (r_id r) -> x_in_small s' (r_id r)) /\
           (op_occupied Ops s + r_size r <= cap ->
              (forall id, x_in_small s id -> x_in_small s' id) /\
              (~ x_in_ghost s (r_id r) \/ op_occupied O (x_main s) + r_size r <= x_msz s' ->
                 forall id, x_in_main O s id -> x_in_main O s' id))).
    Proof using All.
      intros r Hr HG. destruct s3d_after as (lf & lg & t & m & HD & Hl).
      pose proof (s3d_in _ _ _ _ _ _ HD) as (Hi & Ho & Hm). pose proof (s3d_res _ _ _ _ _ _ HD) as (HR & HA).
      pose proof (s3d_nobj _ _ _ _ _ _ HD) as (_ & Hocc & Hom & _).
      split. { eexists. apply (xok_find_false pol O mobj R G cap fsz thr Hfsz HS HM HGs _ s lf lg t m r HD). }
      destruct (xok_get pol O mobj R G cap fsz thr Hfsz HS HM HGs _ s lf lg t m r fuel HD Hr HG ltac:(lia))
        as (s' & lf' & lg' & t' & m' & He & HS' & _ & Hz & Hhit & Hbig & Hmiss).
      pose proof (s3d_in _ _ _ _ _ _ HS') as (Hi' & Ho' & Hm'). pose proof (s3d_res _ _ _ _ _ _ HS') as (HR' & HA').
      cbn [op_size fifo_ops]. rewrite <- Hz in *.
      assert (Hmz : x_msz s' = cap - q_size (x_fifo s')) by apply HS'.
      exists s', (bool_decide (r_id r ∈ ids lf \/ is_Some (m !! r_id r))). split; [exact He|]. rewrite HR.
      split; [apply bool_decide_eq_true|]. split; [|split].
      - intros Hb id. destruct (Hhit Hb) as (E & E1 & E3). by rewrite Hi', Ho', Hm', E1, E3, E, Hi, Ho, Hm.
      - intros Hb Hs id. destruct (Hbig Hb Hs) as (E1 & E2 & _). by rewrite Hi', Hm', E1, E2, Hi, Hm.
      - intros Hb Hs. destruct (Hmiss Hb Hs) as (_ & H1 & H2 & _ & H3 & H4 & H5). apply bool_decide_eq_false in Hb.
        rewrite Ho. split; [|split; [|split]].
        + intros id. rewrite HR', HR. intros [Hid|Hid].
          * apply H1 in Hid as [?|?]; [by left|right; by left].
          * apply H2 in Hid as [?|[(? & _)|[? _]]]; [right; by right|right; by left|by left].
        + rewrite Hm'. done.
        + rewrite Hi'. done.
        + intros Hroom. rewrite Hocc in Hroom. destruct (H5 Hroom) as [H6 H7]. split.
          * intros id. rewrite Hi, Hi'. auto.
          * intros Hmr id. rewrite Hm, Hm'. apply H7. rewrite Hom, Hmz in Hmr. exact Hmr.
    Qed.

    (** remove takes the id out of all three parts and touches nothing else; its
        answer is true also for a mere ghost. *)
    Theorem C74_remove : forall id,
      exists s' b, op_remove Ops s id = Ok (s', b) /\
        (b = true <-> resident Ops s id \/ x_in_ghost s id) /\
        ~ x_in_small s' id /\ ~ x_in_ghost s' id /\ ~ x_in_main O s' id /\
        forall j, j <> id -> (x_in_small s' j <-> x_in_small s j) /\ (x_in_ghost s' j <-> x_in_ghost s j) /\ (x_in_main O s' j <-> x_in_main O s j).
    Proof using All.
      intros id. destruct s3d_after as (lf & lg & t & m & HD & Hl).
      pose proof (s3d_in _ _ _ _ _ _ HD) as (Hi & Ho & Hm). pose proof (s3d_res _ _ _ _ _ _ HD) as (HR & HA).
      destruct (xok_remove pol O mobj R G cap fsz thr Hfsz HS HM HGs _ s lf lg t m id HD) as (s' & He & H').
      pose proof (s3d_in _ _ _ _ _ _ H') as (Hi' & Ho' & Hm').
      eexists _, _. split; [exact He|]. rewrite bool_decide_eq_true, HR, Ho, Hi', Ho', Hm', !elem_ids_del, lookup_delete_is_Some.
      split_and!; try tauto. intros j Hj. rewrite Hi', Ho', Hm', !elem_ids_del, lookup_delete_is_Some, Hi, Ho, Hm.
      naive_solver.
    Qed.

    (** An evict with any byte cached.  While the small queue has no bytes, one
        object leaves, the policy of the main cache choosing it ([m] is the ledger of
        the main cache).  Otherwise the oldest object [v] of the small queue leaves
        it: with [thr] hits for the main cache, which is then brought down to its
        size; else for the ghost, if it fits there. *)
    Theorem C74_evict : forall r, op_occupied Ops s > 0 ->
      exists s', op_evict Ops s r = Ok s' /\
        op_occupied Ops s' <= op_occupied Ops s /\
        (op_occupied fifo_ops (x_fifo s) = 0 ->
           exists v t m, R (x_main s) (mkAbs t m AdmNone) /\ pol m v /\
             x_in_main O s v /\ (forall id, x_in_small s' id <-> x_in_small s id) /\
             (forall id, x_in_ghost s' id <-> x_in_ghost s id) /\
             (forall id, x_in_main O s' id <-> x_in_main O s id /\ id <> v)) /\
        (op_occupied fifo_ops (x_fifo s) <> 0 ->
           exists v, q_q (x_fifo s) = q_q (x_fifo s') ++ [v] /\
             (hits cs os v >= thr ->
                (forall id, x_in_main O s' id -> id = v \/ x_in_main O s id) /\
                (forall id, x_in_ghost s' id <-> x_in_ghost s id) /\ op_occupied O (x_main s') <= x_msz s') /\
             (hits cs os v < thr ->
                ~ resident Ops s' v /\
                (forall id, x_in_main O s' id <-> x_in_main O s id) /\
                (forall id, x_in_ghost s' id -> id = v \/ x_in_ghost s id) /\
                ((forall z, G v z -> z <= op_size fifo_ops (x_ghost s)) -> x_in_ghost s' v))).
    Proof using All.
      intros r Hpos. destruct s3d_after as (lf & lg & t & m & HD & Hl).
      pose proof (s3d_in _ _ _ _ _ _ HD) as (Hi & Ho & Hm).
      pose proof (s3d_nobj _ _ _ _ _ _ HD) as (Hn & Hocc & Hom & Hof). rewrite Hocc in Hpos.
      destruct (xok_evict pol O mobj R G cap fsz thr Hfsz HS HM HGs _ s lf lg t m r HD Hpos)
        as (s1 & lf1 & lg1 & t1 & m1 & He & HS1 & _ & Hsz1 & Hb & Hc).
      pose proof (s3d_in _ _ _ _ _ _ HS1) as (Hi' & Ho' & Hm').
      pose proof (s3d_res _ _ _ _ _ _ HS1) as (HR' & _).
      pose proof (s3d_nobj _ _ _ _ _ _ HS1) as (Hn' & Hocc' & Hom' & Hof').
      exists s1. split; [done|]. split; [lia|]. rewrite Hof.
      destruct (decide (bytes 0 lf = 0)) as [Hz|Hnz].
      - split; [intros _|intros; lia]. destruct Hc as (-> & -> & v & Hv & Hp & ->).
        exists v, t, m. split; [apply HD|]. split; [done|].
        rewrite Hm. split; [done|]. split; [|split]; intros id; rewrite ?Hi', ?Hi, ?Ho', ?Ho, ?Hm', ?Hm; try done.
        rewrite lookup_delete_is_Some. naive_solver.
      - split; [intros; lia|intros _]. destruct Hc as (v & o & Hlf & Hc).
        assert (Hq1 : q_q (x_fifo s) = ids lf) by apply HD.
        assert (Hq2 : q_q (x_fifo s1) = ids lf1) by apply HS1.
        assert (HG : allG G lf) by apply HD.
        assert (Hnd : NoDup (ids lf)) by apply HD.
        assert (Hmz : x_msz s1 = x_msz s).
        { assert (x_msz s1 = cap - q_size (x_fifo s1)) by apply HS1. assert (x_msz s = cap - q_size (x_fifo s)) by apply HD. lia. }
        exists v. rewrite Hq1, Hq2, Hlf, ids_app. split; [done|].
        destruct (decide (hits cs os v >= thr)) as [Hge|Hlt].
        + split; [intros _|intros; lia]. destruct Hc as (-> & Hsub & _ & Hle). split; [|split].
          * intros id. rewrite Hm', Hm. intros [x Hx]. pose proof (lookup_weaken _ _ _ _ Hx Hsub) as Hy.
            apply lookup_insert_Some in Hy as [[<- _]|[_ ?]]; [by left|right; eauto].
          * intros id. by rewrite Ho', Ho.
          * rewrite Hom', Hmz. done.
        + split; [intros; lia|intros _]. destruct Hc as (-> & H2 & H3). split; [|split; [|split]].
          * rewrite HR'. rewrite Hlf in Hnd. destruct (NoDup_ids_mid lf1 v o [] Hnd) as (Hv1 & _).
            intros [?|[x Hx]]; [done|]. assert (Hfm : apart lf m) by apply HD. rewrite Hfm in Hx; [done|].
            rewrite Hlf, ids_app. apply elem_of_app. right. left.
          * intros id. by rewrite Hm', Hm.
          * intros id. rewrite Ho', Ho. apply H2.
          * intros Hz'. rewrite Ho'. apply H3. cbn [op_size fifo_ops] in Hz'. apply Hz'.
            apply (allG_elem _ _ _ _ HG). rewrite Hlf. apply elem_of_app. right. left.
    Qed.
  End After.
End Props.

(** Reading an object of a FIFO, LRU or Clock cache. *)
Definition q_obj (s : qstate) (id : Z) : option cobj := c_tbl (q_c s) !! id.

(** The main caches for which the theorems hold: Clock with any counter (the
    default "Clock2" has one up to 3), LRU and FIFO. *)
Theorem C74_mains : forall cap msz, 0 <= msz <= cap ->
  (forall mf, 0 <= mf ->
     simulation pol_any (sized (clock_ops mf) cap) cap 0 (req_ok 0) (sized_rel (q_resize cap) (crel mf cap 0)) /\
     sized_rel (q_resize cap) (crel mf cap 0) (clock_init msz AdmNone) (abs_init AdmNone) /\
     forall ms t m id e, sized_rel (q_resize cap) (crel mf cap 0) ms (mkAbs t m AdmNone) -> m !! id = Some e ->
       exists o, q_obj ms id = Some o /\ orel o e) /\
  (simulation pol_lru (sized lru_ops cap) cap 0 (req_ok 0) (sized_rel (q_resize cap) (qrel e_last cap 0)) /\
     sized_rel (q_resize cap) (qrel e_last cap 0) (lru_init false msz AdmNone) (abs_init AdmNone) /\
     forall ms t m id e, sized_rel (q_resize cap) (qrel e_last cap 0) ms (mkAbs t m AdmNone) -> m !! id = Some e ->
       exists o, q_obj ms id = Some o /\ orel o e) /\
  (simulation pol_fifo (sized fifo_ops cap) cap 0 (req_ok 0) (sized_rel (q_resize cap) (qrel e_ins cap 0)) /\
     sized_rel (q_resize cap) (qrel e_ins cap 0) (fifo_init msz AdmNone) (abs_init AdmNone) /\
     forall ms t m id e, sized_rel (q_resize cap) (qrel e_ins cap 0) ms (mkAbs t m AdmNone) -> m !! id = Some e ->
       exists o, q_obj ms id = Some o /\ orel o e).
Proof.
  intros cap msz Hm. split; [|split].
  - intros mf Hmf. split; [apply sized_sim; [apply clock_resizes|by apply clock_sim]|].
    split; [split; [exact (clock_init_rel mf cap 0 AdmNone)|done]|].
    intros ms t m id e [(HB & _) _] He. exact (brel_some _ _ _ _ _ _ HB He).
  - split; [apply sized_sim; [apply lru_resizes|apply lru_sim]|].
    split; [split; [exact (q_init_rel e_last cap 0 AdmNone)|done]|].
    intros ms t m id e [(HB & _) _] He. exact (brel_some _ _ _ _ _ _ HB He).
  - split; [apply sized_sim; [apply fifo_resizes|apply fifo_sim]|].
    split; [split; [exact (q_init_rel e_ins cap 0 AdmNone)|done]|].
    intros ms t m id e [(HB & _) _] He. exact (brel_some _ _ _ _ _ _ HB He).
Qed.

Notation s3d_clock keep := (s3d_ops (clock_ops 3) q_obj keep).
Definition s3d_view (s : s3d qstate) :=
  (q_q (x_fifo s), q_q (x_ghost s), q_q (x_main s), (op_size fifo_ops (x_fifo s), op_size fifo_ops (x_ghost s), x_msz s)).

(** A run that meets the hypotheses: a cache of 100 bytes with a small queue of
    99.  1, 2 and 3 are hit and move to the main cache, which has one byte and
    keeps the last; the others become ghosts, of which one is kept; it comes back
    into the main cache. *)
Example C74_ex :
  let cs := [u1 1; u1 1; u1 2; CFind (mkReq 2 1 0 0 0) true; u1 3; u1 3] ++ (u1 <$> seqZ 4 101) ++ [u1 5; CRemove 8; u1 105] in
  Forall (s3d_call (fun _ z => z = 1)) cs /\ (forall (id z : Z), z = 1 -> z <= Z.min (100 - 99) (s3d_low 100)) /\
  (let! (s, os) := run (s3d_clock true) 400 (s3d_init 100 99 1 (clock_init 1 AdmNone)) cs in
   Ok (take 3 (q_q (x_fifo s)), last (q_q (x_fifo s)), q_q (x_ghost s), q_q (x_main s), drop 107 os)) =
  Ok ([105; 104; 103], Some 7, [6], [5], [OBool false; OBool true; OBool false]).
Proof.
  cbn zeta. split; [|split; [intros ? ? ->; vm_compute; discriminate|vm_compute; reflexivity]].
  apply Forall_app. split; [repeat (apply Forall_cons; split; [split; [cbn; unfold req_ok; cbn; lia|done]|]); constructor|].
  apply Forall_app. split.
  - apply Forall_fmap, Forall_forall. intros id _. split; [cbn; unfold req_ok; cbn; lia|done].
  - repeat (apply Forall_cons; split; [split; [cbn; unfold req_ok; cbn; lia|done]|]); constructor.
Qed.

(** Every eviction from a small queue that has bytes reads the object after it was
    freed, whatever the state and whatever is cached: in C this is undefined. *)
Theorem C74_use_after_free_refuted :
  (forall M (O : ops M) mobj s r s', op_evict (s3d_ops O mobj false) s r = Ok s' -> op_occupied fifo_ops (x_fifo s) = 0) /\
  run (s3d_clock false) 40 (s3d_init 10 1 1 (clock_init 9 AdmNone)) (u1 <$> seqZ 1 11) = Err UseAfterFree.
Proof.
  split; [|vm_compute; reflexivity]. intros M O mobj s r s'. cbn [op_evict op_occupied s3d_ops fifo_ops]. unfold s3d_evict.
  destruct (decide (q_occ (x_fifo s) = 0)) as [H|_]; [done|].
  destruct (last (q_q (x_fifo s))); [|done]. destruct (c_tbl (q_c (x_fifo s)) !! z); [|done].
  destruct (q_remove (x_fifo s) z) as [[f [|]]|]; done.
Qed.

(** The requests of a client that comes back for what the small queue has just
    evicted: after a hundred of them the small queue grows. *)
Definition s3d_warm : list Z :=
  [1;1;2;2;3;3;4;4;5;5;6;6;7;7;8;8;9;9;10;10;11;12;13;14;15;16;11;12] ++
  flat_map (fun k => let k := 2 * Z.of_nat k in [17 + k; 18 + k; 13 + k; 14 + k]) (seq 0 50).

Example C74_adapts_ex :
  (let! (s, _) := run (s3d_clock true) 40 (s3d_init 10 5 1 (clock_init 5 AdmNone)) (u1 <$> s3d_warm) in Ok (s3d_view s)) =
  Ok ([116; 115; 114; 113], [], [112; 111; 110; 109], (6, 6, 4)).
Proof. vm_compute. reflexivity. Qed.

(** Without the bound on object sizes a get crashes even if freed objects can be
    read: an object of 5 bytes fits the small queue of 6 and the ghost, but not the
    main cache of 4; when it comes back from the ghost the main cache refuses it
    and S3FIFOd_insert dereferences NULL. *)
Theorem C74_large_object_refuted : exists cs, Forall (s3d_call (fun _ z => 1 <= z <= 5)) cs /\
  run (s3d_clock true) 40 (s3d_init 10 5 1 (clock_init 5 AdmNone)) cs = Err NullDeref.
Proof.
  exists ((u1 <$> s3d_warm) ++ [CGet (mkReq 500 5 0 0 0); u1 300; u1 301; u1 302; u1 303; u1 304; CGet (mkReq 500 5 0 0 0)]).
  split; [|vm_compute; reflexivity]. apply Forall_app. split.
  - apply Forall_fmap, Forall_forall. intros id _. split; [cbn; unfold req_ok; cbn; lia|done].
  - repeat (apply Forall_cons; split; [split; [cbn; unfold req_ok; cbn; lia|done]|]). constructor.
Qed.

(** An evict on a cache that holds only an object of size 0 dereferences NULL, and
    to_evict always aborts. *)
Theorem C74_evict_refuted :
  run (s3d_clock true) 40 (s3d_init 10 5 1 (clock_init 5 AdmNone)) [CGet (mkReq 1 0 0 0 0); CEvict (mkReq 1 0 0 0 0)]
    = Err NullDeref /\
  forall M (O : ops M) mobj keep s r, op_to_evict (s3d_ops O mobj keep) s r = Err AssertFail.
Proof. split; [vm_compute; reflexivity|done]. Qed.

(** remove answers true for an object that is not cached but only remembered. *)
Theorem C74_remove_refuted : exists cs s os s', Forall (s3d_call (fun _ z => z = 1)) cs /\
  run (s3d_clock true) 40 (s3d_init 10 5 1 (clock_init 5 AdmNone)) cs = Ok (s, os) /\
  absent (s3d_clock true) s 1 /\ op_remove (s3d_clock true) s 1 = Ok (s', true).
Proof.
  exists [u1 1; CEvict (mkReq 1 1 0 0 0)]. eexists _, _, _. split.
  { repeat (apply Forall_cons; split; [split; [cbn; unfold req_ok; cbn; lia|cbn; intros; lia || done]|]). constructor. }
  split; [vm_compute; reflexivity|]. split; [|vm_compute; reflexivity].
  intros r Hr. eexists. destruct r as [rid a b c d]. cbn in Hr. subst rid. vm_compute. reflexivity.
Qed.
