(** C55: QDLP, around any main cache that keeps the contract of a single-queue
    cache (proved for LRU, FIFO, Clock and Sieve), keeps its fifo, its ghost
    fifo and its main cache disjoint and within the cache size, promotes lazily
    and demotes quickly, and every client program runs to completion. *)
From stdpp Require Import gmap list numbers fin_maps.
From Verif Require Import Base Driver Abs AbsFacts Sim ModelQueue QueueFacts SimQueue ClockFacts SimClock SimSieve
  QList SpecApi SpecComp CompFacts ModelTwoQ ModelS3FIFO S3Facts PropsS3FIFO ModelQDLP QDLPFacts.
Open Scope Z_scope.

(** Where an object is. *)
Definition d_in_fifo {M} (s : qd M) (id : Z) : Prop := resident fifo_ops (d_fifo s) id.
Definition d_in_main {M} (O : ops M) (s : qd M) (id : Z) : Prop := resident O (d_main s) id.
Definition d_in_ghost {M} (s : qd M) (id : Z) : Prop :=
  match d_gq s with Some q => resident fifo_ops q id | None => False end.

(** The client calls: get, find and remove always; evict when all objects have a
    positive size (otherwise it can crash: [C55_qdlp_evict_refuted]). *)
Definition qd_call (G : Z -> Z -> Prop) (c : call) : Prop :=
  comp_call G 0 c /\ match c with CEvict _ => forall id z, G id z -> 0 < z | _ => True end.

Lemma bytes_pos (G : Z -> Z -> Prop) l : (forall id z, G id z -> 0 < z) -> allG G l -> l <> [] -> 0 < bytes 0 l.
Proof.
  intros HG Hl Hne. assert (Hn : forall l', allG G l' -> 0 <= bytes 0 l').
  { induction l' as [|x l' IH]; intros Hl'; [done|]. apply Forall_cons in Hl' as [H1 H2].
    rewrite bytes_cons. specialize (IH H2). apply HG in H1. cbn in H1. lia. }
  destruct l as [|x l]; [done|]. apply Forall_cons in Hl as [H1 H2]. rewrite bytes_cons.
  apply HG in H1. specialize (Hn _ H2). cbn in H1. lia.
Qed.

Lemma msum_list m : msum 0 m = foldr (fun x acc => x.2 + acc) 0 (prod_map id e_size <$> map_to_list m).
Proof.
  unfold msum, map_fold. unfold compose. induction (map_to_list m) as [|[j e] l IH]; [done|].
  rewrite fmap_cons. cbn [foldr]. rewrite IH. cbn. lia.
Qed.

Section Props.
  Context {M : Type} (pol : policy) (O : ops M) (R : M -> abs -> Prop) (main0 : M).
  Context (cap fsz gsz thr : Z) (G : Z -> Z -> Prop).
  (** The fifo takes at most half of the cache (the default is a tenth); needed
      for a ghost that comes back to fit in the main cache. *)
  Context (Hfsz : 0 <= fsz) (Hhalf : 2 * fsz <= cap).
  Context (HS : simulation pol O (cap - fsz) 0 (req_ok 0) R) (HR0 : R main0 (abs_init AdmNone)).
  Notation s0 := (qd_init cap fsz gsz thr main0).
  Notation ok H := (dok R G cap fsz gsz thr H).
  Lemma Hf2 : 0 <= fsz <= cap. Proof using Hfsz Hhalf. lia. Qed.
  Lemma Hle : fsz <= cap - fsz. Proof using Hhalf. lia. Qed.

  Lemma qd_in H s lf lg t m : ok H s lf lg t m -> (forall id, d_in_fifo s id <-> id ∈ ids lf) /\
    (forall id, d_in_ghost s id <-> id ∈ ids lg) /\ (forall id, d_in_main O s id <-> is_Some (m !! id)).
  Proof.
    intros []. unfold d_in_fifo, d_in_ghost, d_in_main. split_and!.
    - apply (in_q fifo_ops _ _ _ _ dok_f). by left.
    - unfold gok in dok_g. destruct (d_gq s) as [q|].
      + apply (in_q fifo_ops _ _ _ _ (proj1 dok_g)). by left.
      + subst. intros id. split; [done|]. intros H1. by apply elem_of_nil in H1.
    - intros id. unfold resident. split.
      + intros HR. destruct (HR (mkReq id 0 0 0 0) eq_refl) as (s' & Hf).
        rewrite (sim_find_false _ _ _ _ _ _ HS _ _ _ dok_m) in Hf. injection Hf as _ Hf. by apply bool_decide_eq_true in Hf.
      + intros Hid r <-. exists (d_main s). rewrite (sim_find_false _ _ _ _ _ _ HS _ _ _ dok_m). cbn.
        by rewrite bool_decide_eq_true_2.
  Qed.

  Lemma qd_res H s lf lg t m : ok H s lf lg t m ->
    (forall id, resident (qd_ops O) s id <-> id ∈ ids lf \/ is_Some (m !! id)) /\
    (forall id, absent (qd_ops O) s id <-> ~ (id ∈ ids lf \/ is_Some (m !! id))).
  Proof.
    intros HD. unfold resident, absent. cbn [op_find qd_ops].
    assert (HF : forall r, qd_find O s r false = Ok (s, bool_decide (r_id r ∈ ids lf \/ is_Some (m !! r_id r))))
      by (intros r; eapply (dok_find_false pol O R G cap fsz gsz thr Hf2 HS); exact HD).
    split; intros id; split.
    - intros HR. destruct (HR (mkReq id 0 0 0 0) eq_refl) as (s' & Hf). rewrite HF in Hf.
      injection Hf as _ Hf. by apply bool_decide_eq_true in Hf.
    - intros Hid r <-. exists s. rewrite HF. by rewrite bool_decide_eq_true_2.
    - intros HR. destruct (HR (mkReq id 0 0 0 0) eq_refl) as (s' & Hf). rewrite HF in Hf.
      injection Hf as _ Hf. by apply bool_decide_eq_false in Hf.
    - intros Hid r <-. exists s. rewrite HF. by rewrite bool_decide_eq_false_2.
  Qed.

  Lemma qd_nobj H s lf lg t m : ok H s lf lg t m ->
    op_nobj (qd_ops O) s = Z.of_nat (length lf + size m) /\
    op_occupied (qd_ops O) s = bytes 0 lf + msum 0 m.
  Proof.
    intros []. cbn. unfold q_nobj, q_occ. rewrite (qok_nobj _ _ _ _ dok_f), (qok_occ _ _ _ _ dok_f).
    rewrite (sim_nobj _ _ _ _ _ _ HS _ _ dok_m), (sim_occ _ _ _ _ _ _ HS _ _ dok_m). cbn. split; lia.
  Qed.

  Lemma qd_pos H s lf lg t m : ok H s lf lg t m -> (forall id z, G id z -> 0 < z) ->
    0 < op_nobj (qd_ops O) s -> bytes 0 lf + msum 0 m > 0.
  Proof.
    intros HD HG Hn. destruct (qd_nobj _ _ _ _ _ _ HD) as [Hn' _]. rewrite Hn' in Hn.
    pose proof (dok_bytes _ _ _ _ _ _ _ _ _ _ _ _ HD) as [Hb1 Hb2].
    destruct lf as [|x lf].
    - cbn in Hn. destruct (decide (m = ∅)) as [->|Hne]; [rewrite map_size_empty in Hn; lia|].
      apply map_choose in Hne as (id & e & He). rewrite <- (insert_delete _ _ _ He).
      rewrite msum_insert by apply lookup_delete.
      pose proof (dok_Gm _ _ _ _ _ _ _ _ _ _ _ _ HD _ _ He) as HGe. apply HG in HGe.
      assert (0 <= msum 0 (delete id m)).
      { apply msum_nonneg; [lia|]. intros j e'. rewrite lookup_delete_Some. intros [_ Hj].
        pose proof (dok_Gm _ _ _ _ _ _ _ _ _ _ _ _ HD _ _ Hj) as HGj. apply HG in HGj. lia. }
      lia.
    - pose proof (bytes_pos G (x :: lf) HG (dok_Gf _ _ _ _ _ _ _ _ _ _ _ _ HD) ltac:(done)). lia.
  Qed.

  Lemma qd_step H s lf lg t m fuel c : ok H s lf lg t m -> qd_call G c ->
    (2 * length lf + size m <= fuel)%nat ->
    exists s' o lf' lg' t' m', step (qd_ops O) fuel s c = Ok (s', o) /\ ok (hits_step H c o) s' lf' lg' t' m' /\
      (length lf' + size m' <= length lf + size m + 1)%nat /\
      (forall id, is_Some (m' !! id) -> is_Some (m !! id) \/ (id ∈ ids lf /\ H id >= thr) \/
         (id ∈ ids lg /\ exists r, c = CGet r /\ r_id r = id)) /\
      (forall id, id ∈ ids lg' -> id ∈ ids lg \/ (id ∈ ids lf /\ H id < thr)).
  Proof.
    intros HD [Hc Hev] Hfu. destruct c as [r|r u|r|id|r|r]; cbn [comp_call] in Hc; try done; cbn [step].
    - destruct Hc as [Hr HG].
      destruct (dok_get pol O R G cap fsz gsz thr Hf2 HS H s lf lg t m r fuel Hle HD Hr HG Hfu)
        as (s' & lf' & lg' & t' & m' & -> & HS' & Hl & Hhit & Hbig & Hmiss). cbn [rbind].
      eexists s', _, lf', lg', t', m'. split; [done|].
      destruct (bool_decide (r_id r ∈ ids lf \/ is_Some (m !! r_id r))) eqn:Eb.
      + destruct (Hhit eq_refl) as (E1 & -> & E3). split_and!; try done; intros id Hid; [|by left].
        apply E3 in Hid. by left.
      + destruct (decide (r_size r <= fsz)) as [Hs|Hs].
        * destruct (Hmiss eq_refl Hs) as (_ & _ & Hm & Hg & _). split_and!; try done.
          intros id Hid. apply Hm in Hid as [?|[?|[-> ?]]]; [by left|right; by left|].
          right. right. split; [done|]. by exists r.
        * destruct (Hbig eq_refl ltac:(lia)) as (-> & -> & ->).
          split_and!; try done; intros id Hid; left; [done|by apply del_sub in Hid].
    - cbn [op_find qd_ops]. destruct u.
      + destruct (dok_find_true pol O R G cap fsz gsz thr Hf2 HS H s lf lg t m r HD) as (s' & b & lf' & lg' & t' & m' & -> & -> & HS' & E1 & E2 & E3 & HF & HT).
        cbn [rbind]. eexists s', _, lf', lg', t', m'. split; [done|].
        assert (length (ids lf') = length (ids lf)) as L1 by (by rewrite E1).
        unfold ids in L1. rewrite !fmap_length in *.
        destruct (bool_decide (r_id r ∈ ids lf \/ is_Some (m !! r_id r))) eqn:Eb.
        * rewrite (HT eq_refl) in *. split_and!; try done; [lia| |intros; by left].
          intros id Hid. apply E2 in Hid. by left.
        * destruct (HF eq_refl) as (-> & -> & -> & _). split_and!; try done; [lia|intros; by left|].
          intros id Hid. left. by apply del_sub in Hid.
      + rewrite (dok_find_false pol O R G cap fsz gsz thr Hf2 HS H s lf lg t m r HD). cbn [rbind].
        eexists s, _, lf, lg, t, m. split_and!; try done; [lia|intros; by left|intros; by left].
    - cbn [op_remove qd_ops].
      destruct (dok_remove pol O R G cap fsz gsz thr Hf2 HS H s lf lg t m id HD) as (s' & -> & HS'). cbn [rbind].
      eexists s', _, _, _, _, _. split; [done|]. split; [exact HS'|].
      pose proof (length_del_le id lf). pose proof (size_delete_le m id).
      split_and!; [lia| |]; intros j Hj; left; [|by apply del_sub in Hj].
      apply lookup_delete_is_Some in Hj. tauto.
    - destruct (decide (op_nobj (qd_ops O) s <= 0)).
      { eexists s, _, lf, lg, t, m. split_and!; try done; [lia|intros; by left|intros; by left]. }
      cbn [op_evict qd_ops].
      destruct (dok_evict_w pol O R G cap fsz gsz thr Hf2 HS H s lf lg t m r HD Hle) as
        (s1 & lf1 & lg1 & t1 & m1 & -> & HS1 & _ & _ & Hm & Hg & _ & Hl & _).
      { eapply qd_pos; [done..|lia]. }
      cbn [rbind]. eexists s1, _, lf1, lg1, t1, m1. split_and!; try done; [lia|].
      intros id Hid. apply Hm in Hid as [?|?]; [by left|right; by left].
  Qed.

  Lemma qd_run cs : forall H s lf lg t m fuel, ok H s lf lg t m -> Forall (qd_call G) cs ->
    (2 * (length lf + size m + length cs) <= fuel)%nat ->
    exists s' os lf' lg' t' m', run (qd_ops O) fuel s cs = Ok (s', os) /\ ok (hits_of H cs os) s' lf' lg' t' m' /\
      (length lf' + size m' <= length lf + size m + length cs)%nat.
  Proof.
    induction cs as [|c cs IH]; intros H s lf lg t m fuel HD Hc Hf.
    - exists s, [], lf, lg, t, m. split_and!; try done. cbn. lia.
    - apply Forall_cons in Hc as [Hc Hcs]. cbn [length] in Hf. cbn [run].
      destruct (qd_step H s lf lg t m fuel c HD Hc ltac:(lia)) as (s1 & o & lf1 & lg1 & t1 & m1 & -> & H1 & Hl & _).
      cbn [rbind]. destruct (IH (hits_step H c o) s1 lf1 lg1 t1 m1 fuel H1 Hcs ltac:(lia))
          as (s' & os & lf' & lg' & t' & m' & -> & H' & Hl').
      cbn [rbind length]. exists s', (o :: os), lf', lg', t', m'. split_and!; try done. lia.
  Qed.

  Lemma qd_from_init cs fuel : Forall (qd_call G) cs -> (2 * length cs <= fuel)%nat ->
    exists s os lf lg t m, run (qd_ops O) fuel s0 cs = Ok (s, os) /\ ok (hits cs os) s lf lg t m /\
      (length lf + size m <= length cs)%nat.
  Proof.
    intros Hcs Hf. destruct (qd_run cs (fun _ => 0) s0 [] [] 0 ∅ fuel) as (s & os & lf & lg & t & m & Hr & HD & Hl).
    - by apply (dok_init R G cap fsz gsz thr Hf2).
    - done.
    - rewrite map_size_empty. cbn. lia.
    - rewrite map_size_empty in Hl. exists s, os, lf, lg, t, m. by split_and!.
  Qed.

  (** Every program completes (for the whole program together, two evictions per
      call are enough). *)
  Theorem C55_qdlp_completes : forall cs fuel, Forall (qd_call G) cs -> (2 * length cs <= fuel)%nat ->
    exists s os, run (qd_ops O) fuel s0 cs = Ok (s, os).
  Proof.
    intros cs fuel Hcs Hf. destruct (qd_from_init cs fuel Hcs Hf) as (s & os & _ & _ & _ & _ & Hr & _). by exists s, os.
  Qed.

  Section After.
    Context (cs : list call) (fuel : nat) (s : qd M) (os : list obs).
    Context (Hcs : Forall (qd_call G) cs) (Hfu : (2 * length cs <= fuel)%nat)
            (Hrun : run (qd_ops O) fuel s0 cs = Ok (s, os)).

    Lemma qd_after : exists lf lg t m, ok (hits cs os) s lf lg t m /\ (length lf + size m <= length cs)%nat.
    Proof.
      destruct (qd_from_init cs fuel Hcs Hfu) as (s' & os' & lf & lg & t & m & Hr & HD & Hl).
      rewrite Hrun in Hr. injection Hr as <- <-. by exists lf, lg, t, m.
    Qed.

    (** No id is in two of the three parts; the occupied bytes never exceed the
        configured size, nor does the main cache exceed its share; the counters
        are the number of resident objects and their bytes, every size being one
        that the client asked for that id. *)
    Theorem C55_qdlp_invariant :
      (forall id, ~ (d_in_fifo s id /\ d_in_main O s id)) /\
      (forall id, ~ (d_in_fifo s id /\ d_in_ghost s id)) /\
      (forall id, ~ (d_in_main O s id /\ d_in_ghost s id)) /\
      (forall id, resident (qd_ops O) s id <-> d_in_fifo s id \/ d_in_main O s id) /\
      0 <= op_occupied (qd_ops O) s <= cap /\
      op_occupied O (d_main s) <= cap - fsz /\
      (forall q, d_gq s = Some q -> op_occupied fifo_ops q <= gsz) /\
      exists L, ledger (qd_ops O) L G s /\ op_occupied (qd_ops O) s = total_bytes L.
    Proof.
      destruct qd_after as (lf & lg & t & m & HD & _). pose proof (qd_in _ _ _ _ _ _ HD) as (Hi & Ho & Hm).
      pose proof (qd_res _ _ _ _ _ _ HD) as (HR & HA). pose proof (qd_nobj _ _ _ _ _ _ HD) as (Hn & Hocc). pose proof HD as [].
      pose proof (dok_bytes _ _ _ _ _ _ _ _ _ _ _ _ HD) as [Hn1 Hn2].
      split_and!; try lia.
      - intros id. rewrite Hi, Hm. intros [H1 [e H2]]. by rewrite (dok_fm id H1) in H2.
      - intros id. rewrite Hi, Ho. intros [? ?]. by apply (dok_fg id).
      - intros id. rewrite Ho, Hm. intros [[e H2] H1]. by rewrite (dok_gm id H1) in H2.
      - intros id. by rewrite Hi, Hm, HR.
      - rewrite (sim_occ _ _ _ _ _ _ HS _ _ dok_m). destruct dok_ok as ((_ & ?) & _). done.
      - intros q Hq. rewrite Hq in dok_g. destruct dok_g as [HQ Hb]. cbn. unfold q_occ. by rewrite (qok_occ _ _ _ _ HQ).
      - set (Lm := prod_map id e_size <$> map_to_list m).
        assert (Hids : Lm.*1 = (map_to_list m).*1).
        { unfold Lm. rewrite <- list_fmap_compose. by apply list_fmap_ext; intros ? []. }
        exists (szs lf ++ Lm). split.
        + unfold ledger. rewrite fmap_app, szs_ids, Hids, app_length, szs_length. split_and!.
          * apply NoDup_app. split_and!; [apply dok_f| |apply NoDup_fst_map_to_list].
            intros id H1 H2. apply elem_of_list_fmap in H2 as ([j e] & -> & Hj).
            apply elem_of_map_to_list in Hj. cbn in *. by rewrite (dok_fm j H1) in Hj.
          * intros id. rewrite HR, elem_of_app. apply or_iff_compat_l.
            rewrite elem_of_list_fmap. split.
            -- intros [e He]. exists (id, e). split; [done|]. by apply elem_of_map_to_list.
            -- intros ([j e] & -> & Hj). apply elem_of_map_to_list in Hj. eauto.
          * intros id. rewrite HA, elem_of_app. apply not_iff_compat, or_iff_compat_l.
            rewrite elem_of_list_fmap. split.
            -- intros [e He]. exists (id, e). split; [done|]. by apply elem_of_map_to_list.
            -- intros ([j e] & -> & Hj). apply elem_of_map_to_list in Hj. eauto.
          * rewrite Hn. unfold Lm. rewrite fmap_length. done.
          * apply Forall_app. split; [by apply szs_G|]. unfold Lm. apply Forall_fmap, Forall_forall.
            intros [j e] Hj. apply elem_of_map_to_list in Hj. cbn. by apply dok_Gm.
        + rewrite Hocc, (szs_bytes 0 lf). unfold total_bytes. rewrite foldr_app.
          assert (E : msum 0 m = foldr (fun x acc => x.2 + acc) 0 Lm).
          { apply msum_list. }
          rewrite E. clear. generalize (foldr (fun (x : Z * Z) acc => x.2 + acc) 0 Lm). intros z.
          induction (szs lf) as [|x l IH]; cbn; lia.
    Qed.

    (** Lazy promotion and quick demotion: whatever the next call, an object
        enters the main cache only out of the fifo after at least [thr] hits, or
        by a get on a remembered ghost; and it becomes a ghost only out of the
        fifo with fewer than [thr] hits. *)
    Theorem C55_qdlp_promotion : forall c s' o, qd_call G c ->
      step (qd_ops O) fuel s c = Ok (s', o) ->
      (forall id, d_in_main O s' id -> ~ d_in_main O s id ->
         (d_in_fifo s id /\ hits cs os id >= thr) \/ (d_in_ghost s id /\ exists r, c = CGet r /\ r_id r = id)) /\
      (forall id, d_in_ghost s' id -> ~ d_in_ghost s id -> d_in_fifo s id /\ hits cs os id < thr).
    Proof.
      intros c s' o Hc Hst. destruct qd_after as (lf & lg & t & m & HD & Hl).
      pose proof (qd_in _ _ _ _ _ _ HD) as (Hi & Ho & Hm).
      destruct (qd_step _ s lf lg t m fuel c HD Hc ltac:(lia)) as (s1 & o1 & lf1 & lg1 & t1 & m1 & Hst1 & HS1 & _ & H1 & H2).
      rewrite Hst in Hst1. injection Hst1 as <- <-. pose proof (qd_in _ _ _ _ _ _ HS1) as (Hi1 & Ho1 & Hm1).
      split; intros id.
      - rewrite Hm1, Hm, Hi, Ho. intros Hid Hn. apply H1 in Hid as [?|[?|?]]; [done|by left|by right].
      - rewrite Ho1, Ho, Hi. intros Hid Hn. by apply H2 in Hid as [?|?].
    Qed.

    (** A lookup without update changes nothing; a get hits exactly on a resident
        object, and a hit keeps the contents of all parts; a missed ghost goes to
        the main cache, another missed object smaller than the fifo goes to the
        fifo. *)
    Theorem C55_qdlp_get : forall r, req_ok 0 r -> G (r_id r) (r_size r) ->
      (exists b, op_find (qd_ops O) s r false = Ok (s, b)) /\
      exists s' h, cache_get_base (qd_ops O) fuel s r = Ok (s', h) /\
        (h = true <-> resident (qd_ops O) s (r_id r)) /\
        (h = true -> forall id, (d_in_fifo s' id <-> d_in_fifo s id) /\ (d_in_main O s' id <-> d_in_main O s id) /\
           (d_in_ghost s' id <-> d_in_ghost s id)) /\
        (h = false -> fsz < r_size r -> forall id, (d_in_fifo s' id <-> d_in_fifo s id) /\ (d_in_main O s' id <-> d_in_main O s id)) /\
        (h = false -> r_size r <= fsz ->
           (forall id, resident (qd_ops O) s' id -> id = r_id r \/ resident (qd_ops O) s id) /\
           (d_in_ghost s (r_id r) -> d_in_main O s' (r_id r)) /\
           (~ d_in_ghost s (r_id r) -> r_size r < fsz -> d_in_fifo s' (r_id r)) /\
           (~ d_in_ghost s (r_id r) -> r_size r = fsz -> ~ resident (qd_ops O) s' (r_id r))).
    Proof.
      intros r Hr HG. destruct qd_after as (lf & lg & t & m & HD & Hl).
      pose proof (qd_in _ _ _ _ _ _ HD) as (Hi & Ho & Hm). pose proof (qd_res _ _ _ _ _ _ HD) as (HR & HA).
      split. { eexists. apply (dok_find_false pol O R G cap fsz gsz thr Hf2 HS _ s lf lg t m r HD). }
      destruct (dok_get pol O R G cap fsz gsz thr Hf2 HS _ s lf lg t m r fuel Hle HD Hr HG ltac:(lia))
        as (s' & lf' & lg' & t' & m' & He & HS' & _ & Hhit & Hbig & Hmiss).
      pose proof (qd_in _ _ _ _ _ _ HS') as (Hi' & Ho' & Hm'). pose proof (qd_res _ _ _ _ _ _ HS') as (HR' & HA').
      exists s', (bool_decide (r_id r ∈ ids lf \/ is_Some (m !! r_id r))). split; [exact He|]. rewrite HR. split_and!.
      - apply bool_decide_eq_true.
      - intros Hb id. destruct (Hhit Hb) as (E1 & E2 & E3). by rewrite Hi', Ho', Hm', E1, E2, E3, Hi, Ho, Hm.
      - intros Hb Hs id. destruct (Hbig Hb Hs) as (E1 & E2 & _). by rewrite Hi', Hm', E1, E2, Hi, Hm.
      - intros Hb Hs. destruct (Hmiss Hb Hs) as (_ & H1 & H2 & _ & H3 & H4). apply bool_decide_eq_false in Hb.
        rewrite Ho. split_and!.
        + intros id. rewrite HR', HR. intros [Hid|Hid].
          * apply H1 in Hid as [?|?]; [by left|right; by left].
          * apply H2 in Hid as [?|[[? _]|[? _]]]; [right; by right|right; by left|by left].
        + rewrite Hm'. done.
        + rewrite Hi'. intros Hg Hlt. by apply H4.
        + rewrite HR'. intros Hg Heq. destruct (H4 Hg) as [_ H5]. destruct (H5 Heq) as [H6 H7]. rewrite H7.
          intros [?|?%is_Some_None]; done.
    Qed.

    (** remove takes the id out of all three parts and touches nothing else; its
        answer is true also for a mere ghost. *)
    Theorem C55_qdlp_remove : forall id,
      exists s' b, op_remove (qd_ops O) s id = Ok (s', b) /\
        (b = true <-> resident (qd_ops O) s id \/ d_in_ghost s id) /\
        ~ d_in_fifo s' id /\ ~ d_in_ghost s' id /\ ~ d_in_main O s' id /\
        forall j, j <> id -> (d_in_fifo s' j <-> d_in_fifo s j) /\ (d_in_ghost s' j <-> d_in_ghost s j) /\ (d_in_main O s' j <-> d_in_main O s j).
    Proof.
      intros id. destruct qd_after as (lf & lg & t & m & HD & Hl).
      pose proof (qd_in _ _ _ _ _ _ HD) as (Hi & Ho & Hm). pose proof (qd_res _ _ _ _ _ _ HD) as (HR & HA).
      destruct (dok_remove pol O R G cap fsz gsz thr Hf2 HS _ s lf lg t m id HD) as (s' & He & H').
      pose proof (qd_in _ _ _ _ _ _ H') as (Hi' & Ho' & Hm').
      eexists _, _. split; [exact He|]. rewrite bool_decide_eq_true, HR, Ho, Hi', Ho', Hm', !elem_ids_del, lookup_delete_is_Some.
      split_and!; try tauto. intros j Hj. rewrite Hi', Ho', Hm', !elem_ids_del, lookup_delete_is_Some, Hi, Ho, Hm.
      naive_solver.
    Qed.

    (** An evict with any byte cached: when the fifo holds bytes, its oldest
        object leaves it, for the main cache when it had at least [thr] hits and
        for the ghost otherwise (if there is a ghost and it can hold the object);
        when it holds none, exactly one object leaves, and the main cache's own
        policy chose it ([m] is the ledger of the main cache). *)
    Theorem C55_qdlp_evict : forall r, op_occupied (qd_ops O) s > 0 ->
      exists s', op_evict (qd_ops O) s r = Ok s' /\
        op_occupied (qd_ops O) s' <= op_occupied (qd_ops O) s /\
        (op_occupied fifo_ops (d_fifo s) <> 0 -> exists v z, op_to_evict fifo_ops (d_fifo s) r = Ok (d_fifo s, Some v) /\
           d_in_fifo s v /\ (forall id, d_in_fifo s' id <-> d_in_fifo s id /\ id <> v) /\ G v z /\
           (hits cs os v >= thr -> d_in_main O s' v /\ (forall id, d_in_main O s' id -> id = v \/ d_in_main O s id) /\
              (op_occupied O (d_main s) + z <= cap - fsz -> forall id, d_in_main O s id -> d_in_main O s' id)) /\
           (hits cs os v < thr -> (forall id, d_in_main O s' id <-> d_in_main O s id) /\
              (0 < gsz -> z <= gsz -> d_in_ghost s' v))) /\
        (op_occupied fifo_ops (d_fifo s) = 0 -> exists v t m, R (d_main s) (mkAbs t m AdmNone) /\ pol m v /\
           d_in_main O s v /\ (forall id, d_in_fifo s' id <-> d_in_fifo s id) /\
           (forall id, d_in_ghost s' id <-> d_in_ghost s id) /\
           (forall id, d_in_main O s' id <-> d_in_main O s id /\ id <> v)).
    Proof.
      intros r Hpos. destruct qd_after as (lf & lg & t & m & HD & Hl).
      pose proof (qd_in _ _ _ _ _ _ HD) as (Hi & Ho & Hm).
      pose proof (qd_nobj _ _ _ _ _ _ HD) as (Hn & Hocc). rewrite Hocc in Hpos.
      destruct (dok_evict pol O R G cap fsz gsz thr Hf2 HS _ s lf lg t m r HD Hle Hpos)
        as (s1 & lf1 & lg1 & t1 & m1 & He & HS1 & _ & Hb & Hc).
      pose proof (qd_in _ _ _ _ _ _ HS1) as (Hi' & Ho' & Hm').
      pose proof (qd_nobj _ _ _ _ _ _ HS1) as (Hn' & Hocc').
      exists s1. split; [done|]. split; [lia|].
      assert (Hfo : op_occupied fifo_ops (d_fifo s) = bytes 0 lf) by apply HD. rewrite Hfo.
      destruct (decide (bytes 0 lf = 0)) as [Hz|Hnz]; (split; [intros Hy|intros Hy]); try lia.
      - destruct Hc as (-> & -> & v & Hv & Hp & ->). exists v, t, m. split; [apply HD|]. split; [done|].
        rewrite Hm. split; [done|]. split_and!; intros id; rewrite ?Hi', ?Hi, ?Ho', ?Ho, ?Hm', ?Hm; try done.
        rewrite lookup_delete_is_Some. naive_solver.
      - destruct Hc as (v & o & -> & Hc). exists v, (o_size o).
        assert (Hq : qok fsz 0 (d_fifo s) (lf1 ++ [(v, o)])) by apply HD.
        destruct (NoDup_ids_mid lf1 v o [] (qok_nd _ _ _ _ Hq)) as (Hv1 & _).
        split; [by apply (qok_to_evict _ _ _ _ _ _ r Hq)|]. split_and!.
        + rewrite Hi, ids_app. apply elem_of_app. right. left.
        + intros id. rewrite Hi', Hi, ids_app, elem_of_app. cbn [ids fmap list_fmap fst]. rewrite elem_of_list_singleton.
          split; [intros Hx; split; [by left|by intros ->]|intros [[?|?] ?]; done].
        + eapply (allG_elem G (lf1 ++ [(v, o)])); [apply HD|]. apply elem_of_app. right. left.
        + intros Hh. rewrite decide_True in Hc by done. destruct Hc as (-> & m2 & e & Hev & ->).
          destruct (evict_to_size pol cap fsz _ _ _ Hev) as [Hss _].
          rewrite Hm', lookup_insert. split; [eauto|]. split.
          * intros id. rewrite Hm', Hm, lookup_insert_is_Some'. intros [->|[e' He']]; [by left|right].
            exists e'. by eapply lookup_weaken.
          * intros Hfit id. rewrite Hm', Hm, lookup_insert_is_Some'. intros Hid. right.
            inversion Hev as [|? ? ? Hno]; subst; [done|].
            rewrite (sim_occ _ _ _ _ _ _ HS _ _ (dok_m _ _ _ _ _ _ _ _ _ _ _ _ HD)) in Hfit. cbn in Hfit. lia.
        + intros Hh. rewrite decide_False in Hc by lia. destruct Hc as (-> & H1 & H2).
          split; [intros id; by rewrite Hm', Hm|]. intros. rewrite Ho'. by apply H2.
    Qed.
  End After.
End Props.

(** The main caches for which the theorems hold: LRU, FIFO, Clock with any
    counter (the default is n-bit-counter=2, a counter up to 3) and Sieve. *)
Theorem C55_qdlp_mains : forall msz, 0 <= msz ->
  (simulation pol_lru lru_ops msz 0 (req_ok 0) (qrel e_last msz 0) /\
     qrel e_last msz 0 (lru_init false msz AdmNone) (abs_init AdmNone)) /\
  (simulation pol_fifo fifo_ops msz 0 (req_ok 0) (qrel e_ins msz 0) /\
     qrel e_ins msz 0 (fifo_init msz AdmNone) (abs_init AdmNone)) /\
  (forall mf, 0 <= mf -> simulation pol_any (clock_ops mf) msz 0 (req_ok 0) (crel mf msz 0) /\
     crel mf msz 0 (clock_init msz AdmNone) (abs_init AdmNone)) /\
  (simulation pol_any sieve_ops msz 0 (req_ok 0) (srel msz 0) /\
     srel msz 0 (sieve_init false msz AdmNone) (abs_init AdmNone)).
Proof.
  intros msz Hm. split_and!.
  - apply lru_sim.
  - apply q_init_rel.
  - apply fifo_sim.
  - apply q_init_rel.
  - intros mf Hmf. split; [by apply clock_sim|]. apply clock_init_rel.
  - apply sieve_sim.
  - apply sieve_init_rel.
Qed.

(** A run with the default main cache: objects 1 and 2 are promoted after a hit,
    3 is demoted to the ghost and comes back into the main cache, which evicts. *)
Example C55_qdlp_ex :
  let cs := [u1 1; u1 1; u1 2; u1 2; u1 3; u1 4; u1 5; u1 6; u1 7; u1 3; u1 8; u1 8; u1 9; u1 10; CRemove 9; u1 11] in
  Forall (qd_call (fun _ z => z = 1)) cs /\
  (let! (s, os) := run (qd_ops (clock_ops 3)) 40 (qd_init 5 2 3 1 (clock_init 3 AdmNone)) cs in
     Ok (q_q (d_fifo s), q_q <$> d_gq s, q_q (d_main s), os)) =
  Ok ([11; 10], Some [7; 6; 5], [8; 3; 2],
      [OBool false; OBool true; OBool false; OBool true; OBool false; OBool false; OBool false; OBool false;
       OBool false; OBool false; OBool false; OBool true; OBool false; OBool false; OBool true; OBool false]).
Proof.
  split; [|vm_compute; reflexivity].
  repeat (apply Forall_cons; split; [split; [cbn; unfold req_ok; cbn; lia|done]|]). constructor.
Qed.

(** Refuted (C06 for QDLP): can_insert accepts an object as large as the fifo and
    objects are evicted for it, but it is not inserted. *)
Theorem C55_qdlp_admit_refuted :
  (let! (s, os) := run (qd_ops (clock_ops 3)) 40 (qd_init 4 2 3 1 (clock_init 2 AdmNone))
                     [u1 1; u1 2; u1 3; u1 4; CGet (mkReq 5 2 0 0 0); CGet (mkReq 5 2 0 0 0)] in
     Ok (op_nobj (qd_ops (clock_ops 3)) s, os)) =
  Ok (2, [OBool false; OBool false; OBool false; OBool false; OBool false; OBool false]).
Proof. vm_compute. reflexivity. Qed.

(** Refuted (C05 for QDLP): remove answers true for a ghost. *)
Theorem C55_qdlp_remove_ghost_refuted :
  (let! (s, os) := run (qd_ops (clock_ops 3)) 40 (qd_init 4 2 3 1 (clock_init 2 AdmNone))
                     [u1 1; u1 2; u1 3; u1 4; u1 5; CFind (mkReq 1 1 0 0 0) false; CRemove 1] in
     Ok os) =
  Ok [OBool false; OBool false; OBool false; OBool false; OBool false; OBool false; OBool true].
Proof. vm_compute. reflexivity. Qed.

(** Refuted (C07 for QDLP with a fifo of more than half of the cache, which
    fifo-size-ratio allows): a ghost that is larger than the main cache comes
    back, the main cache refuses it, and insert reads through NULL. *)
Theorem C55_qdlp_large_fifo_refuted :
  (let! (_, os) := run (qd_ops (clock_ops 3)) 40 (qd_init 10 8 9 1 (clock_init 2 AdmNone))
                     [CGet (mkReq 1 6 0 0 0); CGet (mkReq 2 6 0 0 0); CGet (mkReq 1 6 0 0 0)] in Ok os) =
  Err NullDeref.
Proof. vm_compute. reflexivity. Qed.

(** Refuted (C07 for QDLP's evict): with only objects of size 0, all in the
    fifo, evict goes to the empty main cache and crashes there; and to_evict is
    not implemented. *)
Theorem C55_qdlp_evict_refuted :
  (let! (_, os) := run (qd_ops lru_ops) 40 (qd_init 10 4 3 1 (lru_init false 6 AdmNone))
                     [CGet (mkReq 1 0 0 0 0); CEvict (mkReq 2 1 0 0 0)] in Ok os) = Err NullDeref /\
  (let! (_, os) := run (qd_ops lru_ops) 40 (qd_init 10 4 3 1 (lru_init false 6 AdmNone))
                     [u1 1; CToEvict (mkReq 2 1 0 0 0)] in Ok os) = Err AssertFail.
Proof. split; vm_compute; reflexivity. Qed.
