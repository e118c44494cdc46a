(** C70: S3LRU, around an LRU or Clock main cache, keeps its small queue, its
    ghost and its main cache disjoint and within the cache size, moves an object
    to the main cache exactly when it has the configured number of hits or comes
    back from the ghost, and every client program runs to completion. *)
From stdpp Require Import gmap list numbers fin_maps.
From Verif Require Import Base Driver Abs AbsFacts Sim ModelQueue QueueFacts SimQueue ClockFacts SimClock
  QList SpecApi SpecComp CompFacts ModelTwoQ ModelS3FIFO S3Facts PropsS3FIFO ModelQDLP QDLPFacts PropsQDLP ModelS3LRU S3LRUFacts.
Open Scope Z_scope.

(** Where an object is. *)
Definition l_in_small {M} (s : l3 M) (id : Z) : Prop := resident fifo_ops (l_fifo s) id.
Definition l_in_main {M} (O : ops M) (s : l3 M) (id : Z) : Prop := resident O (l_main s) id.
Definition l_in_ghost {M} (s : l3 M) (id : Z) : Prop :=
  match l_gq s with Some q => resident lru_ops q id | None => False end.

(** The client calls: get, find and remove always; evict when all objects have a
    positive size (otherwise it can crash: [C70_evict_refuted]).  A find with
    update can promote the object and must name its size. *)
Definition l3_call (G : Z -> Z -> Prop) (c : call) : Prop :=
  comp_call G 0 c /\
  match c with
  | CEvict _ => forall id z, G id z -> 0 < z
  | CFind r true => req_ok 0 r /\ G (r_id r) (r_size r)
  | _ => True
  end.

Section Props.
  Context {M : Type} (pol : policy) (O : ops M) (R : M -> abs -> Prop) (main0 : M).
  Context (cap fsz gsz thr : Z) (pr : bool) (G : Z -> Z -> Prop).
  Context (Hfsz : 0 <= fsz <= cap) (Hthr : 0 < thr) (HGf : forall id z z', G id z -> G id z' -> z = z').
  Context (HS : simulation pol (sized O cap) cap 0 (req_ok 0) R) (HR0 : R main0 (abs_init AdmNone)).
  Notation s0 := (l3_init cap fsz gsz 0 thr pr main0).
  Notation ok H := (lok R G cap fsz gsz thr pr H).

  Lemma l3_in H s lf lg t m : ok H s lf lg t m -> (forall id, l_in_small s id <-> id ∈ ids lf) /\
    (forall id, l_in_ghost s id <-> id ∈ ids lg) /\ (forall id, l_in_main O s id <-> is_Some (m !! id)).
  Proof using All.
    intros []. unfold l_in_small, l_in_ghost, l_in_main. split; [|split].
    - apply (in_q fifo_ops _ _ _ _ lok_f). by left.
    - unfold gok in lok_g. destruct (l_gq s) as [q|].
      + apply (in_q lru_ops _ _ _ _ (proj1 lok_g)). by right.
      + subst. intros id. split; [done|]. intros H1. by apply elem_of_nil in H1.
    - intros id. unfold resident.
      assert (HF : forall r, op_find O (l_main s) r false = Ok (l_main s, bool_decide (is_Some (m !! r_id r))))
        by (intros r; exact (sim_find_false _ _ _ _ _ _ HS _ _ r lok_m)).
      split.
      + intros HR. destruct (HR (mkReq id 0 0 0 0) eq_refl) as (s' & Hf).
        rewrite HF in Hf. injection Hf as _ Hf. by apply bool_decide_eq_true in Hf.
      + intros Hid r <-. exists (l_main s). rewrite HF. by rewrite bool_decide_eq_true_2.
  Qed.

  Lemma l3_res H s lf lg t m : ok H s lf lg t m ->
    (forall id, resident (l3_ops O) s id <-> id ∈ ids lf \/ is_Some (m !! id)) /\
    (forall id, absent (l3_ops O) s id <-> ~ (id ∈ ids lf \/ is_Some (m !! id))).
  Proof using All.
    intros HD. unfold resident, absent. cbn [op_find l3_ops].
    assert (HF : forall r, l3_find O s r false = Ok (s, bool_decide (r_id r ∈ ids lf \/ is_Some (m !! r_id r))))
      by (intros r; eapply (lok_find_false pol O R G cap fsz gsz thr pr Hfsz Hthr HGf HS); exact HD).
    split; intros id; split.
    - intros HR. destruct (HR (mkReq id 0 0 0 0) eq_refl) as (s' & Hf). rewrite HF in Hf.
      injection Hf as _ Hf. by apply bool_decide_eq_true in Hf.
    - intros Hid r <-. exists s. rewrite HF. by rewrite bool_decide_eq_true_2.
    - intros HR. destruct (HR (mkReq id 0 0 0 0) eq_refl) as (s' & Hf). rewrite HF in Hf.
      injection Hf as _ Hf. by apply bool_decide_eq_false in Hf.
    - intros Hid r <-. exists s. rewrite HF. by rewrite bool_decide_eq_false_2.
  Qed.

  Lemma l3_nobj H s lf lg t m : ok H s lf lg t m ->
    op_nobj (l3_ops O) s = Z.of_nat (length lf + size m) /\
    op_occupied (l3_ops O) s = bytes 0 lf + msum 0 m /\
    op_occupied O (l_main s) = msum 0 m /\ op_occupied fifo_ops (l_fifo s) = bytes 0 lf.
  Proof using All.
    intros []. pose proof (sim_nobj _ _ _ _ _ _ HS _ _ lok_m) as H1. pose proof (sim_occ _ _ _ _ _ _ HS _ _ lok_m) as H2.
    cbn in H1, H2 |- *. unfold q_nobj, q_occ. rewrite (qok_nobj _ _ _ _ lok_f), (qok_occ _ _ _ _ lok_f), H1, H2.
    split_and!; try done; lia.
  Qed.

  Lemma l3_pos H s lf lg t m : ok H s lf lg t m -> (forall id z, G id z -> 0 < z) ->
    0 < op_nobj (l3_ops O) s -> bytes 0 lf + msum 0 m > 0.
  Proof using All.
    intros HD HG Hn. destruct (l3_nobj _ _ _ _ _ _ HD) as [Hn' _]. rewrite Hn' in Hn.
    pose proof (lok_bytes pol O R G cap fsz gsz thr pr Hfsz Hthr HGf HS _ _ _ _ _ _ HD) as [Hb1 Hb2].
    destruct lf as [|x lf].
    - cbn in Hn. destruct (decide (m = ∅)) as [->|Hne]; [rewrite map_size_empty in Hn; lia|].
      apply map_choose in Hne as (id & e & He). rewrite <- (insert_delete _ _ _ He).
      rewrite msum_insert by apply lookup_delete.
      assert (HGm : forall id e, m !! id = Some e -> G id (e_size e)) by apply HD.
      pose proof (HG _ _ (HGm _ _ He)) as HGe.
      assert (0 <= msum 0 (delete id m)).
      { apply msum_nonneg; [lia|]. intros j e'. rewrite lookup_delete_Some. intros [_ Hj].
        pose proof (HG _ _ (HGm _ _ Hj)). lia. }
      lia.
    - pose proof (bytes_pos G (x :: lf) HG ltac:(apply HD) ltac:(done)). lia.
  Qed.

  Lemma l3_step H s lf lg t m fuel c : ok H s lf lg t m -> l3_call G c ->
    (2 * length lf + size m <= fuel)%nat ->
    exists s' o lf' lg' t' m', step (l3_ops O) fuel s c = Ok (s', o) /\ ok (hits_step H c o) s' lf' lg' t' m' /\
      (length lf' + size m' <= length lf + size m + 1)%nat /\
      (forall id, is_Some (m' !! id) -> is_Some (m !! id) \/ (id ∈ ids lf /\ hits_step H c o id >= thr) \/
         (id ∈ ids lg /\ exists r, c = CGet r /\ r_id r = id)) /\
      (forall id, id ∈ ids lg' -> id ∈ ids lg \/ (id ∈ ids lf /\ H id < thr)).
  Proof using All.
    intros HD [Hc Hev] Hfu. destruct c as [r|r u|r|id|r|r]; cbn [comp_call] in Hc; try done; cbn [step].
    - destruct Hc as [Hr HG].
      destruct (lok_get pol O R G cap fsz gsz thr pr Hfsz Hthr HGf HS H s lf lg t m r fuel HD Hr HG Hfu)
        as (s' & lf' & lg' & t' & m' & -> & HS' & Hl & Hhit & Hbig & Hmiss). cbn [rbind].
      eexists s', _, lf', lg', t', m'. split; [done|].
      destruct (bool_decide (r_id r ∈ ids lf \/ is_Some (m !! r_id r))) eqn:Eb.
      + destruct (Hhit eq_refl) as (-> & Hcase). split; [done|]. split; [done|]. split; [|intros id Hid; by left].
        intros id Hid. destruct (decide (r_id r ∈ ids lf ∧ pr = true ∧ H (r_id r) + 1 >= thr)) as [(Hf & _ & Hge)|_].
        * destruct Hcase as [_ Hm]. apply Hm in Hid as [->|?]; [|by left]. right. left. split; [done|].
          cbn [hits_step]. rewrite decide_True by done. done.
        * destruct Hcase as [_ Hm]. left. by apply Hm.
      + apply bool_decide_eq_false in Eb. destruct (decide (r_size r <= fsz)) as [Hs|Hs].
        * destruct (Hmiss eq_refl Hs) as (_ & _ & Hm & Hg & _). split; [done|]. split; [done|]. split; [|done].
          intros id Hid. apply Hm in Hid as [?|[(Hf & _ & Hge)|[-> ?]]]; [by left|right; left; split; [done|]|].
          { cbn [hits_step]. rewrite decide_False; [done|]. intros ->. apply Eb. by left. }
          right. right. split; [done|]. by exists r.
        * destruct (Hbig eq_refl ltac:(lia)) as (-> & -> & ->).
          split; [done|]. split; [done|]. split; intros id Hid; left; [done|by apply del_sub in Hid].
    - cbn [op_find l3_ops]. destruct u.
      + destruct Hev as [Hr HG].
        destruct (lok_find_true pol O R G cap fsz gsz thr pr Hfsz Hthr HGf HS H s lf lg t m r HD Hr HG)
          as (s' & b & lf' & lg' & t' & m' & -> & -> & HS' & Hl & HF & HT).
        cbn [rbind]. eexists s', _, lf', lg', t', m'. split; [done|].
        destruct (bool_decide (r_id r ∈ ids lf \/ is_Some (m !! r_id r))) eqn:Eb.
        * destruct (HT eq_refl) as (-> & Hcase). split; [done|]. split; [lia|]. split; [|intros id Hid; by left].
          intros id Hid. destruct (decide (r_id r ∈ ids lf ∧ pr = true ∧ H (r_id r) + 1 >= thr)) as [(Hf & _ & Hge)|_].
          -- destruct Hcase as [_ Hm]. apply Hm in Hid as [->|?]; [|by left]. right. left. split; [done|].
             cbn [hits_step]. rewrite decide_True by done. done.
          -- destruct Hcase as [_ Hm]. left. by apply Hm.
        * destruct (HF eq_refl) as (-> & -> & -> & _). split; [done|]. split; [lia|]. split; [intros; by left|].
          intros id Hid. left. by apply del_sub in Hid.
      + rewrite (lok_find_false pol O R G cap fsz gsz thr pr Hfsz Hthr HGf HS H s lf lg t m r HD). cbn [rbind].
        eexists s, _, lf, lg, t, m. split; [done|]. split; [by destruct (bool_decide _)|]. split; [lia|]. split; intros; by left.
    - cbn [op_remove l3_ops].
      destruct (lok_remove pol O R G cap fsz gsz thr pr Hfsz Hthr HGf HS H s lf lg t m id HD) as (s' & -> & HS'). cbn [rbind].
      eexists s', _, _, _, _, _. split; [done|]. split; [exact HS'|].
      pose proof (length_del_le id lf). pose proof (size_delete_le m id).
      split; [lia|]. split; intros j Hj; left; [|by apply del_sub in Hj].
      apply lookup_delete_is_Some in Hj. tauto.
    - destruct (decide (op_nobj (l3_ops O) s <= 0)).
      { eexists s, _, lf, lg, t, m. split; [done|]. split; [done|]. split; [lia|]. split; intros; by left. }
      cbn [op_evict l3_ops].
      destruct (lok_evict_w pol O R G cap fsz gsz thr pr Hfsz Hthr HGf HS H s lf lg t m r HD) as
        (s1 & lf1 & lg1 & t1 & m1 & -> & HS1 & _ & _ & Hm & Hg & _ & Hl & _).
      { eapply l3_pos; [done..|lia]. }
      cbn [rbind]. eexists s1, _, lf1, lg1, t1, m1. split; [done|]. split; [done|]. split; [lia|]. split; [|done].
      intros id Hid. apply Hm in Hid as [?|(? & _ & ?)]; [by left|right; by left].
  Qed.

  Lemma l3_run cs : forall H s lf lg t m fuel, ok H s lf lg t m -> Forall (l3_call G) cs ->
    (2 * (length lf + size m + length cs) <= fuel)%nat ->
    exists s' os lf' lg' t' m', run (l3_ops O) fuel s cs = Ok (s', os) /\ ok (hits_of H cs os) s' lf' lg' t' m' /\
      (length lf' + size m' <= length lf + size m + length cs)%nat.
  Proof using All.
    induction cs as [|c cs IH]; intros H s lf lg t m fuel HD Hc Hf.
    - exists s, [], lf, lg, t, m. split; [done|]. split; [done|]. cbn. lia.
    - apply Forall_cons in Hc as [Hc Hcs]. cbn [length] in Hf. cbn [run].
      destruct (l3_step H s lf lg t m fuel c HD Hc ltac:(lia)) as (s1 & o & lf1 & lg1 & t1 & m1 & -> & H1 & Hl & _).
      cbn [rbind]. destruct (IH (hits_step H c o) s1 lf1 lg1 t1 m1 fuel H1 Hcs ltac:(lia))
          as (s' & os & lf' & lg' & t' & m' & -> & H' & Hl').
      cbn [rbind length]. exists s', (o :: os), lf', lg', t', m'. split; [done|]. split; [done|]. lia.
  Qed.

  Lemma l3_from_init cs fuel : Forall (l3_call G) cs -> (2 * length cs <= fuel)%nat ->
    exists s os lf lg t m, run (l3_ops O) fuel s0 cs = Ok (s, os) /\ ok (hits cs os) s lf lg t m /\
      (length lf + size m <= length cs)%nat.
  Proof using All.
    intros Hcs Hf. destruct (l3_run cs (fun _ => 0) s0 [] [] 0 ∅ fuel) as (s & os & lf & lg & t & m & Hr & HD & Hl).
    - by apply (lok_init pol O R G cap fsz gsz thr pr Hfsz Hthr HGf HS).
    - done.
    - rewrite map_size_empty. cbn. lia.
    - rewrite map_size_empty in Hl. exists s, os, lf, lg, t, m. by split_and!.
  Qed.

  (** Every program completes (for the whole program together, two evictions per
      call are enough). *)
  Theorem C70_completes : forall cs fuel, Forall (l3_call G) cs -> (2 * length cs <= fuel)%nat ->
    exists s os, run (l3_ops O) fuel s0 cs = Ok (s, os).
  Proof using All.
    intros cs fuel Hcs Hf. destruct (l3_from_init cs fuel Hcs Hf) as (s & os & _ & _ & _ & _ & Hr & _). by exists s, os.
  Qed.

  Section After.
    Context (cs : list call) (fuel : nat) (s : l3 M) (os : list obs).
    Context (Hcs : Forall (l3_call G) cs) (Hfu : (2 * length cs <= fuel)%nat)
            (Hrun : run (l3_ops O) fuel s0 cs = Ok (s, os)).

    Lemma l3_after : exists lf lg t m, ok (hits cs os) s lf lg t m /\ (length lf + size m <= length cs)%nat.
    Proof using All.
      destruct (l3_from_init cs fuel Hcs Hfu) as (s' & os' & lf & lg & t & m & Hr & HD & Hl).
      rewrite Hrun in Hr. injection Hr as <- <-. by exists lf, lg, t, m.
    Qed.

    (** No id is in two of the three parts; the occupied bytes never exceed the
        configured size; the counters are the number of resident objects and their
        bytes; and with promotion on hits every object still in the small queue has
        fewer than [thr] hits. *)
    Theorem C70_invariant :
      (forall id, ~ (l_in_small s id /\ l_in_main O s id)) /\
      (forall id, ~ (l_in_small s id /\ l_in_ghost s id)) /\
      (forall id, ~ (l_in_main O s id /\ l_in_ghost s id)) /\
      (forall id, resident (l3_ops O) s id <-> l_in_small s id \/ l_in_main O s id) /\
      0 <= op_occupied (l3_ops O) s <= cap /\
      (forall q, l_gq s = Some q -> op_occupied lru_ops q <= gsz) /\
      (pr = true -> forall id, l_in_small s id -> hits cs os id < thr) /\
      exists L, ledger (l3_ops O) L G s /\ op_occupied (l3_ops O) s = total_bytes L.
    Proof using All.
      destruct l3_after as (lf & lg & t & m & HD & _). pose proof (l3_in _ _ _ _ _ _ HD) as (Hi & Ho & Hm).
      pose proof (l3_res _ _ _ _ _ _ HD) as (HR & HA). pose proof (l3_nobj _ _ _ _ _ _ HD) as (Hn & Hocc & _).
      pose proof (lok_bytes pol O R G cap fsz gsz thr pr Hfsz Hthr HGf HS _ _ _ _ _ _ HD) as [Hn1 Hn2]. pose proof HD as [].
      split; [|split; [|split; [|split; [|split; [|split; [|split]]]]]]; try lia.
      - intros id. rewrite Hi, Hm. intros [H1 [e H2]]. by rewrite (lok_fm id H1) in H2.
      - intros id. rewrite Hi, Ho. intros [? ?]. by apply (lok_fg id).
      - intros id. rewrite Ho, Hm. intros [[e H2] H1]. by rewrite (lok_gm id H1) in H2.
      - intros id. by rewrite Hi, Hm, HR.
      - intros q Hq. rewrite Hq in lok_g. destruct lok_g as [HQ Hb]. cbn. unfold q_occ. by rewrite (qok_occ _ _ _ _ HQ).
      - intros Hpr id. rewrite Hi. by apply lok_lt.
      - set (Lm := prod_map id e_size <$> map_to_list m).
        assert (Hids : Lm.*1 = (map_to_list m).*1).
        { unfold Lm. rewrite <- list_fmap_compose. by apply list_fmap_ext; intros ? []. }
        assert (Hdom : forall id, is_Some (m !! id) <-> id ∈ (map_to_list m).*1).
        { intros id. rewrite elem_of_list_fmap. split.
          - intros [e He]. exists (id, e). split; [done|]. by apply elem_of_map_to_list.
          - intros ([j e] & -> & Hj). apply elem_of_map_to_list in Hj. eauto. }
        exists (szs lf ++ Lm). split.
        + unfold ledger. rewrite fmap_app, szs_ids, Hids, app_length, szs_length. split_and!.
          * apply NoDup_app. split_and!; [apply lok_f| |apply NoDup_fst_map_to_list].
            intros id H1 [e H2]%Hdom. by rewrite (lok_fm id H1) in H2.
          * intros id. by rewrite HR, elem_of_app, Hdom.
          * intros id. by rewrite HA, elem_of_app, Hdom.
          * rewrite Hn. unfold Lm. rewrite fmap_length. done.
          * apply Forall_app. split; [by apply szs_G|]. unfold Lm. apply Forall_fmap, Forall_forall.
            intros [j e] Hj. apply elem_of_map_to_list in Hj. cbn. by apply lok_Gm.
        + rewrite Hocc, (szs_bytes 0 lf). unfold total_bytes. rewrite foldr_app.
          assert (E : msum 0 m = foldr (fun x acc => x.2 + acc) 0 Lm) by apply msum_list.
          rewrite E. clear. generalize (foldr (fun (x : Z * Z) acc => x.2 + acc) 0 Lm). intros z.
          induction (szs lf) as [|x l IH]; cbn; lia.
    Qed.

    (** Whatever the next call, an object enters the main cache only out of the
        small queue with at least [thr] hits (counting this call), or by a get on a
        remembered ghost; and it becomes a ghost only out of the small queue with
        fewer than [thr] hits. *)
    Theorem C70_promotion : forall c s' o, l3_call G c ->
      step (l3_ops O) fuel s c = Ok (s', o) ->
      (forall id, l_in_main O s' id -> ~ l_in_main O s id ->
         (l_in_small s id /\ hits (cs ++ [c]) (os ++ [o]) id >= thr) \/
         (l_in_ghost s id /\ exists r, c = CGet r /\ r_id r = id)) /\
      (forall id, l_in_ghost s' id -> ~ l_in_ghost s id -> l_in_small s id /\ hits cs os id < thr).
    Proof using All.
      intros c s' o Hc Hst. destruct l3_after as (lf & lg & t & m & HD & Hl).
      pose proof (l3_in _ _ _ _ _ _ HD) as (Hi & Ho & Hm).
      destruct (l3_step _ s lf lg t m fuel c HD Hc ltac:(lia)) as (s1 & o1 & lf1 & lg1 & t1 & m1 & Hst1 & HS1 & _ & H1 & H2).
      rewrite Hst in Hst1. injection Hst1 as <- <-. pose proof (l3_in _ _ _ _ _ _ HS1) as (Hi1 & Ho1 & Hm1).
      assert (Hlen : length cs = length os).
      { clear -Hrun. revert Hrun. generalize s0. revert os. induction cs as [|c' cs' IH]; intros os' s1; cbn [run].
        - intros [= <- <-]. done.
        - destruct (step _ fuel s1 c') as [[s2 o2]|]; [|done]. cbn [rbind].
          destruct (run _ fuel s2 cs') as [[s3 os3]|] eqn:E; [|done]. cbn [rbind]. intros [= <- <-]. cbn. f_equal. by eapply IH. }
      assert (Hh : hits (cs ++ [c]) (os ++ [o]) = hits_step (hits cs os) c o).
      { unfold hits. clear -Hlen. generalize (fun _ : Z => 0). revert os Hlen. induction cs as [|c' cs' IH]; intros [|o' os'] Hlen h; try done.
        cbn in *. apply IH. lia. }
      split; intros id.
      - rewrite Hm1, Hm, Hi, Ho, Hh. intros Hid Hn. apply H1 in Hid as [?|[?|?]]; [done|by left|by right].
      - rewrite Ho1, Ho, Hi. intros Hid Hn. by apply H2 in Hid as [?|?].
    Qed.

    (** A lookup without update changes nothing; a get hits exactly on a resident
        object; the hit that gives an object of the small queue its [thr]-th hit
        moves it to the main cache (with promotion on hits) and any other hit keeps
        the contents of all parts; a missed ghost goes to the main cache, another
        missed object to the small queue; nothing leaves while there is room. *)
    Theorem C70_get : forall r, req_ok 0 r -> G (r_id r) (r_size r) ->
      (exists b, op_find (l3_ops O) s r false = Ok (s, b)) /\
      exists s' h, cache_get_base (l3_ops O) fuel s r = Ok (s', h) /\
        (h = true <-> resident (l3_ops O) s (r_id r)) /\
        (h = true -> l_in_small s (r_id r) -> pr = true -> hits cs os (r_id r) + 1 >= thr ->
           l_in_main O s' (r_id r) /\ ~ l_in_small s' (r_id r) /\
           forall id, (l_in_ghost s' id <-> l_in_ghost s id) /\
             (id <> r_id r -> (l_in_small s' id <-> l_in_small s id) /\ (l_in_main O s' id <-> l_in_main O s id))) /\
        (h = true -> l_in_main O s (r_id r) \/ pr = false \/ hits cs os (r_id r) + 1 < thr ->
           forall id, (l_in_small s' id <-> l_in_small s id) /\ (l_in_main O s' id <-> l_in_main O s id) /\
             (l_in_ghost s' id <-> l_in_ghost s id)) /\
        (h = false -> fsz < r_size r -> forall id, (l_in_small s' id <-> l_in_small s id) /\ (l_in_main O s' id <-> l_in_main O s id)) /\
        (h = false -> r_size r <= fsz ->
           (forall id, resident (l3_ops O) s' id -> id = r_id r \/ resident (l3_ops O) s id) /\
           (l_in_ghost s (r_id r) -> l_in_main O s' (r_id r)) /\
           (~ l_in_ghost s (r_id r) -> l_in_small s' (r_id r)) /\
           (op_occupied (l3_ops O) s + r_size r <= cap ->
              forall id, (l_in_small s id -> l_in_small s' id) /\ (l_in_main O s id -> l_in_main O s' id))).
    Proof using All.
      intros r Hr HG. destruct l3_after as (lf & lg & t & m & HD & Hl).
      pose proof (l3_in _ _ _ _ _ _ HD) as (Hi & Ho & Hm). pose proof (l3_res _ _ _ _ _ _ HD) as (HR & HA).
      pose proof (l3_nobj _ _ _ _ _ _ HD) as (_ & Hocc & _).
      assert (Hfm : apart lf m) by apply HD.
      split. { eexists. apply (lok_find_false pol O R G cap fsz gsz thr pr Hfsz Hthr HGf HS _ s lf lg t m r HD). }
      destruct (lok_get pol O R G cap fsz gsz thr pr Hfsz Hthr HGf HS _ s lf lg t m r fuel HD Hr HG ltac:(lia))
        as (s' & lf' & lg' & t' & m' & He & HS' & _ & Hhit & Hbig & Hmiss).
      pose proof (l3_in _ _ _ _ _ _ HS') as (Hi' & Ho' & Hm'). pose proof (l3_res _ _ _ _ _ _ HS') as (HR' & HA').
      exists s', (bool_decide (r_id r ∈ ids lf \/ is_Some (m !! r_id r))). split; [exact He|]. rewrite HR.
      split; [apply bool_decide_eq_true|]. split; [|split; [|split]].
      - intros Hb. rewrite Hi. intros Hin Hpr Hge. destruct (Hhit Hb) as (E & Hc). rewrite decide_True in Hc by done.
        destruct Hc as (E1 & E3). rewrite Hm', Hi', E1, E3. split; [by left|]. split; [tauto|].
        intros id. rewrite Ho', Ho, Hi', Hi, Hm', Hm, E1, E3, E. split; [done|]. intros Hne. tauto.
      - intros Hb Hcond id. destruct (Hhit Hb) as (E & Hc). rewrite decide_False in Hc.
        + destruct Hc as (E1 & E3). by rewrite Hi', Ho', Hm', E1, E3, E, Hi, Ho, Hm.
        + intros (H1 & H2 & H3). rewrite Hm in Hcond. destruct Hcond as [[e Hx]|[Hx|Hx]]; [|congruence|lia].
          by rewrite (Hfm _ H1) in Hx.
      - intros Hb Hs id. destruct (Hbig Hb Hs) as (E1 & E2 & _). by rewrite Hi', Hm', E1, E2, Hi, Hm.
      - intros Hb Hs. destruct (Hmiss Hb Hs) as (_ & H1 & H2 & _ & H3 & H4 & H5). apply bool_decide_eq_false in Hb.
        rewrite Ho. split; [|split; [|split]].
        + intros id. rewrite HR', HR. intros [Hid|Hid].
          * apply H1 in Hid as [?|?]; [by left|right; by left].
          * apply H2 in Hid as [?|[(? & _)|[? _]]]; [right; by right|right; by left|by left].
        + rewrite Hm'. done.
        + rewrite Hi'. done.
        + intros Hroom id. rewrite Hocc in Hroom. rewrite Hi, Hi', Hm, Hm'. destruct (H5 Hroom) as [H6 H7]. auto.
    Qed.

    (** remove takes the id out of all three parts and touches nothing else; its
        answer is true also for a mere ghost. *)
    Theorem C70_remove : forall id,
      exists s' b, op_remove (l3_ops O) s id = Ok (s', b) /\
        (b = true <-> resident (l3_ops O) s id \/ l_in_ghost s id) /\
        ~ l_in_small s' id /\ ~ l_in_ghost s' id /\ ~ l_in_main O s' id /\
        forall j, j <> id -> (l_in_small s' j <-> l_in_small s j) /\ (l_in_ghost s' j <-> l_in_ghost s j) /\ (l_in_main O s' j <-> l_in_main O s j).
    Proof using All.
      intros id. destruct l3_after as (lf & lg & t & m & HD & Hl).
      pose proof (l3_in _ _ _ _ _ _ HD) as (Hi & Ho & Hm). pose proof (l3_res _ _ _ _ _ _ HD) as (HR & HA).
      destruct (lok_remove pol O R G cap fsz gsz thr pr Hfsz Hthr HGf HS _ s lf lg t m id HD) as (s' & He & H').
      pose proof (l3_in _ _ _ _ _ _ H') as (Hi' & Ho' & Hm').
      eexists _, _. split; [exact He|]. rewrite bool_decide_eq_true, HR, Ho, Hi', Ho', Hm', !elem_ids_del, lookup_delete_is_Some.
      split_and!; try tauto. intros j Hj. rewrite Hi', Ho', Hm', !elem_ids_del, lookup_delete_is_Some, Hi, Ho, Hm.
      naive_solver.
    Qed.

    (** An evict with any byte cached.  While the main cache is above its share or
        the small queue has no bytes, exactly one object leaves, the main cache's
        policy choosing it ([m] is the ledger of the main cache).  Otherwise the
        objects at the tail of the small queue that have [thr] hits move to the main
        cache (only without promotion on hits), and the first one with fewer hits
        leaves, for the ghost if it fits; if there is none the queue is left without
        bytes. *)
    Theorem C70_evict : forall r, op_occupied (l3_ops O) s > 0 ->
      exists s', op_evict (l3_ops O) s r = Ok s' /\
        op_occupied (l3_ops O) s' <= op_occupied (l3_ops O) s /\
        (op_occupied O (l_main s) > cap - fsz \/ op_occupied fifo_ops (l_fifo s) = 0 ->
           exists v t m, R (l_main s) (mkAbs t m AdmNone) /\ pol m v /\
             l_in_main O s v /\ (forall id, l_in_small s' id <-> l_in_small s id) /\
             (forall id, l_in_ghost s' id <-> l_in_ghost s id) /\
             (forall id, l_in_main O s' id <-> l_in_main O s id /\ id <> v)) /\
        (op_occupied O (l_main s) <= cap - fsz -> op_occupied fifo_ops (l_fifo s) <> 0 ->
           exists out moved, q_q (l_fifo s) = q_q (l_fifo s') ++ out ++ moved /\ out ++ moved <> [] /\
             (forall id, id ∈ moved -> pr = false /\ hits cs os id >= thr) /\
             (forall id, l_in_main O s' id <-> l_in_main O s id \/ id ∈ moved) /\
             match out with
             | [] => op_occupied fifo_ops (l_fifo s') = 0 /\ forall id, l_in_ghost s' id <-> l_in_ghost s id
             | [v] => hits cs os v < thr /\ ~ resident (l3_ops O) s' v /\
                      (forall id, l_in_ghost s' id -> id = v \/ l_in_ghost s id) /\
                      (forall z, G v z -> 0 < gsz -> z <= gsz -> l_in_ghost s' v)
             | _ => False
             end).
    Proof using All.
      intros r Hpos. destruct l3_after as (lf & lg & t & m & HD & Hl).
      pose proof (l3_in _ _ _ _ _ _ HD) as (Hi & Ho & Hm).
      pose proof (l3_nobj _ _ _ _ _ _ HD) as (Hn & Hocc & Hom & Hof). rewrite Hocc in Hpos.
      destruct (lok_evict pol O R G cap fsz gsz thr pr Hfsz Hthr HGf HS _ s lf lg t m r HD Hpos)
        as (s1 & lf1 & lg1 & t1 & m1 & He & HS1 & _ & Hb & Hc).
      pose proof (l3_in _ _ _ _ _ _ HS1) as (Hi' & Ho' & Hm').
      pose proof (l3_res _ _ _ _ _ _ HS1) as (HR' & _).
      pose proof (l3_nobj _ _ _ _ _ _ HS1) as (Hn' & Hocc' & Hom' & Hof').
      exists s1. split; [done|]. split; [lia|]. rewrite Hom, Hof, Hof'.
      destruct (decide (msum 0 m > cap - fsz \/ bytes 0 lf = 0)) as [Hz|Hnz].
      - split; [intros _|intros; lia]. destruct Hc as (-> & -> & v & Hv & Hp & ->).
        exists v, t, m. split; [apply HD|]. split; [done|].
        rewrite Hm. split; [done|]. split; [|split]; intros id; rewrite ?Hi', ?Hi, ?Ho', ?Ho, ?Hm', ?Hm; try done.
        rewrite lookup_delete_is_Some. naive_solver.
      - split; [intros; lia|intros _ _]. destruct Hc as (E & K & Hlf & Hne & HK & Hmm & _ & HE).
        assert (Hq1 : q_q (l_fifo s) = ids lf) by apply HD.
        assert (Hq2 : q_q (l_fifo s1) = ids lf1) by apply HS1.
        assert (HG : allG G lf) by apply HD.
        assert (Hnd : NoDup (ids lf)) by apply HD.
        exists (ids E), (ids K). rewrite Hq1, Hq2, Hlf, !ids_app. split; [done|]. split.
        { intros Hx. apply Hne. rewrite <- ids_app in Hx. by apply fmap_nil_inv in Hx. }
        split; [done|]. split.
        { intros id. by rewrite Hm', Hm, Hmm. }
        destruct E as [|[v o] [|? ?]]; [| |done]; cbn [ids fmap list_fmap fst].
        + destruct HE as [-> Hz']. split; [done|]. intros id. by rewrite Ho', Ho.
        + destruct HE as (H1 & H2 & H3). split; [done|]. split; [|split].
          * rewrite HR'. rewrite Hlf in Hnd. cbn in Hnd.
            destruct (NoDup_ids_mid lf1 v o K Hnd) as (Hv1 & Hv2 & _).
            intros [?|Hx]; [done|]. apply Hmm in Hx as [[e Hx]|?]; [|done].
            assert (Hfm : apart lf m) by apply HD. rewrite Hfm in Hx; [done|].
            rewrite Hlf, ids_app. apply elem_of_app. right. left.
          * intros id. rewrite Ho', Ho. apply H2.
          * intros z Hz' Hg Hzg. rewrite Ho'. apply H3; [done|].
            assert (o_size o = z) as ->; [|done]. eapply HGf; [|done].
            apply (allG_elem _ _ _ _ HG). rewrite Hlf. apply elem_of_app. right. left.
    Qed.
  End After.
End Props.

(** The main caches for which the theorems hold: LRU (the default) and Clock with
    any counter ("clock" has one up to 1, "clock2" one up to 3). *)
Theorem C70_mains : forall cap msz, 0 <= msz <= cap ->
  (simulation pol_lru (sized lru_ops cap) cap 0 (req_ok 0) (sized_rel (q_resize cap) (qrel e_last cap 0)) /\
     sized_rel (q_resize cap) (qrel e_last cap 0) (lru_init false msz AdmNone) (abs_init AdmNone)) /\
  (forall mf, 0 <= mf ->
     simulation pol_any (sized (clock_ops mf) cap) cap 0 (req_ok 0) (sized_rel (q_resize cap) (crel mf cap 0)) /\
     sized_rel (q_resize cap) (crel mf cap 0) (clock_init msz AdmNone) (abs_init AdmNone)).
Proof.
  intros cap msz Hm. split.
  - split; [apply sized_sim; [apply lru_resizes|apply lru_sim]|].
    split; [|done]. exact (q_init_rel e_last cap 0 AdmNone).
  - intros mf Hmf. split; [apply sized_sim; [apply clock_resizes|by apply clock_sim]|].
    split; [|done]. exact (clock_init_rel mf cap 0 AdmNone).
Qed.

Definition l3_view (s : l3 qstate) := (q_q (l_fifo s), q_q <$> l_gq s, q_q (l_main s)).

(** A run with the default main cache: the second get of 1 and 2 promotes them, 3
    and 4 become ghosts, 3 comes back into the main cache. *)
Example C70_ex :
  let cs := [u1 1; u1 1; u1 2; CFind (mkReq 2 1 0 0 0) true; u1 3; u1 4; u1 5; u1 6; u1 7; u1 3; u1 8; CRemove 7; u1 9] in
  Forall (l3_call (fun _ z => z = 1)) cs /\
  (let! (s, os) := run (l3_ops lru_ops) 40 (l3_init 5 2 3 0 1 true (lru_init false 3 AdmNone)) cs in Ok (l3_view s, os)) =
  Ok (([9; 8], Some [6; 5; 4], [3; 2; 1]),
      [OBool false; OBool true; OBool false; OBool true; OBool false; OBool false; OBool false; OBool false;
       OBool false; OBool false; OBool false; OBool true; OBool false]).
Proof.
  split; [|vm_compute; reflexivity].
  repeat (apply Forall_cons; split; [split; [cbn; unfold req_ok; cbn; lia|cbn; unfold req_ok; cbn; lia || done]|]). constructor.
Qed.

(** The same trace without promotion on hits and a Clock: the objects move when
    they reach the tail. *)
Example C70_lazy_ex :
  let cs := [u1 1; u1 1; u1 2; CFind (mkReq 2 1 0 0 0) true; u1 3; u1 4; u1 5; u1 6; u1 7; u1 3; u1 8; CEvict (mkReq 0 1 0 0 0); u1 9] in
  (let! (s, os) := run (l3_ops (clock_ops 1)) 40 (l3_init 5 2 3 0 1 false (clock_init 3 AdmNone)) cs in Ok (l3_view s, os)) =
  Ok (([9; 8], Some [7; 6; 5], [3; 2; 1]),
      [OBool false; OBool true; OBool false; OBool true; OBool false; OBool false; OBool false; OBool false;
       OBool false; OBool false; OBool false; OUnit; OBool false]).
Proof. vm_compute. reflexivity. Qed.

(** The main cache does not stay within its share: objects are promoted into it
    without a check. *)
Theorem C70_share_refuted : exists cs s os, Forall (l3_call (fun _ z => z = 1)) cs /\
  run (l3_ops lru_ops) 40 (l3_init 5 2 3 0 1 true (lru_init false 3 AdmNone)) cs = Ok (s, os) /\
  op_occupied lru_ops (l_main s) > 3.
Proof.
  exists [u1 1; u1 1; u1 2; u1 2; u1 3; u1 3; u1 4; u1 4]. eexists _, _. split.
  { repeat (apply Forall_cons; split; [split; [cbn; unfold req_ok; cbn; lia|done]|]). constructor. }
  split; [vm_compute; reflexivity|vm_compute; reflexivity].
Qed.

(** With consider_obj_metadata each object of the LRU main cache weighs 16 bytes
    more than in the small queue, and a promotion takes the cache over its size. *)
Theorem C70_metadata_refuted : exists cs s os, Forall (l3_call (fun _ z => z = 1)) cs /\
  run (l3_ops lru_ops) 40 (l3_init 50 20 30 16 1 true (lru_init true 30 AdmNone)) cs = Ok (s, os) /\
  op_occupied (l3_ops lru_ops) s > 50.
Proof.
  exists [u1 1; u1 1; u1 2; u1 2; u1 3; u1 3; u1 4; u1 4]. eexists _, _. split.
  { repeat (apply Forall_cons; split; [split; [cbn; unfold req_ok; cbn; lia|done]|]). constructor. }
  split; [vm_compute; reflexivity|vm_compute; reflexivity].
Qed.

(** Nor is the bound kept when an id changes its size: the promoted object enters
    the main cache with the size of the request that hit it, unchecked. *)
Theorem C70_resize_refuted : exists s os,
  run (l3_ops lru_ops) 40 (l3_init 5 2 3 0 1 true (lru_init false 3 AdmNone)) [u1 1; CGet (mkReq 1 7 0 0 0)] = Ok (s, os) /\
  op_occupied (l3_ops lru_ops) s > 5.
Proof. eexists _, _. split; [vm_compute; reflexivity|vm_compute; reflexivity]. Qed.

(** An evict on a cache that holds only an object of size 0 dereferences NULL, and
    to_evict always aborts. *)
Theorem C70_evict_refuted :
  run (l3_ops lru_ops) 40 (l3_init 5 2 3 0 1 true (lru_init false 3 AdmNone)) [CGet (mkReq 1 0 0 0 0); CEvict (mkReq 1 0 0 0 0)]
    = Err NullDeref /\
  forall M (O : ops M) s r, op_to_evict (l3_ops O) s r = Err AssertFail.
Proof. split; [vm_compute; reflexivity|done]. Qed.

(** remove answers true for an object that is not cached but only remembered. *)
Theorem C70_remove_refuted : exists cs s os s', Forall (l3_call (fun _ z => z = 1)) cs /\
  run (l3_ops lru_ops) 40 (l3_init 5 2 3 0 1 true (lru_init false 3 AdmNone)) cs = Ok (s, os) /\
  absent (l3_ops lru_ops) s 1 /\ op_remove (l3_ops lru_ops) s 1 = Ok (s', true).
Proof.
  exists [u1 1; CEvict (mkReq 1 1 0 0 0)]. eexists _, _, _. split.
  { repeat (apply Forall_cons; split; [split; [cbn; unfold req_ok; cbn; lia|cbn; intros; lia || done]|]). constructor. }
  split; [vm_compute; reflexivity|]. split; [|vm_compute; reflexivity].
  intros r Hr. eexists. destruct r as [rid a b c d]. cbn in Hr. subst rid. vm_compute. reflexivity.
Qed.
