(** C78: LP_ARC, ARC around two Clock caches (LP_ARC.c, CLI name lp-arc). *)
From stdpp Require Import gmap list numbers fin_maps.
From Coq Require Import QArith.
From Verif Require Import Base Driver Abs AbsFacts Sim SimClock SpecApi SpecComp ModelQueue QueueFacts QList CompFacts ModelTwoQ ModelQDLP QDLPFacts ModelSLRU ModelARC ModelARCv0 ModelLPARC LPARCFacts PropsQDLP.
Open Scope Z_scope.

(** Where an id is, through the lookups of the four parts. *)
Definition in_t1 (s : arc0) (id : Z) : Prop := resident (clock_ops 1) (z_t1 s) id.
Definition in_t2 (s : arc0) (id : Z) : Prop := resident (clock_ops 1) (z_t2 s) id.
Definition in_b1 (s : arc0) (id : Z) : Prop := resident lru_ops (z_b1 s) id.
Definition in_b2 (s : arc0) (id : Z) : Prop := resident lru_ops (z_b2 s) id.

(** Client programs: gets of objects not larger than the cache, finds and removes,
    where every id is requested with one size. *)
Definition lpa_call (size_of : Z -> Z) (cap : Z) (c : call) : Prop :=
  match c with
  | CGet r => req_ok 0 r /\ r_size r = size_of (r_id r) /\ r_size r <= cap
  | CFind r true => req_ok 0 r /\ r_size r = size_of (r_id r)
  | CFind _ false | CRemove _ => True
  | CInsert _ | CEvict _ | CToEvict _ => False
  end.

Section Props.
  Context (rnd : Q -> Q) (size_of : Z -> Z) (cap : Z) (adm : admissioner) (Hcap : 0 <= cap).
  Notation OC := (clock_ops 1).
  Notation OO := (lpa_ops rnd OC).
  Notation R := (crel 1 cap 0).
  Notation s0 := (lpa_init false cap adm).
  Notation ok := (pok R size_of cap).

  Lemma pa_sim : simulation pol_any OC cap 0 (req_ok 0) R.
  Proof. by apply clock_sim. Qed.
  Lemma pa_tbl q t m a v e : R q (mkAbs t m a) -> m !! v = Some e ->
    exists o, c_tbl (q_c q) !! v = Some o /\ o_size o = e_size e.
  Proof.
    intros ([? ? ? ? ? Ht] & _) Hv. specialize (Ht v). cbn in Ht. rewrite Hv in Ht. inversion Ht as [o ? (Ho & _) E|]; subst. eauto.
  Qed.
  Lemma pa_occ q : op_occupied OC q = q_occ q.
  Proof. done. Qed.

  Lemma pa_in s t1 m1 b1 t2 m2 b2 : ok s t1 m1 b1 t2 m2 b2 ->
    (forall id, in_t1 s id <-> is_Some (m1 !! id)) /\ (forall id, in_t2 s id <-> is_Some (m2 !! id)) /\
    (forall id, in_b1 s id <-> id ∈ ids b1) /\ (forall id, in_b2 s id <-> id ∈ ids b2).
  Proof.
    intros []. unfold in_t1, in_t2, in_b1, in_b2. split_and!.
    - intros id. unfold resident. split.
      + intros HR. destruct (HR (mkReq id 0 0 0 0) eq_refl) as (s' & Hf).
        rewrite (sim_find_false _ _ _ _ _ _ pa_sim _ _ _ pk_t1) in Hf. injection Hf as _ Hf. by apply bool_decide_eq_true in Hf.
      + intros Hid r <-. exists (z_t1 s). rewrite (sim_find_false _ _ _ _ _ _ pa_sim _ _ _ pk_t1). cbn.
        by rewrite bool_decide_eq_true_2.
    - intros id. unfold resident. split.
      + intros HR. destruct (HR (mkReq id 0 0 0 0) eq_refl) as (s' & Hf).
        rewrite (sim_find_false _ _ _ _ _ _ pa_sim _ _ _ pk_t2) in Hf. injection Hf as _ Hf. by apply bool_decide_eq_true in Hf.
      + intros Hid r <-. exists (z_t2 s). rewrite (sim_find_false _ _ _ _ _ _ pa_sim _ _ _ pk_t2). cbn.
        by rewrite bool_decide_eq_true_2.
    - apply (in_q lru_ops _ _ _ _ pk_b1). by right.
    - apply (in_q lru_ops _ _ _ _ pk_b2). by right.
  Qed.

  Lemma pa_res s t1 m1 b1 t2 m2 b2 : ok s t1 m1 b1 t2 m2 b2 ->
    (forall id, resident OO s id <-> held id m1 m2) /\ (forall id, absent OO s id <-> ~ held id m1 m2).
  Proof.
    intros HD. unfold resident, absent. cbn [op_find lpa_ops].
    assert (HF : forall r, lpa_find rnd OC s r false = Ok (s, bool_decide (held (r_id r) m1 m2)))
      by (intros r; eapply find_false_ok; [exact pa_sim|exact HD]).
    split; intros id; split.
    - intros HR. destruct (HR (mkReq id 0 0 0 0) eq_refl) as (s' & Hf). rewrite HF in Hf.
      injection Hf as _ Hf. by apply bool_decide_eq_true in Hf.
    - intros Hid r <-. exists s. rewrite HF. by rewrite bool_decide_eq_true_2.
    - intros HR. destruct (HR (mkReq id 0 0 0 0) eq_refl) as (s' & Hf). rewrite HF in Hf.
      injection Hf as _ Hf. by apply bool_decide_eq_false in Hf.
    - intros Hid r <-. exists s. rewrite HF. by rewrite bool_decide_eq_false_2.
  Qed.

  Lemma pa_cnt s t1 m1 b1 t2 m2 b2 : ok s t1 m1 b1 t2 m2 b2 ->
    op_nobj OO s = Z.of_nat (size m1 + size m2) /\ op_occupied OO s = msum 0 m1 + msum 0 m2.
  Proof.
    intros []. cbn [op_nobj op_occupied lpa_ops].
    rewrite (sim_nobj _ _ _ _ _ _ pa_sim _ _ pk_t1), (sim_nobj _ _ _ _ _ _ pa_sim _ _ pk_t2),
      (sim_occ _ _ _ _ _ _ pa_sim _ _ pk_t1), (sim_occ _ _ _ _ _ _ pa_sim _ _ pk_t2). cbn [a_m]. split; lia.
  Qed.

  Lemma pa_step s t1 m1 b1 t2 m2 b2 fuel c : ok s t1 m1 b1 t2 m2 b2 -> 0 <= c_nreq (z_c s) -> lpa_call size_of cap c ->
    (size m1 + size m2 <= fuel)%nat ->
    exists s' o t1' m1' b1' t2' m2' b2', step OO fuel s c = Ok (s', o) /\ ok s' t1' m1' b1' t2' m2' b2' /\
      0 <= c_nreq (z_c s') /\ (size m1' + size m2' <= size m1 + size m2 + 1)%nat.
  Proof.
    intros H Hn Hc Hf. destruct c as [r|r u|r|id|r|r]; cbn [lpa_call] in Hc; try done; cbn [step].
    - destruct Hc as (Hr & Hs & Hle).
      destruct (get_ok rnd pol_any OC R size_of cap pa_sim pa_tbl pa_occ s _ _ _ _ _ _ r fuel H Hr Hs Hle Hn Hf)
        as (s' & t1' & m1' & b1' & t2' & m2' & b2' & -> & H' & Hl & Hn' & _). cbn [rbind].
      eexists s', _, t1', m1', b1', t2', m2', b2'. split_and!; done.
    - cbn [op_find lpa_ops]. destruct u.
      + destruct Hc as (Hr & Hs).
        destruct (find_true_ok rnd pol_any OC R size_of cap pa_sim pa_occ s _ _ _ _ _ _ r H Hr Hs)
          as (s' & t1' & m1' & b1' & t2' & m2' & b2' & -> & H' & Hc & Hl & _). cbn [rbind].
        eexists s', _, t1', m1', b1', t2', m2', b2'. split; [done|]. split; [done|]. rewrite Hc. split; [done|lia].
      + rewrite (find_false_ok rnd pol_any OC R size_of cap pa_sim _ _ _ _ _ _ _ r H). cbn [rbind].
        eexists s, _, t1, m1, b1, t2, m2, b2. split_and!; try done. lia.
    - cbn [op_remove lpa_ops].
      destruct (remove_ok pol_any OC R size_of cap pa_sim pa_occ s _ _ _ _ _ _ id H) as (s' & -> & Hc' & H'). cbn [rbind].
      eexists s', _, t1, _, b1, t2, _, b2. split; [done|]. split; [exact H'|]. rewrite Hc'. split; [done|].
      assert (forall m : gmap Z entry, size (delete id m) <= size m)%nat as Hd.
      { intros m. rewrite map_size_delete. destruct (m !! id); cbn; lia. }
      pose proof (Hd m1). pose proof (Hd m2). lia.
  Qed.

  Lemma pa_run cs : forall s t1 m1 b1 t2 m2 b2 fuel, ok s t1 m1 b1 t2 m2 b2 -> 0 <= c_nreq (z_c s) ->
    Forall (lpa_call size_of cap) cs -> (size m1 + size m2 + length cs <= fuel)%nat ->
    exists s' os t1' m1' b1' t2' m2' b2', run OO fuel s cs = Ok (s', os) /\ ok s' t1' m1' b1' t2' m2' b2' /\ 0 <= c_nreq (z_c s').
  Proof.
    induction cs as [|c cs IH]; intros s t1 m1 b1 t2 m2 b2 fuel H Hn Hc Hf.
    - eexists s, [], t1, m1, b1, t2, m2, b2. done.
    - apply Forall_cons in Hc as [Hc Hcs]. cbn [length] in Hf. cbn [run].
      destruct (pa_step s _ _ _ _ _ _ fuel c H Hn Hc ltac:(lia)) as (s1 & o & u1 & n1 & c1 & u2 & n2 & c2 & -> & H1 & Hn1 & Hl).
      cbn [rbind]. destruct (IH s1 _ _ _ _ _ _ fuel H1 Hn1 Hcs ltac:(lia)) as (s' & os & u3 & n3 & c3 & u4 & n4 & c4 & -> & H' & Hn').
      cbn [rbind]. eexists s', _, u3, n3, c3, u4, n4, c4. done.
  Qed.

  Lemma pa_start : ok s0 0 ∅ [] 0 ∅ [].
  Proof using Hcap.
    assert (HA : abs_ok cap 0 (mkAbs 0 ∅ AdmNone)).
    { split; [cbn; rewrite msum_empty; lia|]. split; [|done]. cbn. intros id e. by rewrite lookup_empty. }
    split; cbn; try done; try apply clock_init_rel; try (by apply qok_init); try (intros ? ?%elem_of_nil; done).
  Qed.

  Lemma pa_reach s : comp_reaches OO s0 (lpa_call size_of cap) s ->
    exists t1 m1 b1 t2 m2 b2, ok s t1 m1 b1 t2 m2 b2 /\ 0 <= c_nreq (z_c s).
  Proof using Hcap.
    intros (cs & fuel & os & Hcs & Hf & Hr).
    destruct (pa_run cs _ _ _ _ _ _ _ fuel pa_start (Z.le_refl 0) Hcs) as (s' & os' & t1 & m1 & b1 & t2 & m2 & b2 & Hr' & H' & Hn).
    { rewrite map_size_empty. lia. }
    rewrite Hr in Hr'. injection Hr' as <- <-. by exists t1, m1, b1, t2, m2, b2.
  Qed.

  (** Every such program completes: no null pointer, no endless loop. *)
  Theorem C78_completes_partial : forall cs fuel, Forall (lpa_call size_of cap) cs -> (length cs <= fuel)%nat ->
    exists s os, run OO fuel s0 cs = Ok (s, os).
  Proof using Hcap.
    intros cs fuel Hcs Hf. destruct (pa_run cs _ _ _ _ _ _ _ fuel pa_start (Z.le_refl 0) Hcs) as (s & os & ? & ? & ? & ? & ? & ? & Hr & _).
    { rewrite map_size_empty. lia. }
    by exists s, os.
  Qed.

  (** Residents are what T1 and T2 hold; no id is in two of T1, T2, B1, B2; the
      residents' bytes stay within the cache, and the counters are the number of
      residents and the sum of their sizes. *)
  Theorem C78_invariant_partial : forall s, comp_reaches OO s0 (lpa_call size_of cap) s ->
    (forall id, resident OO s id <-> in_t1 s id \/ in_t2 s id) /\
    (forall id, ~ (in_t1 s id /\ in_t2 s id) /\ ~ (in_b1 s id /\ in_b2 s id) /\
                ~ (resident OO s id /\ (in_b1 s id \/ in_b2 s id))) /\
    0 <= op_occupied OO s <= cap /\
    exists L, ledger OO L (fun id z => z = size_of id) s /\ op_occupied OO s = total_bytes L.
  Proof using Hcap.
    intros s (t1 & m1 & b1 & t2 & m2 & b2 & H & _)%pa_reach. pose proof (pa_in _ _ _ _ _ _ _ H) as (I1 & I2 & J1 & J2).
    pose proof (pa_res _ _ _ _ _ _ _ H) as (HR & HA). pose proof (pa_cnt _ _ _ _ _ _ _ H) as (Hn & Hocc).
    pose proof (mb R size_of cap _ _ _ _ _ _ _ H) as [B1 B2]. pose proof H as []. split_and!.
    - intros id. by rewrite HR, I1, I2.
    - intros id. rewrite I1, I2, J1, J2, HR. unfold held. split_and!.
      + intros [F1 F2]. rewrite (pk_tt id F1) in F2. by destruct F2.
      + intros [F1 F2]. by apply (pk_bb id).
      + intros [[[e F]|[e F]] [G|G]]; [rewrite (pk_11 id G) in F|rewrite (pk_21 id G) in F|rewrite (pk_12 id G) in F|rewrite (pk_22 id G) in F]; done.
    - lia.
    - lia.
    - set (f := fun m : gmap Z entry => prod_map id e_size <$> map_to_list m).
      assert (Hids : forall m, (f m).*1 = (map_to_list m).*1).
      { intros m. unfold f. rewrite <- list_fmap_compose. by apply list_fmap_ext; intros ? []. }
      assert (Hin : forall (m : gmap Z entry) id, is_Some (m !! id) <-> id ∈ (map_to_list m).*1).
      { intros m id. rewrite elem_of_list_fmap. split.
        - intros [e He]. exists (id, e). split; [done|]. by apply elem_of_map_to_list.
        - intros ([j e] & -> & Hj). apply elem_of_map_to_list in Hj. eauto. }
      exists (f m1 ++ f m2). split.
      + unfold ledger. rewrite fmap_app, !Hids, app_length. split_and!.
        * apply NoDup_app. split_and!; [apply NoDup_fst_map_to_list| |apply NoDup_fst_map_to_list].
          intros id F1%Hin F2%Hin. rewrite (pk_tt id F1) in F2. by destruct F2.
        * intros id. by rewrite HR, elem_of_app, <- !Hin.
        * intros id. by rewrite HA, elem_of_app, <- !Hin.
        * rewrite Hn. unfold f. rewrite !fmap_length. done.
        * apply Forall_app. unfold f. split; apply Forall_fmap, Forall_forall; intros [j e] Hj; apply elem_of_map_to_list in Hj; cbn; eauto.
      + assert (E : forall m, msum 0 m = foldr (fun x acc => x.2 + acc) 0 (f m)) by (intros m; apply msum_list).
        rewrite Hocc, (E m1), (E m2). unfold total_bytes. rewrite foldr_app. clear.
        generalize (foldr (fun (x : Z * Z) acc => x.2 + acc) 0 (f m2)). intros z.
        induction (f m1) as [|x l IH]; cbn; lia.
  Qed.

  (** A lookup without update changes nothing.  A get hits exactly on a resident
      object; a hit moves it to T2 if it was in T1, and changes no other id in any
      part.  A missed object is cached: in T2 if it was a ghost, which it then is
      no more, and in T1 otherwise; no other object comes in or changes sides. *)
  Theorem C78_get_partial : forall s, comp_reaches OO s0 (lpa_call size_of cap) s ->
    forall r fuel, req_ok 0 r -> r_size r = size_of (r_id r) -> r_size r <= cap -> op_nobj OO s <= Z.of_nat fuel ->
    (exists b, op_find OO s r false = Ok (s, b)) /\
    exists s' h, cache_get_base OO fuel s r = Ok (s', h) /\
      (h = true <-> resident OO s (r_id r)) /\
      (h = true -> in_t2 s' (r_id r) /\ ~ in_t1 s' (r_id r) /\
         forall id, (id <> r_id r -> (in_t1 s' id <-> in_t1 s id) /\ (in_t2 s' id <-> in_t2 s id)) /\
                    (in_b1 s' id <-> in_b1 s id) /\ (in_b2 s' id <-> in_b2 s id)) /\
      (h = false ->
         (in_b1 s (r_id r) \/ in_b2 s (r_id r) -> in_t2 s' (r_id r)) /\
         (~ in_b1 s (r_id r) -> ~ in_b2 s (r_id r) -> in_t1 s' (r_id r)) /\
         ~ in_b1 s' (r_id r) /\ ~ in_b2 s' (r_id r) /\
         forall id, id <> r_id r -> (in_t1 s' id -> in_t1 s id) /\ (in_t2 s' id -> in_t2 s id)).
  Proof using Hcap.
    intros s (t1 & m1 & b1 & t2 & m2 & b2 & H & Hnr)%pa_reach r fuel Hr Hs Hle Hf.
    pose proof (pa_in _ _ _ _ _ _ _ H) as (I1 & I2 & J1 & J2).
    pose proof (pa_res _ _ _ _ _ _ _ H) as (HR & HA). pose proof (pa_cnt _ _ _ _ _ _ _ H) as (Hn & Hocc).
    split. { eexists. apply (find_false_ok rnd pol_any OC R size_of cap pa_sim _ _ _ _ _ _ _ r H). }
    destruct (get_ok rnd pol_any OC R size_of cap pa_sim pa_tbl pa_occ s _ _ _ _ _ _ r fuel H Hr Hs Hle Hnr ltac:(lia))
      as (s' & t1' & m1' & b1' & t2' & m2' & b2' & He & H' & _ & _ & Hhit & Hmiss).
    pose proof (pa_in _ _ _ _ _ _ _ H') as (I1' & I2' & J1' & J2').
    eexists _, _. split; [exact He|]. split; [by rewrite HR, bool_decide_eq_true|]. split.
    - intros Hb%bool_decide_eq_true. destruct (Hhit Hb) as (-> & -> & -> & Hm2). split_and!.
      + apply I2', Hm2. by left.
      + rewrite I1'. rewrite lookup_delete. by intros [? ?].
      + intros id. rewrite I1, I2, J1, J2, I1', I2', J1', J2', Hm2, lookup_delete_is_Some. split; [|done].
        intros Hne. split; [split; [tauto|]|tauto]. intros ?. by split.
    - intros Hb%bool_decide_eq_false. destruct (Hmiss Hb) as (Hsub & N1 & N2 & Hd).
      rewrite J1, J2, I1', I2', J1', J2'. split_and!; try done.
      + intros Hg. by rewrite decide_True in Hd.
      + intros G1 G2. rewrite decide_False in Hd by tauto. done.
      + intros id Hne. rewrite I1', I2', I1, I2. by apply Hsub.
  Qed.

  (** remove takes a resident object out, says whether there was one, and leaves
      the ghosts alone. *)
  Theorem C78_remove_partial : forall s, comp_reaches OO s0 (lpa_call size_of cap) s -> forall id,
    exists s' b, op_remove OO s id = Ok (s', b) /\ (b = true <-> resident OO s id) /\
      ~ resident OO s' id /\
      (forall j, j <> id -> (in_t1 s' j <-> in_t1 s j) /\ (in_t2 s' j <-> in_t2 s j)) /\
      (forall j, (in_b1 s' j <-> in_b1 s j) /\ (in_b2 s' j <-> in_b2 s j)).
  Proof using Hcap.
    intros s (t1 & m1 & b1 & t2 & m2 & b2 & H & Hnr)%pa_reach id.
    pose proof (pa_in _ _ _ _ _ _ _ H) as (I1 & I2 & J1 & J2). pose proof (pa_res _ _ _ _ _ _ _ H) as (HR & HA).
    destruct (remove_ok pol_any OC R size_of cap pa_sim pa_occ s _ _ _ _ _ _ id H) as (s' & He & _ & H').
    pose proof (pa_in _ _ _ _ _ _ _ H') as (I1' & I2' & J1' & J2'). pose proof (pa_res _ _ _ _ _ _ _ H') as (HR' & HA').
    eexists s', _. split; [exact He|]. rewrite bool_decide_eq_true, HR, HR'. split; [done|]. split.
    { unfold held. rewrite !lookup_delete. by intros [[? ?]|[? ?]]. }
    split; [|intros j; by rewrite J1', J2', J1, J2].
    intros j Hne. rewrite I1', I2', I1, I2, !lookup_delete_is_Some. split; (split; [tauto|]); intros ?; by split.
  Qed.

  (** An eviction for a request that fits the cache, but not beside the
      residents, takes exactly one resident; only it may become a ghost, of the
      side it was on; and to_evict had named it, unless T2 is empty and T1 is not
      above its target. *)
  Theorem C78_evict_partial : forall s, comp_reaches OO s0 (lpa_call size_of cap) s -> forall r,
    0 <= r_size r <= cap -> op_occupied OO s + r_size r > cap ->
    exists v s', op_evict OO s r = Ok s' /\ resident OO s v /\
      (forall j, (in_t1 s' j <-> in_t1 s j /\ j <> v) /\ (in_t2 s' j <-> in_t2 s j /\ j <> v)) /\
      (forall j, in_b1 s' j -> in_b1 s j \/ (j = v /\ in_t1 s v)) /\
      (forall j, in_b2 s' j -> in_b2 s j \/ (j = v /\ in_t2 s v)) /\
      (op_occupied OC (z_t2 s) > 0 -> exists s1, op_to_evict OO s r = Ok (s1, Some v)).
  Proof using Hcap.
    intros s (t1 & m1 & b1 & t2 & m2 & b2 & H & Hnr)%pa_reach r Hr Hgt.
    pose proof (pa_in _ _ _ _ _ _ _ H) as (I1 & I2 & J1 & J2). pose proof (pa_res _ _ _ _ _ _ _ H) as (HR & HA).
    pose proof (pa_cnt _ _ _ _ _ _ _ H) as (Hn & Hocc). rewrite Hocc in Hgt.
    destruct (evict_ok rnd pol_any OC R size_of cap pa_sim pa_tbl pa_occ s _ _ _ _ _ _ r H Hr Hgt)
      as (s' & v & b1' & b2' & m1' & m2' & He & H' & _ & Hg & Hte & S1 & S2).
    pose proof (pa_in _ _ _ _ _ _ _ H') as (I1' & I2' & J1' & J2').
    exists v, s'. split; [exact He|]. rewrite HR. split.
    { destruct Hg as [(? & _)|(? & _)]; [by left|by right]. }
    split_and!.
    - intros j. rewrite I1', I2', I1, I2. destruct Hg as [(Hv & -> & ->)|(Hv & -> & ->)]; rewrite lookup_delete_is_Some.
      + pose proof (pk_tt _ _ _ _ _ _ _ _ _ _ H v Hv) as Hn2. split; [naive_solver|]. split; [|tauto]. intros Hj.
        split; [done|]. intros ->. rewrite Hn2 in Hj. by destruct Hj.
      + assert (Hn1 : m1 !! v = None).
        { apply eq_None_not_Some. intros F%(pk_tt _ _ _ _ _ _ _ _ _ _ H). rewrite F in Hv. by destruct Hv. }
        split; [|naive_solver]. split; [|tauto]. intros Hj.
        split; [done|]. intros ->. rewrite Hn1 in Hj. by destruct Hj.
    - intros j. rewrite J1', J1, I1. intros [?|?]%S1; [by right|by left].
    - intros j. rewrite J2', J2, I2. intros [?|?]%S2; [by right|by left].
    - rewrite (sim_occ _ _ _ _ _ _ pa_sim _ _ (pk_t2 _ _ _ _ _ _ _ _ _ _ H)). cbn [a_m]. intros Hp. apply Hte. right. lia.
  Qed.
End Props.

(** The hypotheses are met: hits in T1 move to T2, T1 and T2 both lose objects to
    their ghost lists, ghosts of both sides are hit, one is forgotten, a lookup with
    update and a remove.  Final T1, B1, T2, B2 (head first) and the answers. *)
Definition idq (x : Q) : Q := x.
Definition ag (id : Z) : call := CGet (mkReq id 1 0 0 0).
Definition ago (cap : Z) (cs : list call) :=
  let! (s, os) := run (lpa_ops idq (clock_ops 1)) 20 (lpa_init false cap AdmNone) cs in
  Ok (q_q (z_t1 s), q_q (z_b1 s), q_q (z_t2 s), q_q (z_b2 s), os).
Example C78_ex :
  let cs := [ag 1; ag 1; ag 2; ag 3; ag 4; ag 2; ag 5; ag 6; ag 1; ag 7; CFind (mkReq 7 1 0 0 0) true; CRemove 5; ag 8; ag 9; ag 10] in
  Forall (lpa_call (fun _ => 1) 3) cs /\ ago 3 cs =
  Ok ([10], [9; 8], [7; 1], [2],
      [OBool false; OBool true; OBool false; OBool false; OBool false; OBool false; OBool false; OBool false; OBool false;
       OBool false; OBool true; OBool false; OBool false; OBool false; OBool false]).
Proof.
  split; [|vm_compute; reflexivity].
  repeat (apply Forall_cons; split; [cbn; unfold req_ok; cbn; lia|]). constructor.
Qed.

(** The eviction theorem's hypotheses are met, with T2 holding an object. *)
Example C78_evict_ex :
  (let! (s, _) := run (lpa_ops idq (clock_ops 1)) 20 (lpa_init false 3 AdmNone) [ag 1; ag 1; ag 2; ag 3] in
   let r := mkReq 4 1 0 0 0 in
   let! (_, v) := op_to_evict (lpa_ops idq (clock_ops 1)) s r in
   let! s' := op_evict (lpa_ops idq (clock_ops 1)) s r in
   Ok (op_occupied (lpa_ops idq (clock_ops 1)) s, v, q_q (z_t1 s'), q_q (z_b1 s'), q_q (z_t2 s'))) =
  Ok (3, Some 2, [3], [2], [1]).
Proof. vm_compute. reflexivity. Qed.

(** Refuted: a get of an object larger than the cache (get never asks can_insert)
    empties the cache and then follows a null pointer. *)
Theorem C78_large_refuted : exists r, req_ok 0 r /\ ago 2 [ag 1; CGet r] = Err NullDeref.
Proof. exists (mkReq 2 3 0 0 0). split; [|vm_compute; reflexivity]. unfold req_ok. cbn. lia. Qed.

(** Refuted: an admission policy has no effect on get; the object it rejects is
    cached. *)
Theorem C78_admission_refuted : exists adm r, (admit adm r).2 = false /\
  (let! (s, os) := run (lpa_ops idq (clock_ops 1)) 5 (lpa_init false 3 adm) [CGet r; CGet r] in Ok os) = Ok [OBool false; OBool true].
Proof. exists (AdmSize 0), (mkReq 1 1 0 0 0). vm_compute. done. Qed.

(** Refuted (C01): when an id comes back with another size, its move from T1 to T2
    charges the new one, and the cache holds more bytes than its size; with a size
    above the cache's a hit loses the object. *)
Theorem C78_grow_refuted :
  (let! (s, os) := run (lpa_ops idq (clock_ops 1)) 9 (lpa_init false 4 AdmNone)
      [ag 1; CGet (mkReq 2 3 0 0 0); CGet (mkReq 1 4 0 0 0)] in
   Ok (op_occupied (lpa_ops idq (clock_ops 1)) s, os)) = Ok (7, [OBool false; OBool false; OBool true]).
Proof. vm_compute. reflexivity. Qed.
Theorem C78_hit_lost_refuted :
  ago 4 [ag 1; CGet (mkReq 2 3 0 0 0); CGet (mkReq 1 5 0 0 0)] =
  Ok ([2], [], [], [], [OBool false; OBool false; OBool true]).
Proof. vm_compute. reflexivity. Qed.

(** Refuted: direct evicts with a request of size zero can follow a null pointer
    on a full cache. *)
Theorem C78_evict_zero_refuted :
  ago 2 [ag 1; ag 1; ag 2; ag 3; CEvict (mkReq 0 0 0 0 0); ag 4; ag 4; CEvict (mkReq 0 0 0 0 0)] = Err NullDeref.
Proof. vm_compute. reflexivity. Qed.

(** Refuted (C07): after one and the same program of gets and removes, to_evict
    follows a null pointer where a get of the same request evicts and succeeds. *)
Theorem C78_to_evict_refuted :
  let cs := [ag 1; ag 1; ag 2; ag 3; ag 4; ag 5; ag 2; CRemove 1; CRemove 2; CRemove 4] in
  let r := mkReq 6 4 0 0 0 in
  Forall (lpa_call (fun id => if decide (id = 6) then 4 else 1) 4) (cs ++ [CGet r]) /\
  ago 4 (cs ++ [CToEvict r]) = Err NullDeref /\
  ago 4 (cs ++ [CGet r]) = Ok ([6], [5], [], [],
     [OBool false; OBool true; OBool false; OBool false; OBool false; OBool false; OBool false; OBool true; OBool true; OBool true; OBool false]).
Proof.
  split; [|split; vm_compute; reflexivity].
  repeat (apply Forall_cons; split; [cbn [lpa_call ag]; unfold req_ok; cbn [r_size r_id]; repeat split; done || lia|]). constructor.
Qed.

(** LP_ARC is ARCv0 with other caches as T1 and T2: around LRUs the two give the
    same answers and end in the same state, on every program whose gets fit the
    cache, and complete on the same programs. *)
Definition same {A} (x y : res A) : Prop :=
  match x, y with Ok a, Ok b => a = b | Err _, Err _ => True | _, _ => False end.
Lemma same_refl {A} (x : res A) : same x x.
Proof. by destruct x. Qed.
Lemma same_bind {A B} (x y : res A) (f g : A -> res B) : same x y -> (forall a, x = Ok a -> same (f a) (g a)) -> same (rbind x f) (rbind y g).
Proof. destruct x as [a|], y as [b|]; cbn; try done. intros <- H. by apply H. Qed.

Section Same.
  Context (rnd : Q -> Q).
  Notation A0 := (arc0_ops rnd).
  Notation OL := (lpa_ops rnd lru_ops).

  Lemma same_replace s r : same (arc0_replace rnd s r) (lpa_replace rnd lru_ops s r).
  Proof.
    unfold arc0_replace, lpa_replace. destruct (_ || _); [apply same_refl|].
    cbn [op_to_evict op_evict lru_ops]. destruct (q_to_evict_tail (z_t2 s) r) as [[t2 v]|]; [|done]. cbn [rbind].
    destruct (deref t2 v) as [[v' o]|]; [|done]. cbn [rbind].
    destruct (q_evict_tail t2 r) as [t|], (sub_get lru_ops (z_b2 s) _) as [[g b]|]; done.
  Qed.
  Lemma same_evict s r : same (arc0_evict rnd s r) (lpa_evict rnd lru_ops s r).
  Proof.
    unfold arc0_evict, lpa_evict. destruct (z_in_ghost s); [apply same_replace|].
    unfold arc0_evict_miss, lpa_evict_miss. destruct (z_full s r).
    - destruct (decide _); [|apply same_refl]. apply same_bind; [apply same_refl|]. intros b _. apply same_replace.
    - apply same_bind; [apply same_refl|]. intros b _. apply same_replace.
  Qed.
  Lemma same_loop r fuel : forall s, same (evict_loop A0 fuel s r) (evict_loop OL fuel s r).
  Proof.
    induction fuel as [|n IH]; intros s; cbn [evict_loop]; cbn [op_occupied op_md op_size arc0_ops lpa_ops lru_ops];
      destruct (decide _); try done.
    apply same_bind; [apply same_evict|]. intros s1 _. apply IH.
  Qed.

  (** the fields of the outer cache that can_insert reads *)
  Definition par (s : arc0) := (c_adm (z_c s), c_size (z_c s), c_md (z_c s)).
  Ltac kill := repeat (match goal with
    | H : rbind ?x _ = Ok _ |- _ => let E := fresh "E" in destruct x as [?|] eqn:E; cbn [rbind] in H; [|discriminate H]
    | H : (let '(_, _) := ?x in _) = Ok _ |- _ => destruct x
    | H : (if ?b then _ else _) = Ok _ |- _ => destruct b
    | H : Ok _ = Ok _ |- _ => injection H as <-
    | H : Ok _ = Ok _ |- _ => injection H as <- <-
    end; try done).
  Lemma par_find s r u s' b : arc0_find rnd s r u = Ok (s', b) -> par s' = par s.
  Proof. unfold arc0_find. intros H. kill. Qed.
  Lemma par_insert s r s' : arc0_insert s r = Ok s' -> par s' = par s.
  Proof. unfold arc0_insert. intros H. kill. Qed.
  Lemma par_replace s r s' : arc0_replace rnd s r = Ok s' -> par s' = par s.
  Proof. unfold arc0_replace. intros H. kill. Qed.
  Lemma par_evict s r s' : arc0_evict rnd s r = Ok s' -> par s' = par s.
  Proof.
    unfold arc0_evict, arc0_evict_miss. intros H. kill; by apply par_replace in H.
  Qed.
  Lemma par_loop r fuel : forall s s', evict_loop A0 fuel s r = Ok s' -> par s' = par s.
  Proof.
    induction fuel as [|n IH]; intros s s'; cbn [evict_loop]; destruct (decide _); try done; try (by intros [= <-]).
    cbn [op_evict arc0_ops]. destruct (arc0_evict rnd s r) as [s1|] eqn:E; [|done]. cbn [rbind]. intros H.
    rewrite (IH _ _ H). by eapply par_evict.
  Qed.
  Lemma par_remove s id s' b : arc0_remove s id = Ok (s', b) -> par s' = par s.
  Proof. unfold arc0_remove. intros H. kill. Qed.

  Definition fit_call (n : Z) (c : call) : Prop := match c with CGet r => r_size r <= n | _ => True end.

  Lemma can_ins s r cap md : par s = (AdmNone, cap, md) -> r_size r + md <= cap -> arc0_can_insert s r = Ok (s, true).
  Proof.
    intros [= Ha Hs Hm] Hle. unfold arc0_can_insert, cache_can_insert_default. destruct s as [c]. cbn in *.
    destruct c. cbn in *. subst. cbn. by rewrite decide_False by lia.
  Qed.

  Lemma same_step fuel s c cap md : par s = (AdmNone, cap, md) -> fit_call (cap - md) c ->
    same (step A0 fuel s c) (step OL fuel s c) /\ forall s' o, step A0 fuel s c = Ok (s', o) -> par s' = par s.
  Proof.
    intros Hp Hc. destruct c as [r|r u|r|id|r|r]; cbn [step fit_call] in *.
    - unfold cache_get_base. change (op_tick OL s) with (op_tick A0 s).
      assert (Hp1 : par (op_tick A0 s) = par s) by done. set (s1 := op_tick A0 s) in *. clearbody s1. rewrite <- Hp1. rewrite <- Hp1 in Hp. clear Hp1 s.
      change (op_find OL s1 r true) with (op_find A0 s1 r true).
      destruct (op_find A0 s1 r true) as [[s2 b]|] eqn:E; [|by split]. cbn [rbind]. apply par_find in E.
      destruct b; [by split; [|intros ? ? [= <- <-]]|]. cbn [op_can_insert arc0_ops lpa_ops].
      rewrite (can_ins s2 r cap md) by (congruence || lia). cbn [rbind].
      pose proof (same_loop r fuel s2) as HL. destruct (evict_loop A0 fuel s2 r) as [s3|] eqn:E3, (evict_loop OL fuel s2 r) as [s3'|]; try done.
      cbn in HL. subst s3'. cbn [rbind]. apply par_loop in E3. change (op_insert OL s3 r) with (op_insert A0 s3 r).
      destruct (op_insert A0 s3 r) as [s4|] eqn:E4; [|by split]. cbn [rbind]. apply par_insert in E4.
      split; [done|]. intros ? ? [= <- <-]. congruence.
    - split; [apply same_refl|]. intros s' o H. destruct (op_find A0 s r u) as [[s2 b]|] eqn:E; [|done]. injection H as <- <-. exact (par_find _ _ _ _ _ E).
    - split; [apply same_refl|]. intros s' o H. destruct (op_find A0 s r false) as [[s2 b]|] eqn:E; [|done]. cbn [rbind] in H. apply par_find in E.
      destruct b; [by injection H as <- <-|]. destruct (decide _); [by injection H as <- <-|].
      destruct (op_insert A0 s r) as [s4|] eqn:E4; [|done]. injection H as <- <-. exact (par_insert _ _ _ E4).
    - split; [apply same_refl|]. intros s' o H. destruct (op_remove A0 s id) as [[s2 b]|] eqn:E; [|done]. injection H as <- <-. exact (par_remove _ _ _ _ E).
    - change (op_nobj OL s) with (op_nobj A0 s). destruct (decide _); [by split; [|intros ? ? [= <- <-]]|].
      split; [apply same_bind; [apply same_evict|done]|]. intros s' o H. destruct (op_evict A0 s r) as [s2|] eqn:E; [|done]. injection H as <- <-. exact (par_evict _ _ _ E).
    - change (op_nobj OL s) with (op_nobj A0 s). destruct (decide _); [by split; [|intros ? ? [= <- <-]]|].
      split; [apply same_refl|]. intros s' o H. destruct (op_to_evict A0 s r) as [[s2 v]|] eqn:E; [|done]. injection H as <- <-.
      cbn in E. unfold arc0_to_evict, arc0_to_evict_miss, arc0_to_replace in E. kill.
  Qed.
  Lemma same_run fuel cap md cs : Forall (fit_call (cap - md)) cs -> forall s, par s = (AdmNone, cap, md) -> same (run A0 fuel s cs) (run OL fuel s cs).
  Proof.
    induction cs as [|c cs IH]; intros Hc s Hp; [done|]. apply Forall_cons in Hc as [Hc Hcs]. cbn [run].
    destruct (same_step fuel s c cap md Hp Hc) as [HS HP]. apply same_bind; [done|]. intros [s1 o] E.
    specialize (HP _ _ E). apply same_bind; [|intros ? _; apply same_refl]. apply (IH Hcs). congruence.
  Qed.
End Same.

Theorem C78_same_as_arcv0_partial : forall rnd (consider : bool) cap fuel cs,
  Forall (fit_call (cap - if consider then 40 else 0)) cs ->
  let x := run (arc0_ops rnd) fuel (arc0_init consider cap AdmNone) cs in
  let y := run (lpa_ops rnd lru_ops) fuel (arc0_init consider cap AdmNone) cs in
  (forall s os, x = Ok (s, os) <-> y = Ok (s, os)) /\
  ((exists e, x = Err e) <-> (exists e, y = Err e)).
Proof.
  intros rnd consider cap fuel cs Hcs x y.
  assert (H : same x y) by (by apply (same_run rnd fuel cap (if consider then 40 else 0) cs Hcs)).
  clearbody x y. destruct x as [a|], y as [b|]; cbn in H; try done.
  - subst. split; [done|]. split; intros [? ?]; done.
  - split; [done|]. split; eauto.
Qed.
Example C78_same_as_arcv0_ex :
  let cs := [ag 1; ag 1; ag 2; ag 3; ag 4; ag 2; ag 5; ag 6; ag 1; CEvict (mkReq 9 1 0 0 0); CToEvict (mkReq 9 1 0 0 0)] in
  Forall (fit_call 3) cs /\
  (let! (s, os) := run (lpa_ops idq lru_ops) 20 (arc0_init false 3 AdmNone) cs in Ok (q_q (z_t1 s), q_q (z_t2 s), os)) =
  Ok ([], [1; 2],
      [OBool false; OBool true; OBool false; OBool false; OBool false; OBool false; OBool false; OBool false; OBool false; OUnit; OVictim (Some 2)]).
Proof.
  split; [|vm_compute; reflexivity].
  repeat (apply Forall_cons; split; [cbn; lia || done|]). constructor.
Qed.
