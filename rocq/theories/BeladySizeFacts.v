(** BeladySize against the abstract cache. *)
From stdpp Require Import gmap list numbers fin_maps.
From Verif Require Import Base Driver Abs AbsFacts Sim SpecApi PSim SpecRand ModelBeladyX SpecBeladyX XBeladyFacts.
Open Scope Z_scope.

Lemma never_last r : never (r_next r) = bool_decide (last_use r).
Proof. done. Qed.

(** Size times distance. *)
Definition bscore (n : Z) (o : cobj) : Z := o_size o * (o_p1 o - n).

Section BS.
  Context (draw : Z -> gmap Z cobj -> Z * Z) (n_sample pf : nat) (cap : Z).
  Local Notation O := (bs_ops draw n_sample pf).

  Lemma bs_sample_facts c n : forall seed best score b' seed',
    bs_sample draw n c seed best score = Ok (b', seed') ->
    (b' = best /\ forall x o, x ∈ (samples draw n seed (c_tbl c)).1 -> c_tbl c !! x = Some o ->
        bscore (c_nreq c) o <= score) \/
    exists v ov, b' = Some v /\ v ∈ (samples draw n seed (c_tbl c)).1 /\ c_tbl c !! v = Some ov /\
       score < bscore (c_nreq c) ov /\
       forall x o, x ∈ (samples draw n seed (c_tbl c)).1 -> c_tbl c !! x = Some o ->
         bscore (c_nreq c) o <= bscore (c_nreq c) ov.
  Proof using.
    induction n as [|n IH]; intros seed best score b' seed' H; cbn in H |- *.
    { injection H as <- <-. left. split; [done|]. intros x o Hx. by apply elem_of_nil in Hx. }
    destruct (decide (c_tbl c = ∅)); [done|].
    destruct (draw seed (c_tbl c)) as [id seed1]. destruct (c_tbl c !! id) as [oi|] eqn:Ei; [|done].
    fold (bscore (c_nreq c) oi) in H.
    destruct (decide (score < bscore (c_nreq c) oi)) as [Hlt|Hge]; apply IH in H.
    all: destruct (samples draw n seed1 (c_tbl c)) as [l seed2]; cbn [fst] in *.
    - right. destruct H as [[-> H]|(v & ov & -> & Hv & Hov & Hs & H)].
      + exists id, oi. split_and!; [done|by left|done|done|].
        intros x o [->|Hx]%elem_of_cons Ho; [|by eapply H]. rewrite Ei in Ho. by injection Ho as <-.
      + exists v, ov. split_and!; [done|by right|done|lia|].
        intros x o [->|Hx]%elem_of_cons Ho; [|by eapply H]. rewrite Ei in Ho. injection Ho as <-. lia.
    - destruct H as [[-> H]|(v & ov & -> & Hv & Hov & Hs & H)].
      + left. split; [done|]. intros x o [->|Hx]%elem_of_cons Ho; [|by eapply H].
        rewrite Ei in Ho. injection Ho as <-. lia.
      + right. exists v, ov. split_and!; [done|by right|done|lia|].
        intros x o [->|Hx]%elem_of_cons Ho; [|by eapply H]. rewrite Ei in Ho. injection Ho as <-. lia.
  Qed.

  Lemma bs_sample_total c n : draws_residents draw -> c_tbl c <> ∅ -> forall seed best score,
    exists b' seed', bs_sample draw n c seed best score = Ok (b', seed').
  Proof using.
    clear. intros Hd Hne. induction n as [|n IH]; intros seed best score; cbn; [eauto|].
    rewrite (decide_False (P := c_tbl c = ∅)) by done.
    pose proof (Hd seed (c_tbl c) Hne) as [o Ho]. destruct (draw seed (c_tbl c)) as [id seed1]. cbn in Ho.
    rewrite Ho. destruct (decide _); apply IH.
  Qed.

  (** What a successful pick returns: the best of one round of draws. *)
  Lemma bs_pick_facts c fuel : forall seed v seed', bs_pick draw n_sample fuel c seed = Ok (v, seed') ->
    exists seed0 ov, v ∈ (samples draw n_sample seed0 (c_tbl c)).1 /\ c_tbl c !! v = Some ov /\
      0 <= bscore (c_nreq c) ov /\
      forall x o, x ∈ (samples draw n_sample seed0 (c_tbl c)).1 -> c_tbl c !! x = Some o ->
        bscore (c_nreq c) o <= bscore (c_nreq c) ov.
  Proof using.
    induction fuel as [|fuel IH]; intros seed v seed' H; cbn in H.
    all: destruct (bs_sample draw n_sample c seed None (-1)) as [[b s1]|] eqn:E; cbn [rbind] in H; [|done].
    all: pose proof (bs_sample_facts _ _ _ _ _ _ _ E) as [[-> Hs]|(w & ow & -> & Hw & How & Hs & Hb)].
    - done.
    - injection H as -> ->. exists seed, ow. split_and!; [done|done|lia|done].
    - eauto.
    - injection H as -> ->. exists seed, ow. split_and!; [done|done|lia|done].
  Qed.

  (** Some resident that is not overdue can always be found when none is
      overdue. *)
  Lemma bs_pick_total c seed fuel : draws_residents draw -> (0 < n_sample)%nat -> c_tbl c <> ∅ ->
    (forall id o, c_tbl c !! id = Some o -> 0 <= bscore (c_nreq c) o) ->
    exists v seed', bs_pick draw n_sample fuel c seed = Ok (v, seed').
  Proof using.
    clear. intros Hd Hn Hne Hs.
    destruct (bs_sample_total c n_sample Hd Hne seed None (-1)) as (b & s1 & E).
    assert (exists v, b = Some v) as [v ->].
    { destruct (bs_sample_facts _ _ _ _ _ _ _ E) as [[-> H]|(v & ? & -> & _)]; [|eauto].
      exfalso. destruct n_sample as [|k]; [lia|]. cbn in H.
      pose proof (Hd seed (c_tbl c) Hne) as [o Ho]. destruct (draw seed (c_tbl c)) as [id seed1]. cbn in Ho.
      destruct (samples draw k seed1 (c_tbl c)) as [l seed2]. cbn in H.
      specialize (H id o ltac:(by left) Ho). specialize (Hs _ _ Ho). lia. }
    destruct fuel; cbn; rewrite E; cbn; eauto.
  Qed.

  (** ... and never when all are. *)
  Lemma bs_pick_forever c fuel : draws_residents draw -> c_tbl c <> ∅ ->
    (forall id o, c_tbl c !! id = Some o -> bscore (c_nreq c) o < 0) ->
    forall seed, bs_pick draw n_sample fuel c seed = Err OutOfFuel.
  Proof using.
    clear. intros Hd Hne Hs. induction fuel as [|fuel IH]; intros seed; cbn.
    all: destruct (bs_sample_total c n_sample Hd Hne seed None (-1)) as (b & s1 & E).
    all: assert (b = None) as ->;
      [destruct (bs_sample_facts _ _ _ _ _ _ _ E) as [[-> H]|(v & ov & -> & _ & Hv & Hsc & _)]; [done|];
       specialize (Hs _ _ Hv); lia|].
    all: rewrite E; cbn [rbind].
    { done. }
    apply IH.
  Qed.

  Definition bsrel (n : Z) (s : bsstate) (a : abs) : Prop :=
    brel cap 0 (bs_c s) a /\ c_nreq (bs_c s) = n /\
    (forall id o, c_tbl (bs_c s) !! id = Some o -> o_p1 o = o_next o).

  Lemma bsrel_score n s a id o e : bsrel n s a -> c_tbl (bs_c s) !! id = Some o -> a_m a !! id = Some e ->
    bscore (c_nreq (bs_c s)) o = e_size e * (e_next e - n).
  Proof.
    intros (H1 & H2 & H3) Ho He. destruct (brel_some _ _ _ _ _ _ H1 He) as (o' & Ho' & Hsz & Hn & _).
    rewrite Ho in Ho'. injection Ho' as <-. unfold bscore. by rewrite (H3 _ _ Ho), H2, Hsz, Hn.
  Qed.

  Lemma bsrel_clock n s t m a : bsrel n s (mkAbs t m a) -> bsrel n s (mkAbs (t + 1) m a).
  Proof. intros (H1 & H2 & H3). split_and!; [by eapply brel_clock|done|done]. Qed.

  Lemma bsrel_tick n s a : bsrel n s a -> bsrel (n + 1) (bs_set_c s (c_incr_nreq (bs_c s))) a.
  Proof. intros (H1 & H2 & H3). split_and!; cbn; [by apply brel_tick|by rewrite H2|done]. Qed.

  Lemma bsrel_remove_at n s t m a id e : abs_ok cap 0 (mkAbs t m a) -> bsrel n s (mkAbs t m a) -> m !! id = Some e ->
    exists c', cache_remove_obj_base (bs_c s) id = Ok c' /\
      forall seed, bsrel n (mkBs c' seed) (mkAbs t (delete id m) a).
  Proof.
    intros Hok (H1 & H2 & H3) He.
    destruct (brel_remove _ _ _ _ _ _ _ _ Hok H1 He) as (c' & Hc & Hb & Ht). exists c'. split; [done|].
    intros seed. split_and!; cbn; [done| |].
    - by rewrite (remove_base_nreq _ _ _ Hc).
    - rewrite Ht. intros i o Hi. apply lookup_delete_Some in Hi as [_ Hi]. eauto.
  Qed.

  Lemma bsrel_remove n s t m a id : abs_ok cap 0 (mkAbs t m a) -> bsrel n s (mkAbs t m a) ->
    exists s', bs_remove s id = Ok (s', bool_decide (is_Some (m !! id))) /\
      bsrel n s' (mkAbs t (delete id m) a).
  Proof.
    intros Hok HR. unfold bs_remove. destruct (m !! id) as [e|] eqn:E.
    - destruct (bsrel_remove_at _ _ _ _ _ _ _ Hok HR E) as (c' & Hc & HR').
      pose proof HR as (H1 & _). destruct (brel_some _ _ _ _ _ _ H1 E) as (o & -> & _). rewrite Hc. cbn [rbind].
      rewrite bool_decide_true by eauto. eexists. split; [done|]. apply HR'.
    - pose proof HR as (H1 & _). rewrite (brel_none _ _ _ _ _ H1 E), bool_decide_false by (by intros []).
      rewrite delete_notin by done. eauto.
  Qed.

  Lemma bsrel_find_false n s a r : bsrel n s a ->
    bs_find s r false = Ok (s, bool_decide (is_Some (a_m a !! r_id r))).
  Proof.
    intros (H & _). unfold bs_find. rewrite (brel_find_false _ _ _ _ _ H), andb_false_r. by destruct s.
  Qed.
  Lemma bsrel_find_miss n s a r u : bsrel n s a -> a_m a !! r_id r = None -> bs_find s r u = Ok (s, false).
  Proof.
    intros (H & _) Hn. unfold bs_find. rewrite (brel_find_miss _ _ _ _ _ _ H Hn). cbn. by destruct s.
  Qed.

  (** After a use, the ledger without the object if this was its last use. *)
  Definition after (r : req) (m : gmap Z entry) : gmap Z entry :=
    if decide (last_use r) then delete (r_id r) m else m.

  Lemma bsrel_upd n c seed a r o : brel cap 0 c a -> c_nreq c = n -> c_tbl c !! r_id r = Some o ->
    o_next o = r_next r ->
    (forall i o', i <> r_id r -> c_tbl c !! i = Some o' -> o_p1 o' = o_next o') ->
    bsrel n (mkBs (c_upd c (r_id r) (fun o => o_set_p1 o (r_next r))) seed) a.
  Proof.
    intros Hb Hn Ho Hx Hr. split_and!; cbn; [|done|].
    - destruct Hb as [B1 B2 B3 B4 B5 B6]. constructor; cbn; try done. intros i. unfold c_upd. cbn.
      destruct (decide (i = r_id r)) as [->|Hne].
      + rewrite lookup_alter. specialize (B6 (r_id r)). rewrite Ho in *. inversion B6 as [? e He|]; subst. constructor. exact He.
      + rewrite lookup_alter_ne by done. apply B6.
    - intros i o'. unfold c_upd. cbn. destruct (decide (i = r_id r)) as [->|Hne].
      + rewrite lookup_alter, Ho. intros [= <-]. by cbn.
      + rewrite lookup_alter_ne by done. by apply Hr.
  Qed.

  Lemma bsrel_find_hit n s t m a r e : abs_ok cap 0 (mkAbs t m a) -> bsrel n s (mkAbs t m a) -> m !! r_id r = Some e ->
    exists s', bs_find s r true = Ok (s', true) /\
      bsrel n s' (mkAbs (t + 1) (after r (<[r_id r := touch t r e]> m)) a).
  Proof.
    intros Hok (H1 & H2 & H3) He. unfold bs_find.
    destruct (brel_find_hit _ _ _ _ _ _ _ _ H1 He) as (c' & Hc & Hb & o & Ho & Hc').
    rewrite Hc. cbn [andb]. rewrite never_last. unfold after.
    pose proof (find_base_nreq _ _ _ _ _ Hc) as Hnr.
    destruct (decide (last_use r)) as [Hl|Hl].
    - rewrite bool_decide_true by done.
      assert (Hok' : abs_ok cap 0 (mkAbs (t + 1) (<[r_id r := touch t r e]> m) a)) by (by apply abs_ok_touch).
      unfold bs_remove. cbn [bs_c bs_set_c].
      destruct (brel_remove _ _ _ _ _ _ (r_id r) _ Hok' Hb (lookup_insert _ _ _)) as (c2 & Hc2 & Hb2 & Ht2).
      assert (c_tbl c' !! r_id r = Some (o_set_freq (o_set_next o (r_next r)) (o_freq o + 1))) as ->.
      { rewrite Hc'. cbn. by rewrite lookup_insert. }
      rewrite Hc2. cbn [rbind]. eexists. split; [done|]. split_and!; cbn; [done| |].
      + rewrite (remove_base_nreq _ _ _ Hc2), Hnr. done.
      + rewrite Ht2, Hc'. cbn. rewrite delete_insert_delete. intros i o' Hi.
        apply lookup_delete_Some in Hi as [_ Hi]. eauto.
    - rewrite bool_decide_false by done. eexists. split; [done|].
      eapply bsrel_upd; [done|by rewrite Hnr| | |].
      + rewrite Hc'. cbn. by rewrite lookup_insert.
      + done.
      + intros i o' Hne. rewrite Hc'. cbn. rewrite lookup_insert_ne by done. eauto.
  Qed.

  Lemma bsrel_can n s t m a r : bsrel n s (mkAbs t m a) ->
    exists s', bs_can_insert s r = Ok (s', (admit a r).2 && bool_decide (r_size r + 0 <= cap)) /\
      bsrel n s' (mkAbs t m (admit a r).1).
  Proof.
    intros (H1 & H2 & H3). unfold bs_can_insert.
    destruct (brel_can _ _ _ _ _ _ r H1) as (c' & -> & Hb & ->).
    eexists. split; [done|]. split_and!; cbn; [done|done|done].
  Qed.

  Lemma bsrel_insert n s t m a r : bsrel n s (mkAbs t m a) -> m !! r_id r = None -> req_ok 0 r ->
    exists s', bs_insert s r = Ok s' /\ bsrel n s' (mkAbs (t + 1) (after r (<[r_id r := fresh t r]> m)) a).
  Proof.
    intros (H1 & H2 & H3) Hn Hr. unfold bs_insert. rewrite never_last. unfold after.
    destruct (decide (last_use r)) as [Hl|Hl].
    - rewrite bool_decide_true by done. eexists. split; [done|].
      rewrite delete_insert by done. split_and!; [by eapply brel_clock|done|done].
    - rewrite bool_decide_false by done.
      destruct (brel_insert _ _ _ _ _ _ r H1 Hn Hr) as (c' & Hc & Hb & Ht); [lia|]. rewrite Hc. cbn [rbind].
      eexists. split; [done|]. eapply bsrel_upd; [done|by rewrite (insert_base_nreq _ _ _ Hc)| | |].
      + rewrite Ht. by rewrite lookup_insert.
      + done.
      + intros i o' Hne. rewrite Ht. rewrite lookup_insert_ne by done. eauto.
  Qed.

  Lemma bsrel_evict n s t m a r s' : abs_ok cap 0 (mkAbs t m a) -> bsrel n s (mkAbs t m a) ->
    bs_evict draw n_sample pf s r = Ok s' ->
    exists v, is_Some (m !! v) /\ pol_due n m v /\ bsrel n s' (mkAbs t (delete v m) a).
  Proof.
    intros Hok HR H. unfold bs_evict in H. apply rbind_ok in H as ([v seed] & Hp & H).
    apply rbind_ok in H as (c' & Hc & [= <-]).
    destruct (bs_pick_facts _ _ _ _ _ Hp) as (seed0 & ov & _ & Hov & Hs & _).
    pose proof HR as (H1 & _). destruct (brel_some_inv _ _ _ _ _ _ H1 Hov) as (e & He & _). cbn in He.
    exists v. split_and!; [eauto| |].
    - intros e' He'. rewrite He in He'. injection He' as <-.
      by rewrite <- (bsrel_score _ _ _ _ _ _ HR Hov He).
    - destruct (bsrel_remove_at _ _ _ _ _ _ _ Hok HR He) as (c2 & Hc2 & HR2).
      unfold cache_evict_base in Hc. rewrite Hc2 in Hc. injection Hc as <-. apply HR2.
  Qed.

  Lemma bsrel_to_evict n s t m a r s' o : abs_ok cap 0 (mkAbs t m a) -> bsrel n s (mkAbs t m a) ->
    bs_to_evict draw n_sample pf s r = Ok (s', o) ->
    exists v, o = Some v /\ is_Some (m !! v) /\ pol_due n m v /\ bsrel n s' (mkAbs t m a).
  Proof.
    intros Hok HR H. unfold bs_to_evict in H. apply rbind_ok in H as ([v seed] & Hp & [= <- <-]).
    destruct (bs_pick_facts _ _ _ _ _ Hp) as (seed0 & ov & _ & Hov & Hs & _).
    pose proof HR as (H1 & _). destruct (brel_some_inv _ _ _ _ _ _ H1 Hov) as (e & He & _). cbn in He.
    exists v. split_and!; [done|eauto| |done].
    intros e' He'. rewrite He in He'. injection He' as <-.
    by rewrite <- (bsrel_score _ _ _ _ _ _ HR Hov He).
  Qed.

  Lemma bs_loop_ok n r fuel : forall s t m a s', abs_ok cap 0 (mkAbs t m a) ->
    bsrel n s (mkAbs t m a) -> evict_loop O fuel s r = Ok s' ->
    exists m', evict_to (pol_due n) cap 0 (r_size r + 0) m m' /\ bsrel n s' (mkAbs t m' a).
  Proof.
    induction fuel as [|fuel IH]; intros s t m a s' Hok HR; cbn.
    all: pose proof HR as (H1 & _); cbn [a_m] in *.
    all: rewrite (br_size _ _ _ _ H1), (br_md _ _ _ _ H1), (br_occ _ _ _ _ H1); cbn [a_m].
    all: destruct (decide (msum 0 m + r_size r + 0 > cap)) as [Hgt|Hle]; intros He.
    - done.
    - injection He as <-. exists m. split; [|done]. constructor. lia.
    - apply rbind_ok in He as (s1 & Hev & He).
      destruct (bsrel_evict _ _ _ _ _ _ _ Hok HR Hev) as (v & Hv & Hp & HR1).
      destruct (IH s1 t (delete v m) a s') as (m' & Hm' & HR2); auto; [by apply abs_ok_delete|].
      exists m'. split; [|done]. eapply ev_more; [lia|done|done|done].
    - injection He as <-. exists m. split; [|done]. constructor. lia.
  Qed.

  Lemma bs_loop_total n r : draws_residents draw -> (0 < n_sample)%nat -> r_size r <= cap ->
    forall fuel s t m a, abs_ok cap 0 (mkAbs t m a) ->
    bsrel n s (mkAbs t m a) -> (forall id e, m !! id = Some e -> n <= e_next e) -> (size m <= fuel)%nat ->
    exists s', evict_loop O fuel s r = Ok s'.
  Proof.
    intros Hd Hns Hfit. induction fuel as [|fuel IH]; intros s t m a Hok HR Hnx Hf; cbn.
    all: pose proof HR as (H1 & _); cbn [a_m] in *.
    all: rewrite (br_size _ _ _ _ H1), (br_md _ _ _ _ H1), (br_occ _ _ _ _ H1); cbn [a_m].
    all: destruct (decide (msum 0 m + r_size r + 0 > cap)) as [Hgt|Hle]; [|eauto].
    { assert (m = ∅) as -> by (apply map_size_empty_inv; lia). rewrite msum_empty in Hgt. lia. }
    assert (Hne : m <> ∅) by (intros ->; rewrite msum_empty in Hgt; lia).
    destruct (bs_pick_total (bs_c s) (bs_seed s) pf Hd Hns) as (v & seed' & Hp).
    { intros He. apply Hne. apply map_empty. intros i. apply (brel_none_inv _ _ _ _ i H1). by rewrite He, lookup_empty. }
    { intros i o Ho. destruct (brel_some_inv _ _ _ _ _ _ H1 Ho) as (e & He & _).
      rewrite (bsrel_score _ _ _ _ _ _ HR Ho He). cbn in He. specialize (Hnx _ _ He).
      destruct Hok as (_ & Hok & _). specialize (Hok _ _ He). cbn in Hok. nia. }
    destruct (bs_pick_facts _ _ _ _ _ Hp) as (seed0 & ov & _ & Hov & _).
    destruct (brel_some_inv _ _ _ _ _ _ H1 Hov) as (e & He & _). cbn in He.
    destruct (bsrel_remove_at _ _ _ _ _ _ _ Hok HR He) as (c2 & Hc2 & HR2).
    unfold bs_evict at 1. rewrite Hp. cbn [rbind]. unfold cache_evict_base. rewrite Hc2. cbn [rbind].
    eapply IH; [by apply abs_ok_delete|apply HR2| |].
    - intros i e' Hi. apply lookup_delete_Some in Hi as [_ Hi]. eauto.
    - rewrite map_size_delete, He. cbn. lia.
  Qed.

  Lemma after_gone r m1 id : id = r_id r /\ last_use r -> after r m1 !! id = None.
  Proof. intros [-> Hl]. unfold after. rewrite decide_True by done. apply lookup_delete. Qed.
  Lemma after_other r m1 id : ~ (id = r_id r /\ last_use r) -> after r m1 !! id = m1 !! id.
  Proof.
    intros Hn. unfold after. destruct (decide (last_use r)) as [Hl|Hl]; [|done].
    apply lookup_delete_ne. intros He. by apply Hn.
  Qed.
  Lemma after_absent r m1 : m1 !! r_id r = None -> after r m1 = m1.
  Proof. intros Hn. unfold after. destruct (decide _); [|done]. by apply delete_notin. Qed.
  Lemma after_ok r t m a : abs_ok cap 0 (mkAbs t m a) -> abs_ok cap 0 (mkAbs t (after r m) a).
  Proof. intros Hok. unfold after. destruct (decide _); [by apply abs_ok_delete|done]. Qed.

  Lemma bs_step_ok n fuel s a c s' o :
    abs_ok cap 0 a -> bsrel n s a -> call_ok (req_ok 0) c -> step O fuel s c = Ok (s', o) ->
    exists t1 m1 ad1 m2, abs_step (pol_due (n + is_get c)) cap 0 a c o (mkAbs t1 m1 ad1) /\
      (forall id, leaves c (a_m a) id -> m2 !! id = None) /\
      (forall id, ~ leaves c (a_m a) id -> m2 !! id = m1 !! id) /\
      bsrel (n + is_get c) s' (mkAbs t1 m2 ad1) /\ abs_ok cap 0 (mkAbs t1 m2 ad1).
  Proof.
    intros Hok HR Hc Hst.
    (* well-formedness of the result follows from the step *)
    cut (exists t1 m1 ad1 m2, abs_step (pol_due (n + is_get c)) cap 0 a c o (mkAbs t1 m1 ad1) /\
      (forall id, leaves c (a_m a) id -> m2 !! id = None) /\
      (forall id, ~ leaves c (a_m a) id -> m2 !! id = m1 !! id) /\
      bsrel (n + is_get c) s' (mkAbs t1 m2 ad1) /\ (m2 = m1 \/ exists x, m2 = delete x m1)).
    { intros (t1 & m1 & ad1 & m2 & H1 & H2 & H3 & H4 & H5). exists t1, m1, ad1, m2. split_and!; try done.
      assert (abs_ok cap 0 (mkAbs t1 m1 ad1)) by (by eapply abs_step_ok).
      destruct H5 as [->|[x ->]]; [done|by apply abs_ok_delete]. }
    assert (Haf : forall r m, after r m = m \/ exists x, after r m = delete x m).
    { intros r m. unfold after. destruct (decide _); eauto. }
    destruct a as [t m ad].
    destruct c as [r|r upd|r|id|r|r]; cbn [call_ok is_get] in *; rewrite ?Z.add_0_r; cbn [step a_m leaves] in *.
    - apply rbind_ok in Hst as ([s1 b] & Hg & [= <- <-]).
      unfold cache_get_base in Hg. cbn [op_tick op_find op_can_insert op_insert bs_ops] in Hg.
      set (s0 := bs_set_c s (c_incr_nreq (bs_c s))) in *.
      assert (HR0 : bsrel (n + 1) s0 (mkAbs t m ad)) by (by apply bsrel_tick).
      apply rbind_ok in Hg as ([s3 hit] & Hfi & Hg).
      destruct (m !! r_id r) as [e|] eqn:E.
      + destruct (bsrel_find_hit _ _ _ _ _ _ _ Hok HR0 E) as (s4 & Hf & HR4).
        rewrite Hf in Hfi. injection Hfi as <- <-. injection Hg as <- <-.
        eexists _, _, _, _. split_and!; [by constructor| | |exact HR4|apply Haf]; [apply after_gone|apply after_other].
      + rewrite (bsrel_find_miss _ _ _ _ true HR0 E) in Hfi. injection Hfi as <- <-.
        destruct (bsrel_can _ _ _ _ _ r HR0) as (s4 & Hca & HR4). rewrite Hca in Hg. cbn [rbind] in Hg.
        assert (Hsame : forall id, id = r_id r /\ last_use r -> m !! id = None) by (by intros id [-> _]).
        destruct (admit ad r) as [ad' ok'] eqn:Ead. cbn [fst snd] in *. destruct ok'; cbn [andb] in Hg.
        * destruct (decide (r_size r + 0 <= cap)) as [Hle|Hgt].
          -- rewrite bool_decide_true in Hg by done.
             assert (Hok3 : abs_ok cap 0 (mkAbs t m ad')) by (by eapply abs_ok_adm).
             apply rbind_ok in Hg as (s5 & Hl & Hg). apply rbind_ok in Hg as (s6 & Hi & [= <- <-]).
             destruct (bs_loop_ok _ _ _ _ _ _ _ _ Hok3 HR4 Hl) as (m' & Hev & HR5).
             destruct (evict_to_ok _ _ _ _ _ _ _ ad' Hev Hok3) as (Hok4 & Hfit & Hsub & _).
             assert (Hn : m' !! r_id r = None).
             { destruct (m' !! r_id r) eqn:E'; [|done].
               rewrite (lookup_weaken _ _ _ _ E' Hsub) in E. done. }
             destruct (bsrel_insert _ _ _ _ _ r HR5 Hn Hc) as (s7 & Hi' & HR7).
             rewrite Hi' in Hi. injection Hi as <-.
             eexists _, _, _, _. split_and!; [eapply AGetMiss; eauto| | |exact HR7|apply Haf]; [apply after_gone|apply after_other].
          -- rewrite bool_decide_false in Hg by done. injection Hg as <- <-.
             eexists _, _, _, m. split_and!; [eapply AGetTooBig; eauto; lia|done|done|by apply bsrel_clock|by left].
        * injection Hg as <- <-. eexists _, _, _, m.
          split_and!; [eapply AGetRefused; eauto|done|done|by apply bsrel_clock|by left].
    - apply rbind_ok in Hst as ([s1 b] & Hf & [= <- <-]). cbn [op_find bs_ops] in Hf. destruct upd.
      + destruct (m !! r_id r) as [e|] eqn:E.
        * destruct (bsrel_find_hit _ _ _ _ _ _ _ Hok HR E) as (s4 & Hf4 & HR4).
          rewrite Hf4 in Hf. injection Hf as <- <-. eexists _, _, _, _.
          split_and!; [by constructor| | |exact HR4|apply Haf]; [apply after_gone|apply after_other].
        * rewrite (bsrel_find_miss _ _ _ _ true HR E) in Hf. injection Hf as <- <-.
          eexists _, _, _, m. split_and!; [by constructor|by intros ? [-> _]|done|by apply bsrel_clock|by left].
      + rewrite (bsrel_find_false _ _ _ _ HR) in Hf. injection Hf as <- <-.
        eexists _, _, _, m. split_and!; [apply AFind|done|done|by apply bsrel_clock|by left].
    - apply rbind_ok in Hst as ([s1 b] & Hf & Hst).
      cbn [op_find bs_ops op_occupied op_md op_size op_insert] in *.
      rewrite (bsrel_find_false _ _ _ _ HR) in Hf. injection Hf as <- <-. cbn [a_m] in *.
      destruct (m !! r_id r) as [e|] eqn:E.
      + rewrite bool_decide_true in Hst by eauto. injection Hst as <- <-.
        eexists _, _, _, m. split_and!; [apply AInsertSkip; left; rewrite E; eauto| |done|by apply bsrel_clock|by left].
        by intros id (_ & _ & ?).
      + rewrite bool_decide_false in Hst by (by intros []). pose proof HR as (H1 & _).
        rewrite (br_size _ _ _ _ H1), (br_md _ _ _ _ H1), (br_occ _ _ _ _ H1) in Hst; cbn [a_m] in Hst.
        destruct (decide _) as [Hgt|Hle].
        * injection Hst as <- <-. eexists _, _, _, m.
          split_and!; [apply AInsertSkip; right; lia| |done|by apply bsrel_clock|by left]. by intros id (_ & _ & ?).
        * apply rbind_ok in Hst as (s2 & Hi & [= <- <-]).
          destruct (bsrel_insert _ _ _ _ _ r HR E Hc) as (s7 & Hi' & HR7).
          rewrite Hi' in Hi. injection Hi as <-. eexists _, _, _, _.
          split_and!; [apply AInsert; auto; lia| | |exact HR7|apply Haf].
          -- intros id (? & ? & _). by apply after_gone.
          -- intros id Hn. apply after_other. intros [-> Hl]. by apply Hn.
    - apply rbind_ok in Hst as ([s1 b] & Hr & [= <- <-]).
      cbn [op_remove bs_ops] in Hr.
      destruct (bsrel_remove _ _ _ _ _ id Hok HR) as (s4 & Hr4 & HR4).
      rewrite Hr4 in Hr. injection Hr as <- <-.
      eexists _, _, _, _. split_and!; [apply ARemove|done|done|by apply bsrel_clock|by left].
    - cbn [op_nobj op_evict bs_ops] in Hst. pose proof HR as (H1 & _). rewrite (br_nobj _ _ _ _ H1) in Hst.
      cbn [a_m] in Hst. destruct (decide _) as [Hz|Hnz].
      + injection Hst as <- <-. assert (m = ∅) as -> by (apply map_size_empty_inv; lia).
        eexists _, _, _, ∅. split_and!; [apply AEvictEmpty|done|done|by apply bsrel_clock|by left].
      + apply rbind_ok in Hst as (s1 & He & [= <- <-]).
        destruct (bsrel_evict _ _ _ _ _ _ _ Hok HR He) as (v & Hv & Hpol & HR1).
        eexists _, _, _, _. split_and!; [by apply AEvict|done|done|by apply bsrel_clock|by left].
    - cbn [op_nobj op_to_evict bs_ops] in Hst. pose proof HR as (H1 & _). rewrite (br_nobj _ _ _ _ H1) in Hst.
      cbn [a_m] in Hst. destruct (decide _) as [Hz|Hnz].
      + injection Hst as <- <-. assert (m = ∅) as -> by (apply map_size_empty_inv; lia).
        eexists _, _, _, ∅. split_and!; [apply AToEvictEmpty|done|done|by apply bsrel_clock|by left].
      + apply rbind_ok in Hst as ([s1 v] & He & [= <- <-]).
        destruct (bsrel_to_evict _ _ _ _ _ _ _ _ Hok HR He) as (v' & -> & Hv & Hpol & HR1).
        eexists _, _, _, _. split_and!; [by apply AToEvict|done|done|by apply bsrel_clock|by left].
  Qed.

  Lemma bs_run_ok fuel cs : forall n s a s' os,
    abs_ok cap 0 a -> bsrel n s a -> Forall (call_ok (req_ok 0)) cs ->
    run O fuel s cs = Ok (s', os) ->
    exists a', leaving_run cap n a cs os a' /\ bsrel (n + n_gets cs) s' a' /\ abs_ok cap 0 a'.
  Proof.
    induction cs as [|c cs IH]; intros n s a s' os Hok HR Hc Hr; cbn in Hr.
    - injection Hr as <- <-. eexists. cbn. rewrite !Z.add_0_r. split_and!; [constructor|done|done].
    - inversion Hc; subst.
      apply rbind_ok in Hr as ([s1 o] & Hs & Hr). apply rbind_ok in Hr as ([s2 os'] & Hr & [= <- <-]).
      destruct (bs_step_ok _ _ _ _ _ _ _ Hok HR H1 Hs) as (t1 & m1 & ad1 & m2 & Ha & Hg & Ho & HR1 & Hok1).
      destruct (IH _ _ _ _ _ Hok1 HR1 H2 Hr) as (a' & Hrun & HR' & Hok').
      exists a'. split_and!; [by econstructor| |done]. cbn [n_gets]. by rewrite !Z.add_assoc.
  Qed.

  (** Under a right oracle nothing is ever overdue, so every get returns. *)
  Lemma bs_truthful_total fuel rs : draws_residents draw -> (0 < n_sample)%nat -> truthful rs ->
    Forall (req_ok 0) rs ->
    forall l k s t m a, rs = k ++ l -> abs_ok cap 0 (mkAbs t m a) -> bsrel (Z.of_nat (length k)) s (mkAbs t m a) ->
    (forall id e, m !! id = Some e -> exists j r', (length k <= j)%nat /\ rs !! j = Some r' /\ r_id r' = id /\
        Z.of_nat j <= e_next e) ->
    (size m + length l <= fuel)%nat ->
    exists s' os, run O fuel s (map CGet l) = Ok (s', os).
  Proof.
    intros Hd Hns Htr Hrs. induction l as [|r l IH]; intros k s t m a Hk Hok HR Hinv Hf; cbn; [eauto|].
    assert (Hr : req_ok 0 r). { rewrite Forall_forall in Hrs. apply Hrs. rewrite Hk. set_solver. }
    assert (Hat : rs !! length k = Some r). { rewrite Hk. by apply list_lookup_middle. }
    (* the get returns *)
    assert (exists s' b, cache_get_base O fuel s r = Ok (s', b)) as (s' & b & Hg).
    { unfold cache_get_base. cbn [op_tick op_find op_can_insert op_insert bs_ops].
      set (s0 := bs_set_c s (c_incr_nreq (bs_c s))).
      assert (HR0 : bsrel (Z.of_nat (length k) + 1) s0 (mkAbs t m a)) by (by apply bsrel_tick).
      destruct (m !! r_id r) as [e|] eqn:E.
      { destruct (bsrel_find_hit _ _ _ _ _ _ _ Hok HR0 E) as (s4 & -> & _). cbn. eauto. }
      rewrite (bsrel_find_miss _ _ _ _ true HR0 E). cbn [rbind].
      destruct (bsrel_can _ _ _ _ _ r HR0) as (s4 & -> & HR4). cbn [rbind].
      destruct (admit a r) as [ad' ok']. cbn [fst snd] in *. destruct ok'; cbn [andb]; [|eauto].
      destruct (decide (r_size r + 0 <= cap)) as [Hle|Hgt]; [|rewrite bool_decide_false by done; eauto].
      rewrite bool_decide_true by done.
      assert (Hok3 : abs_ok cap 0 (mkAbs t m ad')) by (by eapply abs_ok_adm).
      destruct (bs_loop_total (Z.of_nat (length k) + 1) r Hd Hns ltac:(lia) fuel s4 t m ad' Hok3 HR4) as (s5 & Hl).
      { intros id e He. destruct (Hinv _ _ He) as (j & r' & Hj & Hr' & <- & Hx).
        assert (j <> length k) by (intros ->; rewrite Hat in Hr'; injection Hr' as <-; congruence). lia. }
      { cbn in Hf. lia. }
      rewrite Hl. cbn [rbind].
      destruct (bs_loop_ok _ _ _ _ _ _ _ _ Hok3 HR4 Hl) as (m' & Hev & HR5).
      destruct (evict_to_ok _ _ _ _ _ _ _ ad' Hev Hok3) as (Hok4 & Hfit & Hsub & _).
      assert (Hn : m' !! r_id r = None).
      { destruct (m' !! r_id r) eqn:E'; [|done]. rewrite (lookup_weaken _ _ _ _ E' Hsub) in E. done. }
      destruct (bsrel_insert _ _ _ _ _ r HR5 Hn Hr) as (s7 & -> & _). cbn. eauto. }
    rewrite Hg. cbn [rbind].
    assert (Hst : step O fuel s (CGet r) = Ok (s', OBool b)) by (cbn; by rewrite Hg).
    destruct (bs_step_ok _ _ _ _ (CGet r) _ _ Hok HR Hr Hst) as (t1 & m1 & ad1 & m2 & Ha & Hgo & Hot & HR1 & Hok1).
    cbn [is_get leaves a_m] in *.
    (* where the entries of m1 come from *)
    assert (Hm1 : forall id e, m1 !! id = Some e ->
      (id = r_id r /\ e_next e = r_next r) \/ (id <> r_id r /\ m !! id = Some e)).
    { intros id e He. inversion Ha; subst.
      - apply lookup_insert_Some in He as [[<- <-]|[? ?]]; auto.
      - right. split; [|done]. intros ->. congruence.
      - right. split; [|done]. intros ->. congruence.
      - apply lookup_insert_Some in He as [[<- <-]|[? He]]; auto. right. split; [done|].
        destruct (evict_to_ok _ _ _ _ _ _ _ a H10 Hok) as (_ & _ & Hsub & _). by eapply lookup_weaken. }
    assert (Hsz : (size m2 <= size m + 1)%nat).
    { assert (size m2 <= size m1)%nat.
      { rewrite <- !size_dom. apply subseteq_size. intros i. rewrite !elem_of_dom.
        intros [e He]. destruct (decide (i = r_id r /\ last_use r)) as [Hl|Hl].
        - by rewrite (Hgo _ Hl) in He.
        - rewrite (Hot _ Hl) in He. eauto. }
      assert (size m1 <= size m + 1)%nat; [|lia].
      rewrite <- !size_dom. transitivity (size ({[r_id r]} ∪ dom m)).
      - apply subseteq_size. intros i. rewrite elem_of_union, !elem_of_dom, elem_of_singleton.
        intros [e He]. destruct (Hm1 _ _ He) as [[-> _]|[_ Hi]]; eauto.
      - rewrite size_union_alt, size_singleton.
        assert (size (dom m ∖ {[r_id r]}) <= size (dom m))%nat by (apply subseteq_size; set_solver). lia. }
    assert (exists s2 os, run O fuel s' (map CGet l) = Ok (s2, os)) as (s2 & os & ->); [|cbn; eauto].
    apply (IH (k ++ [r]) s' t1 m2 ad1).
    - by rewrite <- app_assoc.
    - done.
    - rewrite app_length. cbn. replace (Z.of_nat (length k + 1)) with (Z.of_nat (length k) + 1) by lia. done.
    - intros id e He. rewrite app_length. cbn.
      destruct (decide (id = r_id r /\ last_use r)) as [Hl|Hl]; [by rewrite (Hgo _ Hl) in He|].
      rewrite (Hot _ Hl) in He. destruct (Hm1 _ _ He) as [[-> Hx]|[Hne Hi]].
      + destruct (Htr _ _ Hat) as [Hlu|(j & r' & Hj & Hr' & Hid & Hnx)]; [by exfalso; apply Hl|].
        exists j, r'. rewrite Hx. split_and!; [lia|done|done|done].
      + destruct (Hinv _ _ Hi) as (j & r' & Hj & Hr' & <- & Hx).
        assert (j <> length k) by (intros ->; rewrite Hat in Hr'; injection Hr' as <-; done).
        exists j, r'. split_and!; [lia|done|done|done].
    - cbn in Hf. lia.
  Qed.

  Lemma bs_init_rel adm seed : bsrel 0 (bs_init cap adm seed) (abs_init adm).
  Proof. split_and!; [apply brel_init|done|]. intros id o. cbn. by rewrite lookup_empty. Qed.
End BS.
