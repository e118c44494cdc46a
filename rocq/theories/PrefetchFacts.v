(** Prefetching around any simulated cache, and the ring of OBL. *)
From stdpp Require Import gmap list numbers fin_maps.
From Verif Require Import Base Driver Abs AbsFacts Sim ModelPQ ModelPrefetch SpecPrefetch.
Open Scope Z_scope.

Section Generic.
  Context {S : Type} (pol : policy) (O : ops S) (cap md : Z) (P : req -> Prop) (R : S -> abs -> Prop).
  Context (HS : simulation pol O cap md P R).

  Lemma steps_enough s a : R s a -> (size (a_m a) <= steps_of O s)%nat.
  Proof. intros HR. unfold steps_of. rewrite (sim_nobj _ _ _ _ _ _ HS _ _ HR). lia. Qed.

  (** what the code does to bring in an object, with the room test of PG *)
  Lemma fill_ok s a r : abs_ok cap md a -> R s a -> P r -> r_size r + md <= cap ->
    exists s' a', pg_fill O s r = Ok s' /\ abs_fill pol cap md a r a' /\ R s' a' /\ abs_ok cap md a'.
  Proof.
    intros Hok HR HP Hfit. unfold pg_fill. rewrite (sim_find_false _ _ _ _ _ _ HS _ _ r HR). cbn [rbind].
    destruct (a_m a !! r_id r) as [e|] eqn:E.
    - rewrite bool_decide_true by eauto. exists s, a. split_and!; try done. apply F_there. rewrite E. eauto.
    - rewrite bool_decide_false by (by intros []).
      destruct a as [t m ad]. cbn [a_m] in *.
      destruct (sim_evict_loop pol O cap md P R HS (steps_of O s) s t m ad r Hok HR Hfit) as (s1 & m' & -> & Het & HR1).
      { apply (steps_enough _ _ HR). }
      cbn [rbind]. destruct (evict_to_ok _ _ _ _ _ _ _ ad Het Hok) as (Hok1 & Hf1 & Hsub & _).
      assert (En : m' !! r_id r = None).
      { destruct (m' !! r_id r) eqn:E'; [|done]. by rewrite (lookup_weaken _ _ _ _ E' Hsub) in E. }
      destruct (sim_insert _ _ _ _ _ _ HS s1 t m' ad r Hok1 HR1 En HP Hf1) as (s2 & -> & HR2).
      eexists s2, _. split; [done|]. split; [by apply F_load|]. split; [exact HR2|].
      apply (abs_ok_fresh _ _ _ _ ad); try done. by apply (sim_req _ _ _ _ _ _ HS).
  Qed.

  Lemma fills_ok rs : forall s a, abs_ok cap md a -> R s a -> Forall (fun r => P r /\ r_size r + md <= cap) rs ->
    exists s' a', pg_fills O s rs = Ok s' /\ abs_fills pol cap md a rs a' /\ R s' a' /\ abs_ok cap md a'.
  Proof.
    induction rs as [|r rs IH]; intros s a Hok HR HF.
    { exists s, a. split_and!; try done. constructor. }
    apply Forall_cons in HF as [[HP Hf] HF]. cbn [pg_fills].
    destruct (fill_ok s a r Hok HR HP Hf) as (s1 & a1 & -> & H1 & HR1 & Hok1). cbn [rbind].
    destruct (IH s1 a1 Hok1 HR1 HF) as (s2 & a2 & -> & H2 & HR2 & Hok2).
    exists s2, a2. split_and!; try done. by econstructor.
  Qed.

  (** the loop of OBL is that of PG when there is no metadata *)
  Lemma obl_loop_eq fuel bs s a r r' : md = 0 -> r_size r' = bs ->
    abs_ok cap md a -> R s a -> r_size r' + md <= cap -> (size (a_m a) <= fuel)%nat ->
    exists s' m', obl_loop O fuel bs s r = Ok s' /\
      evict_to pol cap md (r_size r' + md) (a_m a) m' /\ R s' (mkAbs (a_t a) m' (a_adm a)).
  Proof.
    intros Hmd Hs. subst bs. destruct a as [t m ad]. cbn [a_m a_t a_adm]. revert s m.
    induction fuel as [|fuel IH]; intros s m Hok HR Hfit Hf; cbn [obl_loop];
      rewrite (sim_size _ _ _ _ _ _ HS _ _ HR), (sim_occ _ _ _ _ _ _ HS _ _ HR); cbn [a_m].
    - assert (m = ∅) as -> by (apply map_size_empty_inv; lia).
      rewrite msum_empty. rewrite decide_False by lia.
      exists s, ∅. split_and!; auto. constructor. rewrite msum_empty. lia.
    - destruct (decide _) as [Hgt|Hle].
      + assert (m <> ∅) as Hne by (intros ->; rewrite msum_empty in Hgt; lia).
        destruct (sim_evict _ _ _ _ _ _ HS s t m ad r Hok HR Hne)
          as (s1 & v & s2 & _ & _ & Hv & Hpol & Hev & HR2 & _).
        rewrite Hev. cbn [rbind].
        destruct (IH s2 (delete v m)) as (s' & m' & Hl & Het & HR').
        * by apply abs_ok_delete.
        * done.
        * done.
        * rewrite map_size_delete_Some by done. lia.
        * exists s', m'. split_and!; auto. eapply ev_more; eauto. lia.
      + exists s, m. split_and!; auto. constructor. lia.
  Qed.

  (** any prefetcher that keeps an invariant and asks for what [want] says *)
  Context {Q : Type} (F : prefetcher S Q) (want : list req -> req -> list req -> Prop).
  Context (I : list req -> Q -> Prop) (J : list req -> req -> Q -> Prop) (good : req -> Prop).
  Hypothesis (Hgood : forall r, good r -> P r).
  Hypothesis (Hfind : forall h q r b, I h q -> good r -> exists q', pf_find F q r b = Ok q' /\ J h r q').
  Hypothesis (Hpre : forall h q r s a, J h r q -> good r -> R s a -> abs_ok cap md a ->
    exists s' q' l a', pf_prefetch F (s, q) r = Ok (s', q') /\ I (h ++ [r]) q' /\
      want h r l /\ abs_fills pol cap md a l a' /\ R s' a' /\ abs_ok cap md a').

  Lemma pf_get_ok h s q a r : I h q -> good r -> R s a -> abs_ok cap md a ->
    exists s' q' b a1 l a2, pf_get O F (s, q) r = Ok (s', q', b) /\
      abs_step pol cap md a (CGet r) (OBool b) a1 /\ want h r l /\ abs_fills pol cap md a1 l a2 /\
      I (h ++ [r]) q' /\ R s' a2 /\ abs_ok cap md a2.
  Proof using HS Hgood Hfind Hpre.
    intros HI Hg HR Hok. unfold pf_get. destruct a as [t m ad].
    pose proof (sim_tick _ _ _ _ _ _ HS _ _ HR) as HR0.
    assert (Hc : call_ok (req_ok md) (CGet r)) by (cbn; by apply (sim_req _ _ _ _ _ _ HS), Hgood).
    assert (Hend : forall s1 q1 b a1, R s1 a1 -> J h r q1 ->
      abs_step pol cap md (mkAbs t m ad) (CGet r) (OBool b) a1 ->
      exists s' q' b' a1 l a2,
        (let! sp := pf_prefetch F (s1, q1) r in Ok (sp, b)) = Ok (s', q', b') /\
        abs_step pol cap md (mkAbs t m ad) (CGet r) (OBool b') a1 /\ want h r l /\ abs_fills pol cap md a1 l a2 /\
        I (h ++ [r]) q' /\ R s' a2 /\ abs_ok cap md a2).
    { intros s1 q1 b a1 HR1 HJ Hst.
      assert (Hok1 : abs_ok cap md a1) by (by eapply abs_step_ok).
      destruct (Hpre h q1 r s1 a1 HJ Hg HR1 Hok1) as (s' & q' & l & a2 & -> & HI' & Hw & Hf & HR2 & Hok2).
      exists s', q', b, a1, l, a2. split_and!; done. }
    destruct (m !! r_id r) as [e|] eqn:E.
    - destruct (sim_find_hit _ _ _ _ _ _ HS _ _ _ _ r e Hok HR0 E) as (s1 & -> & HR1). cbn [rbind].
      destruct (Hfind h q r true HI Hg) as (q1 & -> & HJ). cbn [rbind].
      eapply Hend; [exact HR1|done|]. by constructor.
    - destruct (sim_find_miss _ _ _ _ _ _ HS _ _ r HR0 E) as (s1 & -> & HR1). cbn [rbind].
      destruct (Hfind h q r false HI Hg) as (q1 & -> & HJ). cbn [rbind].
      destruct (sim_can _ _ _ _ _ _ HS _ _ _ _ r HR1) as (s2 & -> & HR2). cbn [rbind].
      destruct (admit ad r) as [ad' ok] eqn:Ead. cbn [fst snd] in *.
      destruct ok; cbn [andb].
      + destruct (decide (r_size r + md <= cap)) as [Hle|Hgt].
        * rewrite bool_decide_true by done.
          assert (Hok2 : abs_ok cap md (mkAbs t m ad')) by (by eapply abs_ok_adm).
          destruct (sim_evict_loop pol O cap md P R HS (steps_of O s2) s2 t m ad' r Hok2 HR2 Hle)
            as (s3 & m' & -> & Het & HR3).
          { apply (steps_enough _ _ HR2). }
          cbn [rbind].
          destruct (evict_to_ok _ _ _ _ _ _ _ ad' Het Hok2) as (Hok3 & Hfit & Hsub & _).
          destruct (sim_insert _ _ _ _ _ _ HS s3 t m' ad' r Hok3 HR3) as (s4 & -> & HR4); auto.
          { destruct (m' !! r_id r) eqn:E'; [|done]. by rewrite (lookup_weaken _ _ _ _ E' Hsub) in E. }
          cbn [rbind]. eapply Hend; [exact HR4|done|]. by eapply AGetMiss.
        * rewrite bool_decide_false by done. cbn [rbind].
          eapply Hend; [exact (sim_clock _ _ _ _ _ _ HS _ _ _ _ HR2)|done|]. eapply AGetTooBig; eauto; lia.
      + cbn [rbind]. eapply Hend; [exact (sim_clock _ _ _ _ _ _ HS _ _ _ _ HR2)|done|]. by eapply AGetRefused.
  Qed.

  Lemma pf_run_ok rs : forall h s q a, I h q -> Forall good rs -> R s a -> abs_ok cap md a ->
    exists s' q' bs a', pf_run O F (s, q) rs = Ok (s', q', bs) /\
      abs_prun pol cap md want h a rs bs a' /\ I (h ++ rs) q' /\ R s' a' /\ abs_ok cap md a'.
  Proof using HS Hgood Hfind Hpre.
    induction rs as [|r rs IH]; intros h s q a HI HF HR Hok.
    { exists s, q, [], a. rewrite app_nil_r. split_and!; try done. constructor. }
    apply Forall_cons in HF as [Hg HF]. cbn [pf_run].
    destruct (pf_get_ok h s q a r HI Hg HR Hok) as (s1 & q1 & b & a1 & l & a2 & -> & Hst & Hw & Hf & HI1 & HR1 & Hok1).
    cbn [rbind].
    destruct (IH (h ++ [r]) s1 q1 a2 HI1 HF HR1 Hok1) as (s2 & q2 & bs & a3 & -> & Hr & HI2 & HR2 & Hok2).
    exists s2, q2, (b :: bs), a3. rewrite <- app_assoc in HI2. split_and!; try done. by econstructor.
  Qed.
End Generic.

(** ** The ring of OBL *)

(** The last [k] ids before now, newest first, filled up with UINT64_MAX. *)
Definition past (h : list Z) (i : nat) : Z := default (2 ^ 64 - 1) (reverse h !! i).

Record obl_ok (bs : Z) (k : nat) (h : list Z) (p : obl) : Prop := {
  oo_bs : ob_bs p = bs;
  oo_k  : ob_k p = k;
  oo_do : ob_do p = false;
  oo_ix : (ob_idx p < k)%nat;
  oo_len : length (ob_prev p) = k;
  oo_ring : forall i, (i < k)%nat -> ob_prev p !! ((ob_idx p + k - i) mod k)%nat = Some (past h i)
}.

Lemma obl_init_ok bs k : (0 < k)%nat -> obl_ok bs k [] (obl_init bs k).
Proof.
  intros Hk. split; try done.
  - cbn [obl_init ob_prev]. apply replicate_length.
  - intros i Hi. cbn [obl_init ob_prev ob_idx]. apply lookup_replicate_2. apply Nat.mod_upper_bound. lia.
Qed.

Lemma past_snoc h x i : past (h ++ [x]) i = match i with 0%nat => x | Datatypes.S j => past h j end.
Proof. unfold past. rewrite reverse_snoc. by destruct i. Qed.

Lemma obl_check_ok bs k h p id n : obl_ok bs k h p -> (n <= k)%nat ->
  exists b, obl_check p id n = Ok b /\
    (b = true <-> forall i, (i < n)%nat -> past h i = u64 (id - 1 - Z.of_nat i)).
Proof.
  intros [Hbs Hk Hdo Hix Hlen Hring]. induction n as [|n IH]; intros Hn.
  { exists true. split; [done|]. split; [|done]. intros _ i Hi. lia. }
  cbn [obl_check]. rewrite Hk.
  assert (E : ((ob_idx p + 1 + (k - Datatypes.S n)) mod k = (ob_idx p + k - n) mod k)%nat) by (f_equal; lia).
  rewrite E, (Hring n) by lia.
  replace (id - Z.of_nat k + Z.of_nat (k - Datatypes.S n)) with (id - 1 - Z.of_nat n) by lia.
  destruct (decide (past h n = u64 (id - 1 - Z.of_nat n))) as [Hp|Hp].
  - destruct (IH ltac:(lia)) as (b & Hb & Hiff). exists b. split; [done|]. rewrite Hiff. split.
    + intros H i Hi. destruct (decide (i = n)) as [->|]; [done|]. apply H. lia.
    + intros H i Hi. apply H. lia.
  - exists false. split; [done|]. split; [done|]. intros H. exfalso. apply Hp, H. lia.
Qed.

(** after handle_find, before prefetch *)
Lemma obl_find_ok bs k h p r b : (0 < k)%nat -> obl_ok bs k h p ->
  exists p', obl_find p r b = Ok p' /\
    (ob_do p' = true <-> forall i, (i < k)%nat -> past h i = u64 (r_id r - 1 - Z.of_nat i)) /\
    obl_ok bs k (h ++ [r_id r]) (mkObl (ob_bs p') (ob_k p') false (ob_idx p') (ob_prev p')).
Proof.
  intros Hk0 H. pose proof H as [Hbs Hk Hdo Hix Hlen Hring]. unfold obl_find.
  rewrite Hk. destruct (obl_check_ok bs k h p (r_id r) k H ltac:(lia)) as (fl & -> & Hfl). cbn [rbind].
  assert (Hi : ((ob_idx p + 1) mod k < k)%nat) by (apply Nat.mod_upper_bound; lia).
  rewrite decide_True by lia. eexists. split; [done|]. cbn [ob_do ob_bs ob_k ob_idx ob_prev]. split; [done|].
  split; try done; cbn [ob_do ob_bs ob_k ob_idx ob_prev].
  - by rewrite insert_length.
  - intros i Hik. rewrite past_snoc.
    assert (Hm : ((ob_idx p + 1) mod k = if decide (ob_idx p + 1 = k) then 0 else ob_idx p + 1)%nat).
    { destruct (decide _) as [->|]; [apply Nat.mod_same; lia|apply Nat.mod_small; lia]. }
    destruct i as [|i].
    + replace ((ob_idx p + 1) mod k + k - 0)%nat with ((ob_idx p + 1) mod k + 1 * k)%nat by lia.
      rewrite Nat.mod_add, Nat.mod_mod by lia. apply list_lookup_insert. lia.
    + assert (E : (((ob_idx p + 1) mod k + k - Datatypes.S i) mod k = (ob_idx p + k - i) mod k)%nat).
      { rewrite Hm. destruct (decide _).
        - replace (ob_idx p + k - i)%nat with ((0 + k - Datatypes.S i) + 1 * k)%nat by lia. rewrite Nat.mod_add by lia. done.
        - f_equal. lia. }
      rewrite E, list_lookup_insert_ne; [apply Hring; lia|].
      intros Hc. assert (Hj : (i < k)%nat) by lia.
      (* the slot of the newest id is that of the oldest one before *)
      assert (H1 : (i <= ob_idx p -> (ob_idx p + k - i) mod k = ob_idx p - i)%nat).
      { intros Hle. replace (ob_idx p + k - i)%nat with (ob_idx p - i + 1 * k)%nat by lia. rewrite Nat.mod_add by lia.
        apply Nat.mod_small. lia. }
      assert (H2 : (ob_idx p < i -> (ob_idx p + k - i) mod k = ob_idx p + k - i)%nat).
      { intros Hlt. apply Nat.mod_small. lia. }
      rewrite Hm in Hc. destruct (decide (i <= ob_idx p)%nat); [rewrite H1 in Hc by done|rewrite H2 in Hc by lia];
        destruct (decide (ob_idx p + 1 = k)%nat); lia.
Qed.

(** the ring test is the test for sequential accesses, once k ids are known *)
Lemma past_lookup (h : list Z) i : (i < length h)%nat -> h !! (length h - 1 - i)%nat = Some (past h i).
Proof.
  intros Hi. unfold past. destruct (reverse h !! i) as [x|] eqn:E.
  - apply reverse_lookup_Some in E as [E _]. change (h !! (length h - 1 - i)%nat = Some x). rewrite <- E. f_equal. lia.
  - apply lookup_ge_None in E. rewrite reverse_length in E. lia.
Qed.

Lemma past_short (h : list Z) i : (length h <= i)%nat -> past h i = 2 ^ 64 - 1.
Proof. intros Hi. unfold past. by rewrite lookup_ge_None_2 by (by rewrite reverse_length). Qed.

(** UINT64_MAX is not the id of an object *)
Definition id64 (r : req) : Prop := 0 <= r_id r < 2 ^ 64 - 1.

Lemma past_req h i : (i < length h)%nat ->
  exists q, h !! (length h - 1 - i)%nat = Some q /\ past (map r_id h) i = r_id q.
Proof.
  intros Hi. pose proof (past_lookup (map r_id h) i) as Hp. rewrite map_length in Hp. specialize (Hp Hi).
  apply list_lookup_fmap_Some in Hp as (q & Hq & Hp). eauto.
Qed.

Lemma ring_sequential k h r : Forall id64 h -> id64 r -> (0 < k)%nat -> Z.of_nat k < 2 ^ 32 ->
  (forall i, (i < k)%nat -> past (map r_id h) i = u64 (r_id r - 1 - Z.of_nat i)) <->
  sequential k h r \/ from_zero k h r.
Proof.
  intros HF Hr Hk Hk32. unfold id64 in Hr. split.
  - intros H. destruct (decide (r_id r < Z.of_nat k)) as [Hlt|Hge].
    + right. set (n := Z.to_nat (r_id r)).
      assert (Hn : (length h = n)%nat).
      { assert (Hle : (length h <= n)%nat).
        { destruct (decide (length h <= n)%nat) as [|Hgt]; [done|]. specialize (H n ltac:(lia)).
          replace (r_id r - 1 - Z.of_nat n) with (-1) in H by lia.
          destruct (past_req h n ltac:(lia)) as (q & Hq & Hp). rewrite Hp in H.
          apply (Forall_lookup_1 _ _ _ _ HF) in Hq. unfold id64 in Hq. change (u64 (-1)) with (2 ^ 64 - 1) in H. lia. }
        destruct (decide (n <= length h)%nat) as [|Hgt]; [lia|]. specialize (H (length h) ltac:(lia)).
        rewrite past_short in H by (by rewrite map_length). unfold u64 in H. rewrite Z.mod_small in H by lia. lia. }
      assert (Hk1 : (n + 1 = k)%nat).
      { destruct (decide (n + 1 < k)%nat) as [Hl|]; [|lia]. specialize (H (n + 1)%nat Hl).
        rewrite past_short in H by (rewrite map_length; lia).
        replace (r_id r - 1 - Z.of_nat (n + 1)) with (-2) in H by lia. by change (u64 (-2)) with (2 ^ 64 - 2) in H. }
      split; [lia|]. apply list_eq_same_length with (n := n).
      { rewrite seqZ_length. lia. }
      { by rewrite map_length. }
      intros i x y Hi Hx Hy. apply lookup_seqZ in Hy as [-> _].
      apply list_lookup_fmap_Some in Hx as (q & Hx & ->).
      specialize (H (n - 1 - i)%nat ltac:(lia)). destruct (past_req h (n - 1 - i) ltac:(lia)) as (q' & Hq' & Hp).
      replace (length h - 1 - (n - 1 - i))%nat with i in Hq' by lia. rewrite Hx in Hq'. injection Hq' as <-.
      rewrite Hp in H. unfold u64 in H. rewrite Z.mod_small in H by lia. lia.
    + left.
      assert (Hlen : (k <= length h)%nat).
      { destruct (decide (k <= length h)%nat) as [|Hn]; [done|]. specialize (H (length h) ltac:(lia)).
        rewrite past_short in H by (by rewrite map_length). unfold u64 in H. rewrite Z.mod_small in H by lia. lia. }
      split; [done|]. intros i Hi. specialize (H i Hi). unfold u64 in H. rewrite Z.mod_small in H by lia.
      destruct (past_req h i ltac:(lia)) as (q & Hq & Hp). exists q. split; [done|]. congruence.
  - intros [[Hlen H]|[Hid Hm]] i Hi.
    + destruct (H i Hi) as (q & Hq & Hid). destruct (past_req h i ltac:(lia)) as (q' & Hq' & Hp).
      rewrite Hq in Hq'. injection Hq' as <-. rewrite Hp, Hid. unfold u64. symmetry. apply Z.mod_small.
      apply (Forall_lookup_1 _ _ _ _ HF) in Hq. unfold id64 in Hq. lia.
    + rewrite Hm. assert (Hl : length (seqZ 0 (Z.of_nat k - 1)) = (k - 1)%nat) by (rewrite seqZ_length; lia).
      destruct (decide (i < k - 1)%nat) as [Hl'|Hl'].
      * pose proof (past_lookup (seqZ 0 (Z.of_nat k - 1)) i) as Hp. rewrite Hl in Hp. specialize (Hp ltac:(lia)).
        apply lookup_seqZ in Hp as [Hp _]. rewrite Hp. unfold u64. rewrite Z.mod_small; lia.
      * rewrite past_short by lia. replace (r_id r - 1 - Z.of_nat i) with (-1) by lia. done.
Qed.

(** ** OBL around a cache *)
Section OblRun.
  Context {S : Type} (pol : policy) (O : ops S) (cap md : Z) (P : req -> Prop) (R : S -> abs -> Prop).
  Context (HS : simulation pol O cap md P R).
  Context (bs : Z) (k : nat).
  Hypothesis (Hk : (0 < k)%nat) (Hk32 : Z.of_nat k < 2 ^ 32) (Hmd : md = 0) (Hbs : bs <= cap).
  Hypothesis (HP : forall r, r_size r = bs -> P r).

  Definition obl_I (h : list req) (p : obl) : Prop := Forall id64 h /\ obl_ok bs k (map r_id h) p.
  Definition obl_J (h : list req) (r : req) (p : obl) : Prop :=
    Forall id64 h /\ id64 r /\
    (ob_do p = true <-> sequential k h r \/ from_zero k h r) /\
    obl_ok bs k (map r_id (h ++ [r])) (mkObl (ob_bs p) (ob_k p) false (ob_idx p) (ob_prev p)).

  Lemma obl_prefetch_ok h p r s a : obl_J h r p -> R s a -> abs_ok cap md a ->
    exists s' p' l a', obl_prefetch O (s, p) r = Ok (s', p') /\ obl_I (h ++ [r]) p' /\
      obl_want k bs h r l /\ abs_fills pol cap md a l a' /\ R s' a' /\ abs_ok cap md a'.
  Proof using HS Hk Hk32 Hmd Hbs HP.
    intros (HF & Hr & Hdo & Hok) HR Ha. unfold obl_prefetch.
    assert (HF' : Forall id64 (h ++ [r])) by (apply Forall_app; split; [done|by apply Forall_singleton]).
    destruct (ob_do p) eqn:E.
    - assert (Hs : sequential k h r \/ from_zero k h r) by (by apply Hdo).
      set (r' := obl_req bs r).
      assert (Ebs : ob_bs p = bs) by apply Hok.
      cbn [ob_bs]. rewrite Ebs. fold r'.
      assert (Hid : r_id r' = r_id r + 1) by (cbn; unfold u64; rewrite Z.mod_small; unfold id64 in Hr; lia).
      assert (HP' : P r') by (by apply HP).
      assert (Hw : obl_want k bs h r [r']) by (left; split; [done|]; by exists r').
      rewrite (sim_find_false _ _ _ _ _ _ HS _ _ r' HR). cbn [rbind].
      rewrite Ebs in Hok.
      destruct (a_m a !! r_id r') as [e|] eqn:Ee.
      + rewrite bool_decide_true by eauto. eexists s, _, [r'], a. split_and!; try done.
        econstructor; [|constructor]. apply F_there. rewrite Ee. eauto.
      + rewrite bool_decide_false by (by intros []).
        destruct (obl_loop_eq pol O cap md P R HS (steps_of O s) bs s a r r' Hmd eq_refl Ha HR ltac:(cbn; lia)
                    (steps_enough pol O cap md P R HS s a HR)) as (s1 & m' & -> & Het & HR1).
        cbn [rbind]. destruct a as [t m ad]. cbn [a_m a_t a_adm] in *.
        destruct (evict_to_ok _ _ _ _ _ _ _ ad Het Ha) as (Hok1 & Hf1 & Hsub & _).
        assert (En : m' !! r_id r' = None).
        { destruct (m' !! r_id r') eqn:E'; [|done]. by rewrite (lookup_weaken _ _ _ _ E' Hsub) in Ee. }
        destruct (sim_insert _ _ _ _ _ _ HS s1 t m' ad r' Hok1 HR1 En HP' Hf1) as (s2 & -> & HR2). cbn [rbind].
        eexists s2, _, [r'], _. split; [done|]. split; [done|]. split; [done|].
        split; [econstructor; [by apply F_load|constructor]|]. split; [exact HR2|].
        apply (abs_ok_fresh _ _ _ _ ad); try done. by apply (sim_req _ _ _ _ _ _ HS).
    - exists s, p, [], a. split_and!; try done.
      + assert (Ep : p = mkObl (ob_bs p) (ob_k p) false (ob_idx p) (ob_prev p)) by (destruct p; cbn in *; by subst).
        rewrite Ep. done.
      + right. split; [|done]. intros H. apply Hdo in H. done.
      + constructor.
  Qed.

  Lemma obl_run_ok rs h s p a : obl_I h p -> Forall (fun r => P r /\ id64 r) rs -> R s a -> abs_ok cap md a ->
    exists s' p' hits a', pf_run O (OBL O) (s, p) rs = Ok (s', p', hits) /\
      abs_prun pol cap md (obl_want k bs) h a rs hits a' /\ obl_I (h ++ rs) p' /\ R s' a' /\ abs_ok cap md a'.
  Proof using HS Hk Hk32 Hmd Hbs HP.
    intros HI HF HR Ha.
    refine (pf_run_ok pol O cap md P R HS (OBL O) (obl_want k bs) obl_I obl_J (fun r => P r /\ id64 r) _ _ _ rs h s p a HI HF HR Ha).
    - by intros r [].
    - intros h0 q r b [HF0 Hq] [_ Hr]. destruct (obl_find_ok bs k (map r_id h0) q r b Hk Hq) as (q' & E & Hd & Hq').
      exists q'. split; [exact E|]. split; [done|]. split; [done|]. split.
      + rewrite Hd. by apply ring_sequential.
      + by rewrite map_app.
    - intros h0 q r s0 a0 HJ _ HR0 Ha0. by apply obl_prefetch_ok.
  Qed.
End OblRun.

(** ** When nothing is sequential, OBL changes nothing *)
Lemma obl_inert {S} (O : ops S) bs k rs : (0 < k)%nat -> Z.of_nat k < 2 ^ 32 ->
  forall h s p, obl_I bs k h p -> Forall id64 rs ->
  (forall pre r post, rs = pre ++ r :: post -> ~ sequential k (h ++ pre) r /\ ~ from_zero k (h ++ pre) r) ->
  forall F, (forall (u : unit) r b, pf_find F u r b = Ok tt) -> (forall s u r, pf_prefetch F (s, u) r = Ok (s, u)) ->
  match pf_run O F (s, tt) rs with
  | Ok (s', _, hits) => exists p', pf_run O (OBL O) (s, p) rs = Ok (s', p', hits)
  | Err e => pf_run O (OBL O) (s, p) rs = Err e
  end.
Proof.
  intros Hk Hk32. induction rs as [|r rs IH]; intros h s p [HF Hp] Hrs Hno F HF1 HF2; cbn [pf_run]; [eauto|].
  apply Forall_cons in Hrs as [Hr Hrs]. unfold pf_get.
  destruct (op_find O (op_tick O s) r true) as [[s1 b]|]; cbn [rbind]; [|done]. rewrite HF1. cbn [rbind].
  change (pf_find (OBL O) p r b) with (obl_find p r b).
  destruct (obl_find_ok bs k (map r_id h) p r b Hk Hp) as (p' & -> & Hd & Hp'). cbn [rbind].
  destruct (Hno [] r rs eq_refl) as [N1 N2]. rewrite app_nil_r in N1, N2.
  assert (Ed : ob_do p' = false).
  { apply not_true_is_false. rewrite Hd, ring_sequential by done. tauto. }
  assert (Ep : p' = mkObl (ob_bs p') (ob_k p') false (ob_idx p') (ob_prev p')) by (destruct p'; cbn in *; by subst).
  set (mid := if b then Ok s1 else _). destruct mid as [s2|]; cbn [rbind]; [|done].
  rewrite HF2. cbn [rbind]. cbn [pf_prefetch OBL]. unfold obl_prefetch. rewrite Ed. cbn [rbind].
  specialize (IH (h ++ [r]) s2 p').
  assert (HI' : obl_I bs k (h ++ [r]) p').
  { split; [apply Forall_app; split; [done|by apply Forall_singleton]|]. rewrite map_app, Ep. exact Hp'. }
  specialize (IH HI' Hrs).
  assert (Hno' : forall pre r0 post, rs = pre ++ r0 :: post ->
    ~ sequential k ((h ++ [r]) ++ pre) r0 /\ ~ from_zero k ((h ++ [r]) ++ pre) r0).
  { intros pre r0 post ->. rewrite <- app_assoc. by apply (Hno (r :: pre) r0 post). }
  specialize (IH Hno' F HF1 HF2).
  destruct (pf_run O F (s2, tt) rs) as [[[s3 u] hs]|].
  - destruct IH as (p3 & ->). cbn [rbind]. eauto.
  - by rewrite IH.
Qed.
