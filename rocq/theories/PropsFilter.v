(** C32, C33: the Bloom filter, the admission policies and the counting filter. *)
From stdpp Require Import gmap list numbers fin_maps.
From Verif Require Import Base Driver Abs AbsFacts Sim SpecApi ApiFacts ModelFilter ModelQueue QueueFacts
  ClockFacts SimQueue SimClock SimSieve ModelLFU SimLFU PropsCore ModelPQ SimHeap PropsHeap.
Open Scope Z_scope.

(** * Bits *)
Definition getbit (buf : list Z) (x : Z) : bool :=
  match buf !! Z.to_nat (x / 8) with Some c => Z.testbit c (x mod 8) | None => false end.

Lemma land_mask c k : 0 <= k -> (Z.land c (Z.shiftl 1 k) <> 0 <-> Z.testbit c k = true).
Proof.
  intros Hk. rewrite Z.shiftl_1_l. split.
  - intros Hne. destruct (Z.testbit c k) eqn:E; [done|]. exfalso. apply Hne. apply Z.bits_inj. intros n.
    rewrite Z.land_spec, Z.bits_0. destruct (decide (k = n)) as [->|Hn]; [by rewrite E|].
    rewrite (Z.pow2_bits_false k n) by done. by rewrite andb_false_r.
  - intros E H0. assert (Z.testbit (Z.land c (2 ^ k)) k = true).
    { rewrite Z.land_spec, E, Z.pow2_bits_true by done. done. }
    rewrite H0, Z.bits_0 in H. done.
Qed.

Lemma test_bit_spec buf x set : 0 <= x -> (Z.to_nat (x / 8) < length buf)%nat ->
  exists buf', test_bit_set_bit buf x set = Ok (buf', getbit buf x) /\ length buf' = length buf /\
    forall y, 0 <= y -> getbit buf' y = getbit buf y || (set && bool_decide (y = x)).
Proof.
  intros Hx Hl. unfold test_bit_set_bit, getbit. rewrite Z.shiftr_div_pow2 by lia. change (2 ^ 3) with 8.
  destruct (lookup_lt_is_Some_2 _ _ Hl) as [c Hc]. rewrite Hc.
  assert (Hm : 0 <= x mod 8 < 8) by (apply Z.mod_pos_bound; lia).
  pose proof (land_mask c (x mod 8) (proj1 Hm)) as HM.
  destruct (decide _) as [Hd|Hd].
  - apply HM in Hd. exists buf. rewrite Hd. split_and!; try done. intros y Hy.
    destruct (decide (y = x)) as [->|Hne].
    + by rewrite Hc, Hd.
    + rewrite (bool_decide_eq_false_2 _ Hne). by rewrite andb_false_r, orb_false_r.
  - assert (Z.testbit c (x mod 8) = false) as Hf.
    { destruct (Z.testbit c (x mod 8)) eqn:E; [|done]. exfalso. apply Hd. by apply HM. }
    rewrite Hf. destruct set.
    + eexists. split; [done|]. split; [by rewrite insert_length|]. intros y Hy. cbn [andb].
      destruct (decide (Z.to_nat (y / 8) = Z.to_nat (x / 8))) as [He|He].
      * rewrite He, Hc, list_lookup_insert by done. rewrite Z.lor_spec, Z.shiftl_1_l.
        assert (y / 8 = x / 8).
        { assert (0 <= y / 8) by (apply Z.div_pos; lia). assert (0 <= x / 8) by (apply Z.div_pos; lia). lia. }
        pose proof (Z.div_mod y 8 ltac:(lia)). pose proof (Z.div_mod x 8 ltac:(lia)).
        f_equal. rewrite Z.pow2_bits_eqb by lia. rewrite bool_decide_decide.
        destruct (decide (y = x)) as [->|]; [by rewrite Z.eqb_refl|].
        apply Z.eqb_neq. lia.
      * rewrite list_lookup_insert_ne by congruence.
        rewrite bool_decide_eq_false_2; [by rewrite orb_false_r|]. intros ->. done.
    + exists buf. split_and!; try done. intros y Hy. cbn [andb]. by rewrite orb_false_r.
Qed.

Section Bloom.
  Context {K : Type} (h1 h2 : K -> Z) (bits hashes : Z).
  Context (Hbits : 0 < bits) (Hh : 0 <= hashes).

  (** The array holds every position. *)
  Definition bl_ok (b : bloom) : Prop :=
    bl_bits b = bits /\ bl_hashes b = hashes /\ bl_ready b = true /\ bits <= 8 * Z.of_nat (length (bl_bf b)).

  Lemma pos_bound k i : 0 <= pos h1 h2 bits k i < bits.
  Proof. apply Z.mod_pos_bound. lia. Qed.

  Lemma pos_in (buf : list Z) k i : bits <= 8 * Z.of_nat (length buf) -> (Z.to_nat (pos h1 h2 bits k i / 8) < length buf)%nat.
  Proof.
    intros Hb. pose proof (pos_bound k i) as Hp.
    assert (0 <= pos h1 h2 bits k i / 8) by (apply Z.div_pos; lia).
    assert (pos h1 h2 bits k i / 8 < Z.of_nat (length buf)) by (apply Z.div_lt_upper_bound; lia). lia.
  Qed.

  (** The positions of [k] from the [i]-th on, [n] of them. *)
  Definition at_pos (k : K) (i : Z) (n : nat) (x : Z) : Prop :=
    exists j, i <= j < i + Z.of_nat n /\ pos h1 h2 bits k j = x.

  Lemma bloom_loop_check n : forall i buf k hits, bits <= 8 * Z.of_nat (length buf) ->
    exists o, bloom_loop h1 h2 n i bits buf k false hits = Ok (buf, o) /\
      match o with
      | Some h => h = hits + Z.of_nat n /\ (forall x, at_pos k i n x -> getbit buf x = true)
      | None => exists x, at_pos k i n x /\ getbit buf x = false
      end.
  Proof.
    induction n as [|n IH]; intros i buf k hits Hb; cbn [bloom_loop].
    - exists (Some hits). split; [done|]. split; [lia|]. intros x (j & Hj & _). lia.
    - destruct (test_bit_spec buf (pos h1 h2 bits k i) false) as (buf' & Ht & Hl & Hg).
      { apply pos_bound. } { by apply pos_in. }
      assert (buf' = buf) as ->.
      { unfold test_bit_set_bit in Ht. destruct (_ !! _); [|done]. destruct (decide _); by injection Ht. }
      rewrite Ht. cbn [rbind]. destruct (getbit buf (pos h1 h2 bits k i)) eqn:Eb.
      + destruct (IH (i + 1) buf k (hits + 1) Hb) as (o & -> & Ho). exists o. split; [done|].
        destruct o as [h|].
        * destruct Ho as [-> Ho]. split; [lia|]. intros x (j & Hj & <-).
          destruct (decide (j = i)) as [->|]; [done|]. apply Ho. exists j. split; [lia|done].
        * destruct Ho as (x & (j & Hj & <-) & Hx). exists (pos h1 h2 bits k j). split; [|done].
          exists j. split; [lia|done].
      + exists None. split; [done|]. exists (pos h1 h2 bits k i). split; [|done]. exists i. split; [lia|done].
  Qed.

  Lemma bloom_loop_add n : forall i buf k hits, bits <= 8 * Z.of_nat (length buf) ->
    exists buf' h, bloom_loop h1 h2 n i bits buf k true hits = Ok (buf', Some h) /\
      length buf' = length buf /\
      (forall y, 0 <= y -> getbit buf' y = true <-> getbit buf y = true \/ at_pos k i n y) /\
      h <= hits + Z.of_nat n /\
      (h = hits + Z.of_nat n <-> forall x, at_pos k i n x -> getbit buf x = true).
  Proof.
    induction n as [|n IH]; intros i buf k hits Hb; cbn [bloom_loop].
    - exists buf, hits. split; [done|]. split; [done|]. split; [|split; [lia|split; [intros _|lia]]].
      + intros y _. split; [by left|]. intros [?|(j & Hj & _)]; [done|lia].
      + intros x (j & Hj & _). lia.
    - destruct (test_bit_spec buf (pos h1 h2 bits k i) true) as (buf1 & Ht & Hl & Hg).
      { apply pos_bound. } { by apply pos_in. }
      rewrite Ht. cbn [rbind].
      assert (Hg' : forall y, 0 <= y -> getbit buf1 y = true <-> getbit buf y = true \/ y = pos h1 h2 bits k i).
      { intros y Hy. rewrite Hg by done. cbn [andb]. rewrite orb_true_iff, bool_decide_eq_true. done. }
      assert (Hsplit : forall y, at_pos k i (S n) y <-> y = pos h1 h2 bits k i \/ at_pos k (i + 1) n y).
      { intros y. split.
        - intros (j & Hj & <-). destruct (decide (j = i)) as [->|]; [by left|right]. exists j. split; [lia|done].
        - intros [->|(j & Hj & <-)]; [exists i|exists j]; (split; [lia|done]). }
      assert (Hpos : forall y, at_pos k (i + 1) n y -> 0 <= y).
      { intros y (j & _ & <-). apply pos_bound. }
      destruct (getbit buf (pos h1 h2 bits k i)) eqn:Eb.
      + destruct (IH (i + 1) buf1 k (hits + 1)) as (buf' & h & -> & Hl' & Hs & Hle & Hh'); [by rewrite Hl|].
        exists buf', h. split; [done|]. split; [lia|]. split; [|split; [lia|]].
        * intros y Hy. rewrite Hs, Hg', Hsplit by done. tauto.
        * replace (hits + Z.of_nat (S n)) with (hits + 1 + Z.of_nat n) by lia. rewrite Hh'. split.
          -- intros H x [->|Hx]%Hsplit; [done|]. apply H in Hx as Hx'.
             destruct (proj1 (Hg' x (Hpos x Hx)) Hx') as [Hy| ->]; done.
          -- intros H x Hx. apply Hg'; [by apply Hpos|]. left. apply H, Hsplit. by right.
      + destruct (IH (i + 1) buf1 k hits) as (buf' & h & -> & Hl' & Hs & Hle & Hh'); [by rewrite Hl|].
        exists buf', h. split; [done|]. split; [lia|]. split; [|split; [lia|]].
        * intros y Hy. rewrite Hs, Hg', Hsplit by done. tauto.
        * split; [lia|]. intros H. exfalso. rewrite H in Eb; [done|]. apply Hsplit. by left.
  Qed.

  (** ** The specification *)
  (** The keys added since the last reset. *)
  Fixpoint added (acc : list K) (cs : list (bcall (K:=K))) : list K :=
    match cs with
    | [] => acc
    | BAdd k :: cs => added (k :: acc) cs
    | BCheck _ :: cs => added acc cs
    | BReset :: cs => added [] cs
    end.
  (** Every position of [k] is a position of some key of [ks]: the only
      reason for which a filter may say "present". *)
  Definition covered (ks : list K) (k : K) : Prop :=
    forall i, 0 <= i < hashes -> exists k' j, k' ∈ ks /\ 0 <= j < hashes /\
      pos h1 h2 bits k' j = pos h1 h2 bits k i.

  (** The array is exactly the positions of the added keys. *)
  Definition bl_rep (b : bloom) (ks : list K) : Prop :=
    bl_ok b /\ forall y, 0 <= y -> getbit (bl_bf b) y = true <->
      exists k j, k ∈ ks /\ 0 <= j < hashes /\ pos h1 h2 bits k j = y.

  Lemma at_pos_hashes k y : at_pos k 0 (Z.to_nat hashes) y <-> exists j, 0 <= j < hashes /\ pos h1 h2 bits k j = y.
  Proof. unfold at_pos. replace (0 + Z.of_nat (Z.to_nat hashes)) with hashes by lia. done. Qed.

  Lemma all_pos_covered b ks k : bl_rep b ks ->
    (forall x, at_pos k 0 (Z.to_nat hashes) x -> getbit (bl_bf b) x = true) <-> covered ks k.
  Proof.
    intros [Hok Hr]. split.
    - intros H i Hi. specialize (H (pos h1 h2 bits k i)). apply Hr; [apply pos_bound|]. apply H.
      apply at_pos_hashes. by exists i.
    - intros H x (j & Hj & <-)%at_pos_hashes. apply Hr; [apply pos_bound|]. by apply H.
  Qed.

  Lemma bloom_check_rep b ks k : bl_rep b ks ->
    exists o, bloom_check h1 h2 b k = Ok (b, o) /\ ((o = 1 /\ covered ks k) \/ (o = 0 /\ ~ covered ks k)).
  Proof.
    intros HR. pose proof HR as [(Hb & Hhs & Hr & Hl) Hg]. unfold bloom_check, bloom_check_add. rewrite Hr, Hb, Hhs.
    destruct (bloom_loop_check (Z.to_nat hashes) 0 (bl_bf b) k 0 Hl) as (o & -> & Ho). cbn [rbind].
    assert (mkBloom bits hashes (bl_bf b) true = b) as -> by (destruct b; cbn in *; congruence).
    destruct o as [h|].
    - destruct Ho as [-> Ho]. rewrite decide_True by lia. exists 1. split; [done|]. left. split; [done|].
      by apply (all_pos_covered b ks k HR).
    - exists 0. split; [done|]. right. split; [done|]. destruct Ho as (x & Hx & Hf).
      intros Hc. rewrite (proj2 (all_pos_covered b ks k HR) Hc x Hx) in Hf. done.
  Qed.

  Lemma bloom_add_rep b ks k : bl_rep b ks ->
    exists b' o, bloom_add h1 h2 b k = Ok (b', o) /\ bl_rep b' (k :: ks) /\
      ((o = 1 /\ covered ks k) \/ (o = 0 /\ ~ covered ks k)).
  Proof.
    intros HR. pose proof HR as [(Hb & Hhs & Hr & Hl) Hg]. unfold bloom_add, bloom_check_add. rewrite Hr, Hb, Hhs.
    destruct (bloom_loop_add (Z.to_nat hashes) 0 (bl_bf b) k 0 Hl) as (buf' & h & -> & Hl' & Hs & Hle & Hc). cbn [rbind].
    assert (HR' : bl_rep (mkBloom bits hashes buf' true) (k :: ks)).
    { split; [split_and!; cbn; try done; by rewrite Hl'|]. cbn [bl_bf]. intros y Hy. rewrite Hs, Hg, at_pos_hashes by done. split.
      - intros [(k' & j & Hk & Hj & Hp)|(j & Hj & Hp)]; [exists k', j|exists k, j]; (split; [|done]); apply elem_of_cons; tauto.
      - intros (k' & j & [->|Hk]%elem_of_cons & Hj & Hp); [right; by exists j|left; by exists k', j]. }
    rewrite (all_pos_covered b ks k HR) in Hc. destruct (decide (h = hashes)) as [He|He].
    - eexists _, 1. split; [done|]. split; [done|]. left. split; [done|]. apply Hc. lia.
    - eexists _, 0. split; [done|]. split; [done|]. right. split; [done|]. intros H. apply Hc in H. lia.
  Qed.

  Lemma getbit_zero n y : getbit (replicate n 0) y = false.
  Proof.
    unfold getbit. destruct (replicate n 0 !! _) eqn:E; [|done].
    apply lookup_replicate in E as [-> _]. apply Z.bits_0.
  Qed.

  Lemma bloom_init_rep : bl_rep (bloom_init bits hashes) [].
  Proof.
    split.
    - unfold bloom_init, bl_ok. cbn. rewrite replicate_length. split_and!; try done.
      pose proof (Z.div_mod bits 8 ltac:(lia)). pose proof (Z.mod_pos_bound bits 8 ltac:(lia)).
      assert (0 <= bits / 8) by (apply Z.div_pos; lia). destruct (decide _); lia.
    - intros y _. unfold bloom_init. cbn [bl_bf]. rewrite getbit_zero. split; [done|]. intros (k & _ & Hk & _). by apply elem_of_nil in Hk.
  Qed.

  Lemma bloom_run_rep cs : forall b ks, bl_rep b ks ->
    exists b' os, bloom_run h1 h2 b cs = Ok (b', os) /\ bl_rep b' (added ks cs).
  Proof.
    induction cs as [|c cs IH]; intros b ks HR; cbn [bloom_run].
    - by exists b, [].
    - destruct c as [k|k|]; cbn [bloom_step added].
      + destruct (bloom_add_rep b ks k HR) as (b1 & o & -> & HR1 & _). cbn [rbind].
        destruct (IH b1 _ HR1) as (b' & os & -> & HR'). cbn [rbind]. by exists b', (o :: os).
      + destruct (bloom_check_rep b ks k HR) as (o & -> & _). cbn [rbind].
        destruct (IH b _ HR) as (b' & os & -> & HR'). cbn [rbind]. by exists b', (o :: os).
      + assert (HR1 : bl_rep (bloom_reset b).1 []).
        { destruct HR as [(Hb & Hhs & Hr & Hl) _]. unfold bloom_reset. rewrite Hr. split.
          - unfold bl_ok. cbn. by rewrite replicate_length.
          - intros y _. cbn [bl_bf fst]. rewrite getbit_zero. split; [done|]. intros (k & _ & Hk & _). by apply elem_of_nil in Hk. }
        destruct (bloom_reset b) as [b1 o]. cbn [rbind fst] in *.
        destruct (IH b1 _ HR1) as (b' & os & -> & HR'). cbn [rbind]. by exists b', (o :: os).
  Qed.

  (** C32, Bloom filter: whatever was added, checked and reset before, a
      check answers 1 exactly when every position of the key is a position of
      a key added since the last reset, and changes nothing; an add answers
      the same question.  No access is out of bounds. *)
  Theorem C32_bloom : forall cs,
    exists b os, bloom_run h1 h2 (bloom_init bits hashes) cs = Ok (b, os) /\
      forall k,
        (exists o, bloom_check h1 h2 b k = Ok (b, o) /\
           ((o = 1 /\ covered (added [] cs) k) \/ (o = 0 /\ ~ covered (added [] cs) k))) /\
        (exists b' o, bloom_add h1 h2 b k = Ok (b', o) /\
           ((o = 1 /\ covered (added [] cs) k) \/ (o = 0 /\ ~ covered (added [] cs) k))).
  Proof.
    intros cs. destruct (bloom_run_rep cs _ [] bloom_init_rep) as (b & os & Hrun & HR).
    exists b, os. split; [done|]. intros k. split; [by apply bloom_check_rep|].
    destruct (bloom_add_rep b _ k HR) as (b' & o & Ha & _ & Ho). by exists b', o.
  Qed.

  (** No false negatives. *)
  Theorem C32_bloom_no_false_negative : forall cs k, k ∈ added [] cs ->
    exists b os, bloom_run h1 h2 (bloom_init bits hashes) cs = Ok (b, os) /\ bloom_check h1 h2 b k = Ok (b, 1).
  Proof.
    intros cs k Hk. destruct (C32_bloom cs) as (b & os & Hrun & H). exists b, os. split; [done|].
    destruct (H k) as [(o & Hc & [[-> _]|[_ Hn]]) _]; [done|]. exfalso. apply Hn. intros i Hi. by exists k, i.
  Qed.
End Bloom.

(** 11 positions in 16 bits; key 12 collides with key 1 (a false positive),
    key 4 does not. *)
Definition ex_h1 (k : Z) : Z := k * 7.
Definition ex_h2 (k : Z) : Z := k.
Example C32_bloom_ex :
  (let! (b, os) := bloom_run ex_h1 ex_h2 (bloom_init 11 3)
     [BAdd 1; BCheck 2; BAdd 2; BCheck 1; BCheck 2; BCheck 12; BCheck 4; BReset; BCheck 1] in Ok os)
  = Ok [0; 0; 0; 1; 1; 1; 0; 0; 0].
Proof. vm_compute. reflexivity. Qed.

(** * The counting filter *)
Section CBF.
  Context {K : Type} `{EqDecision K} (h1 h2 : K -> Z) (num hashes : Z).
  Context (Hh : 0 < hashes <= num).

  (** ** The specification *)
  (** How often [k] was added, halved (rounding down) at every decay. *)
  Fixpoint aged (n : Z) (fs : list (fcall (K:=K))) (k : K) : Z :=
    match fs with
    | [] => n
    | FAdd k' :: fs => aged (if decide (k' = k) then n + 1 else n) fs k
    | FEst _ :: fs => aged n fs k
    | FDecay :: fs => aged (n / 2) fs k
    end.
  (** How often an add hit position [x], aged in the same way. *)
  Definition hits_at (k : K) (x : Z) : Z :=
    Z.of_nat (length (filter (fun i => pos h1 h2 num k (Z.of_nat i) = x) (seq 0 (Z.to_nat hashes)))).
  Fixpoint load (n : Z) (fs : list (fcall (K:=K))) (x : Z) : Z :=
    match fs with
    | [] => n
    | FAdd k :: fs => load (n + hits_at k x) fs x
    | FEst _ :: fs => load n fs x
    | FDecay :: fs => load (n / 2) fs x
    end.

  Definition ctr (c : cbf) (x : Z) : Z := default 0 (cb_bf c !! Z.to_nat x).

  (** The counters, all of them at most [bd]. *)
  Definition cb_ok (c : cbf) (bd : Z) : Prop :=
    cb_hashes c = hashes /\ cb_num c = num /\ cb_ready c = true /\ length (cb_bf c) = Z.to_nat num /\
    forall x, 0 <= x < num -> 0 <= ctr c x <= bd.

  Lemma cpos_bound k i : 0 <= pos h1 h2 num k i < num.
  Proof. apply Z.mod_pos_bound. lia. Qed.

  Lemma ctr_lookup (bf : list Z) x : 0 <= x < num -> length bf = Z.to_nat num ->
    bf !! Z.to_nat x = Some (default 0 (bf !! Z.to_nat x)).
  Proof.
    intros Hx Hl. destruct (lookup_lt_is_Some_2 bf (Z.to_nat x) ltac:(lia)) as [v Hv]. by rewrite Hv.
  Qed.

  Lemma cbf_min_spec n : forall i (bf : list Z) k mn, length bf = Z.to_nat num ->
    exists m, cbf_min h1 h2 n i num bf k mn = Ok m /\ m <= mn /\
      (forall j, i <= j < i + Z.of_nat n -> m <= default 0 (bf !! Z.to_nat (pos h1 h2 num k j))) /\
      (m = mn \/ exists j, i <= j < i + Z.of_nat n /\ m = default 0 (bf !! Z.to_nat (pos h1 h2 num k j))).
  Proof.
    induction n as [|n IH]; intros i bf k mn Hl; cbn [cbf_min].
    - exists mn. split_and!; [done|lia|intros; lia|by left].
    - rewrite (ctr_lookup bf _ (cpos_bound k i) Hl).
      set (v := default 0 (bf !! Z.to_nat (pos h1 h2 num k i))).
      destruct (IH (i + 1) bf k (if decide (v < mn) then v else mn) Hl) as (m & -> & Hm & Hall & Hex).
      exists m. split; [done|].
      assert (m <= mn /\ m <= v) as [H1 H2] by (destruct (decide (v < mn)); lia).
      split_and!; [done| |].
      + intros j Hj. destruct (decide (j = i)) as [->|]; [done|]. apply Hall. lia.
      + destruct Hex as [->|(j & Hj & ->)].
        * destruct (decide (v < mn)); [|by left]. right. exists i. split; [lia|done].
        * right. exists j. split; [lia|done].
  Qed.

  (** [n] increments from the [i]-th position of [k] on. *)
  Definition hits_from (n : nat) (i : Z) (k : K) (x : Z) : Z :=
    Z.of_nat (length (filter (fun j => pos h1 h2 num k (i + Z.of_nat j) = x) (seq 0 n))).

  Lemma hits_from_S n i k x :
    hits_from (S n) i k x = (if decide (pos h1 h2 num k i = x) then 1 else 0) + hits_from n (i + 1) k x.
  Proof.
    unfold hits_from. cbn [seq]. rewrite filter_cons. rewrite <- seq_shift.
    assert (forall l, length (filter (fun j => pos h1 h2 num k (i + Z.of_nat j) = x) (map S l)) =
                      length (filter (fun j => pos h1 h2 num k (i + 1 + Z.of_nat j) = x) l)) as E.
    { induction l as [|a l IHl]; [done|]. cbn [map]. rewrite !filter_cons.
      replace (i + Z.of_nat (S a)) with (i + 1 + Z.of_nat a) by lia.
      destruct (decide _); cbn [length]; by rewrite IHl. }
    change (Z.of_nat 0) with 0. rewrite Z.add_0_r.
    destruct (decide _); cbn [length]; rewrite E; lia.
  Qed.

  Lemma hits_from_bound n i k x : 0 <= hits_from n i k x <= Z.of_nat n.
  Proof.
    revert i. induction n as [|n IH]; intros i; [unfold hits_from; cbn; lia|].
    rewrite hits_from_S. specialize (IH (i + 1)). destruct (decide _); lia.
  Qed.

  Lemma cbf_incr_spec n : forall i (bf : list Z) k bd, length bf = Z.to_nat num ->
    (forall x, 0 <= x < num -> 0 <= default 0 (bf !! Z.to_nat x) <= bd) -> bd + Z.of_nat n < 2 ^ 32 ->
    exists bf', cbf_incr h1 h2 n i num bf k = Ok bf' /\ length bf' = length bf /\
      forall x, 0 <= x < num ->
        default 0 (bf' !! Z.to_nat x) = default 0 (bf !! Z.to_nat x) + hits_from n i k x.
  Proof.
    induction n as [|n IH]; intros i bf k bd Hl Hb Hbd; cbn [cbf_incr].
    - exists bf. split_and!; try done. intros x _. unfold hits_from. cbn. lia.
    - rewrite (ctr_lookup bf _ (cpos_bound k i) Hl). pose proof (cpos_bound k i) as Hp.
      set (p := pos h1 h2 num k i) in *.
      assert (Hin : forall x, 0 <= x < num ->
        default 0 (<[Z.to_nat p := u32 (default 0 (bf !! Z.to_nat p) + 1)]> bf !! Z.to_nat x) =
        default 0 (bf !! Z.to_nat x) + (if decide (p = x) then 1 else 0)).
      { intros x Hx. destruct (decide (p = x)) as [<-|Hne].
        - rewrite list_lookup_insert by lia. cbn [default]. unfold u32. rewrite Z.mod_small; [done|].
          specialize (Hb p Hp). cbn. lia.
        - rewrite list_lookup_insert_ne by lia. lia. }
      destruct (IH (i + 1) (<[Z.to_nat p := u32 (default 0 (bf !! Z.to_nat p) + 1)]> bf) k (bd + 1))
        as (bf' & -> & Hl' & Hv).
      + by rewrite insert_length.
      + intros x Hx. rewrite Hin by done. specialize (Hb x Hx). destruct (decide _); lia.
      + lia.
      + exists bf'. split; [done|]. split; [by rewrite Hl', insert_length|].
        intros x Hx. rewrite Hv, Hin, hits_from_S by done. fold p. lia.
  Qed.

  (** [m] is the smallest of the loads of the positions of [k]. *)
  Definition least (f : Z -> Z) (k : K) (m : Z) : Prop :=
    (forall i, 0 <= i < hashes -> m <= f (pos h1 h2 num k i)) /\
    exists i, 0 <= i < hashes /\ m = f (pos h1 h2 num k i).

  Lemma i32_small x : 0 <= x < 2 ^ 31 -> i32 x = x.
  Proof. intros Hx. unfold i32. rewrite Z.mod_small; lia. Qed.

  Lemma cbf_min_least c bd k : cb_ok c bd -> bd < 2 ^ 31 ->
    exists m, cbf_min h1 h2 (Z.to_nat (cb_hashes c)) 0 (cb_num c) (cb_bf c) k uint_max = Ok m /\
      least (ctr c) k m /\ 0 <= m <= bd.
  Proof.
    intros (Eh & En & _ & Hl & Hb) Hbd. rewrite Eh, En.
    destruct (cbf_min_spec (Z.to_nat hashes) 0 (cb_bf c) k uint_max Hl) as (m & -> & _ & Hall & Hex).
    exists m. split; [done|].
    replace (0 + Z.of_nat (Z.to_nat hashes)) with hashes in * by lia.
    assert (Hle : m <= bd). { specialize (Hall 0 ltac:(lia)). pose proof (Hb _ (cpos_bound k 0)). unfold ctr in *. lia. }
    destruct Hex as [->|(j & Hj & He)]; [unfold uint_max in Hle; lia|].
    split; [split; [done|by exists j]|]. split; [|done]. rewrite He. apply (Hb _ (cpos_bound k j)).
  Qed.

  Lemma cbf_estimate_ok c bd k : cb_ok c bd -> bd < 2 ^ 31 ->
    exists m, cbf_estimate h1 h2 c k = Ok (c, m) /\ least (ctr c) k m /\ 0 <= m.
  Proof.
    intros HC Hbd. destruct (cbf_min_least c bd k HC Hbd) as (m & Hm & Hl & Hr).
    pose proof HC as (Eh & En & Er & Hln & Hb). unfold cbf_estimate, cbf_check_add. rewrite Er.
    rewrite decide_False by lia. rewrite Hm. cbn [rbind].
    rewrite decide_False by (intros [? _]; done).
    exists m. rewrite i32_small by lia. split_and!; [done|done|lia].
  Qed.

  Lemma cbf_add_ok c bd k : cb_ok c bd -> bd + hashes < 2 ^ 31 ->
    exists c' m, cbf_add h1 h2 c k = Ok (c', m + 1) /\ least (ctr c) k m /\ cb_ok c' (bd + hashes) /\
      forall x, 0 <= x < num -> ctr c' x = ctr c x + hits_at k x.
  Proof.
    intros HC Hbd. destruct (cbf_min_least c bd k HC ltac:(lia)) as (m & Hm & Hl & Hr).
    pose proof HC as (Eh & En & Er & Hln & Hb). unfold cbf_add, cbf_check_add. rewrite Er.
    rewrite decide_False by lia. rewrite Hm. cbn [rbind].
    rewrite decide_True by (split; [done|unfold uint_max; lia]).
    rewrite Eh, En. destruct (cbf_incr_spec (Z.to_nat hashes) 0 (cb_bf c) k bd Hln Hb ltac:(lia)) as (bf' & -> & Hl' & Hv).
    cbn [rbind]. eexists _, m. rewrite i32_small by lia. split; [done|]. split; [done|].
    assert (HV : forall x, 0 <= x < num -> ctr (mkCbf hashes num bf' true) x = ctr c x + hits_at k x).
    { intros x Hx. unfold ctr. cbn [cb_bf]. rewrite Hv by done. done. }
    split; [|done]. unfold cb_ok. cbn [cb_hashes cb_num cb_bf cb_ready]. split_and!; try done; [by rewrite Hl'|]. intros x Hx;
      specialize (HV x Hx); specialize (Hb x Hx); pose proof (hits_from_bound (Z.to_nat hashes) 0 k x) as Hf;
      change (hits_from (Z.to_nat hashes) 0 k x) with (hits_at k x) in Hf; unfold ctr in *; cbn [cb_bf] in *; lia.
  Qed.

  Lemma cbf_decay_ok c bd : cb_ok c bd ->
    cb_ok (cbf_decay c).1 bd /\ forall x, 0 <= x < num -> ctr (cbf_decay c).1 x = ctr c x / 2.
  Proof.
    intros (Eh & En & Er & Hln & Hb). unfold cbf_decay. rewrite Er. cbn [fst].
    assert (HV : forall x, 0 <= x < num ->
      ctr (mkCbf (cb_hashes c) (cb_num c) ((fun v => Z.shiftr v 1) <$> cb_bf c) true) x = ctr c x / 2).
    { intros x Hx. unfold ctr. cbn [cb_bf]. rewrite list_lookup_fmap, (ctr_lookup _ _ Hx Hln). cbn.
      rewrite Z.shiftr_div_pow2 by lia. done. }
    split; [|done]. unfold cb_ok. cbn [cb_hashes cb_num cb_bf cb_ready]. split_and!; try done; [by rewrite fmap_length|]. intros x Hx;
      specialize (HV x Hx); specialize (Hb x Hx); unfold ctr in *; cbn [cb_bf] in *; rewrite HV. split.
    - apply Z.div_pos; lia.
    - apply Z.div_le_upper_bound; lia.
  Qed.

  Lemma cbf_run_ok fs : forall c bd, cb_ok c bd -> bd + hashes * Z.of_nat (length fs) < 2 ^ 31 ->
    exists c' os, cbf_run h1 h2 c fs = Ok (c', os) /\ cb_ok c' (bd + hashes * Z.of_nat (length fs)) /\
      forall x, 0 <= x < num -> ctr c' x = load (ctr c x) fs x.
  Proof.
    induction fs as [|f fs IH]; intros c bd HC Hbd; cbn [cbf_run].
    - exists c, []. split_and!; try done. by rewrite Z.mul_0_r, Z.add_0_r.
    - cbn [length] in *.
      assert (forall c1, cb_ok c1 bd -> cb_ok c1 (bd + hashes)) as Hw.
      { intros c1 (? & ? & ? & ? & Hb). split_and!; try done. intros x Hx. pose proof (Hb x Hx). lia. }
      assert (exists c1 o, cbf_step h1 h2 c f = Ok (c1, o) /\ cb_ok c1 (bd + hashes) /\
        forall x, 0 <= x < num -> load (ctr c1 x) fs x = load (ctr c x) (f :: fs) x) as (c1 & o & -> & HC1 & HL).
      { destruct f as [k|k|]; cbn [cbf_step load].
        - destruct (cbf_add_ok c bd k HC ltac:(nia)) as (c1 & m & -> & _ & HC1 & HV). eexists _, _. split; [done|]. split; [done|].
          intros x Hx. by rewrite HV.
        - destruct (cbf_estimate_ok c bd k HC ltac:(nia)) as (m & -> & _). exists c, m. split_and!; try done. by apply Hw.
        - destruct (cbf_decay_ok c bd HC) as [HC1 HV]. destruct (cbf_decay c) as [c1 o]. cbn [fst] in *.
          exists c1, o. split_and!; try done; [by apply Hw|]. intros x Hx. by rewrite HV. }
      cbn [rbind]. destruct (IH c1 (bd + hashes) HC1 ltac:(lia)) as (c' & os & -> & HC' & HV). cbn [rbind].
      exists c', (o :: os). split; [done|]. split.
      + replace (bd + hashes * Z.of_nat (S (length fs))) with (bd + hashes + hashes * Z.of_nat (length fs)) by lia. done.
      + intros x Hx. rewrite HV by done. by apply HL.
  Qed.

  Lemma cbf_init_ok : cb_ok (cbf_init hashes num) 0 /\ forall x, ctr (cbf_init hashes num) x = 0.
  Proof.
    unfold cbf_init. rewrite decide_False by lia.
    assert (forall x, ctr (mkCbf hashes num (replicate (Z.to_nat num) 0) true) x = 0) as H0.
    { intros x. unfold ctr. cbn [cb_bf]. destruct (replicate _ _ !! _) eqn:E; [|done].
      by apply lookup_replicate in E as [-> _]. }
    split; [|done]. unfold cb_ok. cbn [cb_hashes cb_num cb_bf cb_ready]. rewrite replicate_length. split_and!; try done. intros x _. rewrite H0; lia.
  Qed.

  Lemma load_ge_aged fs k i : 0 <= i < hashes -> forall n m, n <= m -> 
    aged n fs k <= load m fs (pos h1 h2 num k i).
  Proof.
    intros Hi. induction fs as [|f fs IH]; intros n m Hn; cbn [aged load]; [done|]. destruct f as [k'|k'|].
    - apply IH. change (hits_at k' (pos h1 h2 num k i)) with (hits_from (Z.to_nat hashes) 0 k' (pos h1 h2 num k i)).
      destruct (decide (k' = k)) as [->|Hne].
      + cut (1 <= hits_from (Z.to_nat hashes) 0 k (pos h1 h2 num k i)); [lia|].
        unfold hits_from. set (l := filter _ _).
        assert (Hl : Z.to_nat i ∈ l).
        { apply elem_of_list_filter. split; [by replace (0 + Z.of_nat (Z.to_nat i)) with i by lia|]. apply elem_of_seq. lia. }
        destruct l; [by apply elem_of_nil in Hl|]. cbn [length]. lia.
      + pose proof (hits_from_bound (Z.to_nat hashes) 0 k' (pos h1 h2 num k i)). lia.
    - by apply IH.
    - apply IH. apply Z.div_le_mono; lia.
  Qed.

  (** C33: for every sequence of adds, estimates and decays (too short for the
      32-bit counters to overflow), the estimate of a key is exactly the
      smallest load of its positions, and never below the number of times the
      key was added, halved at every decay. *)
  Theorem C33_cbf_estimate : forall fs, hashes * Z.of_nat (length fs) < 2 ^ 31 ->
    exists c os, cbf_run h1 h2 (cbf_init hashes num) fs = Ok (c, os) /\
      forall k, exists m, cbf_estimate h1 h2 c k = Ok (c, m) /\
        least (fun x => load 0 fs x) k m /\ aged 0 fs k <= m.
  Proof.
    intros fs Hfs. destruct cbf_init_ok as [HC H0].
    destruct (cbf_run_ok fs _ 0 HC ltac:(lia)) as (c & os & Hrun & HC' & HV).
    exists c, os. split; [done|]. intros k.
    destruct (cbf_estimate_ok c _ k HC' ltac:(lia)) as (m & Hm & [Hle (i & Hi & Heq)] & _). exists m. split; [done|].
    assert (Hf : forall j, ctr c (pos h1 h2 num k j) = load 0 fs (pos h1 h2 num k j)).
    { intros j. rewrite HV by apply cpos_bound. by rewrite H0. }
    split.
    - split; [intros j Hj; rewrite <- Hf; by apply Hle|]. exists i. split; [done|]. by rewrite <- Hf.
    - rewrite Heq, Hf. apply load_ge_aged; lia.
  Qed.

  (** Without decays the aged count is the plain count. *)
  Theorem C33_cbf_no_underestimate : forall ks, hashes * Z.of_nat (length ks) < 2 ^ 31 ->
    exists c os, cbf_run h1 h2 (cbf_init hashes num) (FAdd <$> ks) = Ok (c, os) /\
      forall k, exists m, cbf_estimate h1 h2 c k = Ok (c, m) /\
        Z.of_nat (length (filter (fun k' => k' = k) ks)) <= m.
  Proof.
    intros ks Hks. destruct (C33_cbf_estimate (FAdd <$> ks)) as (c & os & Hrun & H); [by rewrite fmap_length|].
    exists c, os. split; [done|]. intros k. destruct (H k) as (m & Hm & _ & Ha). exists m. split; [done|].
    assert (forall n, aged n (FAdd <$> ks) k = n + Z.of_nat (length (filter (fun k' => k' = k) ks))) as E.
    { clear. induction ks as [|a ks IH]; intros n; cbn [fmap list_fmap aged]; [cbn; lia|].
      rewrite IH, filter_cons. destruct (decide (a = k)); cbn [length]; lia. }
    rewrite E in Ha. lia.
  Qed.
End CBF.

(** Keys 1 (positions 1, 2) and 2 (positions 2, 4 and a half-empty table). *)
Example C33_cbf_ex :
  (let! (c, os) := cbf_run (fun k : Z => k) (fun k : Z => k) (cbf_init 2 8)
     [FAdd 1; FAdd 1; FAdd 2; FEst 1; FEst 2; FEst 3; FDecay; FEst 1; FEst 2] in Ok (cb_bf c, os))
  = Ok ([0; 1; 1; 0; 0; 0; 0; 0], [1; 2; 1; 2; 1; 0; 0; 1; 0]).
Proof. vm_compute. reflexivity. Qed.

(** Refuted: "only minimal counters are incremented".  Adding key 2 increments
    counter 2, which is not minimal for it; a key that lives on counter 2 alone
    (here key 10, positions 2 and 2 in a table of 8) is then overestimated. *)
Theorem C33_minimal_increment_refuted :
  exists (h1 h2 : Z -> Z) (k : Z) (c c' : cbf) (o : Z) (x : nat) (m v : Z),
    cbf_run h1 h2 (cbf_init 2 8) [FAdd 1] = Ok (c, [1]) /\
    cbf_estimate h1 h2 c k = Ok (c, m) /\
    cbf_add h1 h2 c k = Ok (c', o) /\
    cb_bf c !! x = Some v /\ m < v /\ cb_bf c' !! x = Some (v + 1).
Proof.
  exists (fun k => k), (fun k => k), 2, (mkCbf 2 8 [0;1;1;0;0;0;0;0] true), (mkCbf 2 8 [0;1;2;0;1;0;0;0] true), 1, 2%nat, 0, 1.
  split_and!; vm_compute; reflexivity.
Qed.

(** * Admission policies *)
(** The answers of a policy to a sequence of questions. *)
Fixpoint admit_all (a : admissioner) (rs : list req) : admissioner * list bool :=
  match rs with
  | [] => (a, [])
  | r :: rs => let '(a, b) := admit a r in let '(a, bs) := admit_all a rs in (a, b :: bs)
  end.

Definition asked (id : Z) (rs : list req) : nat := length (filter (fun r => r_id r = id) rs).

Lemma i32_range x : - 2 ^ 31 <= x < 2 ^ 31 -> i32 x = x.
Proof. intros Hx. unfold i32. rewrite Z.mod_small; lia. Qed.

Definition seen_ok (seen : gmap Z Z) (f : Z -> nat) : Prop := forall id, default 0 (seen !! id) = Z.of_nat (f id).

Lemma admit_bloom_seen seen f r : seen_ok seen f -> Z.of_nat (f (r_id r)) < 2 ^ 31 - 1 ->
  exists seen', admit (AdmBloom seen) r = (AdmBloom seen', bool_decide (f (r_id r) <> 0%nat)) /\
    seen_ok seen' (fun id => if decide (r_id r = id) then S (f id) else f id).
Proof.
  intros Hs Hf. unfold admit. rewrite (Hs (r_id r)).
  assert (forall v, v = Z.of_nat (S (f (r_id r))) ->
    seen_ok (<[r_id r := v]> seen) (fun id => if decide (r_id r = id) then S (f id) else f id)) as HX.
  { intros v -> id. destruct (decide (r_id r = id)) as [<-|Hne].
    - by rewrite lookup_insert.
    - rewrite lookup_insert_ne by done. apply Hs. }
  destruct (decide _) as [Hd|Hd].
  - eexists. rewrite bool_decide_eq_false_2 by lia. split; [done|]. apply HX. lia.
  - eexists. rewrite bool_decide_eq_true_2 by lia. split; [done|]. apply HX. rewrite i32_range; lia.
Qed.

Lemma admit_all_app a rs1 rs2 :
  admit_all a (rs1 ++ rs2) =
  (let '(a1, b1) := admit_all a rs1 in let '(a2, b2) := admit_all a1 rs2 in (a2, b1 ++ b2)).
Proof.
  revert a. induction rs1 as [|r rs IH]; intros a; cbn [admit_all app].
  - destruct (admit_all a rs2). done.
  - destruct (admit a r) as [a1 b]. rewrite IH. destruct (admit_all a1 rs) as [a2 bs]. destruct (admit_all a2 rs2). done.
Qed.

Lemma admit_bloom_all rs : forall seen f, seen_ok seen f ->
  (forall id, Z.of_nat (f id) + Z.of_nat (length rs) < 2 ^ 31) ->
  exists seen' bs, admit_all (AdmBloom seen) rs = (AdmBloom seen', bs) /\
    seen_ok seen' (fun id => (f id + asked id rs)%nat).
Proof.
  induction rs as [|r rs IH]; intros seen f Hs Hf; cbn [admit_all].
  - exists seen, []. split; [done|]. intros id. rewrite Hs. cbn. lia.
  - cbn [length] in Hf. destruct (admit_bloom_seen seen f r Hs) as (seen1 & -> & Hs1).
    { specialize (Hf (r_id r)). lia. }
    destruct (IH seen1 _ Hs1) as (seen' & bs & -> & Hs').
    { intros id. specialize (Hf id). destruct (decide _); lia. }
    eexists seen', _. split; [done|]. intros id. rewrite Hs'. unfold asked. rewrite filter_cons.
    destruct (decide (r_id r = id)); cbn [length]; lia.
Qed.

(** C32, second-hit admission: the policy admits a request exactly when it was
    asked about the same object before. *)
Theorem C32_second_hit : forall rs r, Z.of_nat (length rs) < 2 ^ 31 - 1 ->
  exists a bs b, admit_all (AdmBloom ∅) (rs ++ [r]) = (a, bs ++ [b]) /\
    (b = true <-> exists r', r' ∈ rs /\ r_id r' = r_id r).
Proof.
  intros rs r Hl. destruct (admit_bloom_all rs ∅ (fun _ => 0%nat)) as (seen & bs & Ha & Hs).
  - intros id. by rewrite lookup_empty.
  - intros id. lia.
  - destruct (admit_bloom_seen seen _ r Hs) as (seen' & Hb & _).
    { unfold asked. pose proof (filter_length (fun r0 => r_id r0 = r_id r) rs). lia. }
    eexists _, bs, _. rewrite admit_all_app, Ha. cbn [admit_all]. rewrite Hb. split; [done|].
    rewrite bool_decide_eq_true. cbn [plus]. unfold asked. split.
    + intros Hne. destruct (filter (fun r0 => r_id r0 = r_id r) rs) as [|r' l] eqn:E; [done|].
      exists r'. assert (r' ∈ filter (fun r0 => r_id r0 = r_id r) rs) as H by (rewrite E; left).
      apply elem_of_list_filter in H as [? ?]. done.
    + intros (r' & Hin & He) H0. apply length_zero_iff_nil in H0.
      assert (r' ∈ filter (fun r0 => r_id r0 = r_id r) rs) as H by (by apply elem_of_list_filter).
      rewrite H0 in H. by apply elem_of_nil in H.
Qed.

(** The other policies: the size policy admits by size alone; the
    probabilistic policy ignores the request and, with probability 1, admits
    everything. *)
Theorem C32_size_policy : forall t rs r,
  exists bs, admit_all (AdmSize t) (rs ++ [r]) = (AdmSize t, bs ++ [bool_decide (r_size r < t)]).
Proof.
  intros t rs r. assert (exists bs, admit_all (AdmSize t) rs = (AdmSize t, bs)) as [bs Hb].
  { induction rs as [|r' rs [bs IH]]; [by exists []|]. cbn [admit_all admit]. rewrite IH. by eexists. }
  exists bs. by rewrite admit_all_app, Hb.
Qed.

Theorem C32_prob_policy : forall seed p rs rs', length rs = length rs' ->
  admit_all (AdmProb seed p) rs = admit_all (AdmProb seed p) rs' /\
  (p = 10000000 -> Forall (fun b => b = true) (admit_all (AdmProb seed p) rs).2).
Proof.
  intros seed p rs. revert seed. induction rs as [|r rs IH]; intros seed [|r' rs'] Hl; try done.
  { split; [done|]. intros _. constructor. }
  cbn [length] in Hl. cbn [admit_all admit].
  destruct (IH (next_rand seed) rs' ltac:(lia)) as [-> HT]. split; [done|].
  intros ->. specialize (HT eq_refl). destruct (admit_all (AdmProb (next_rand seed) 10000000) rs') as [a bs] eqn:E.
  cbn [snd] in *.
  constructor; [|done]. apply bool_decide_eq_true_2. apply Z.mod_pos_bound. lia.
Qed.

(** ** The second-hit policy in front of a cache *)
(** A get for [id] is one of the calls. *)
Definition got (id : Z) (cs : list call) : Prop := exists r, CGet r ∈ cs /\ r_id r = id.

(** After any program without direct inserts, a get leaves the object in the
    cache when the program had asked for it before (and it fits), and out of
    the cache when it had not. *)
Definition spec_second_hit {S} (O : ops S) (s0 : S) (cap md : Z) (P : req -> Prop) : Prop :=
  forall cs r fuel, Forall (call_ok P) (cs ++ [CGet r]) -> (forall r', CInsert r' ∉ cs) ->
    Z.of_nat (length cs) < 2 ^ 31 - 1 -> (length cs < fuel)%nat ->
    exists s os, run O fuel s0 (cs ++ [CGet r]) = Ok (s, os) /\
      (got (r_id r) cs -> r_size r + md <= cap -> resident O s (r_id r)) /\
      (~ got (r_id r) cs -> absent O s (r_id r)).

Definition bloom_inv (cs : list call) (a : abs) : Prop :=
  exists seen f, a_adm a = AdmBloom seen /\ seen_ok seen f /\
    (forall id, f id <> 0%nat <-> got id cs) /\ (forall id, (f id <= length cs)%nat) /\
    (forall id, is_Some (a_m a !! id) -> got id cs).

Lemma got_app id cs c : got id (cs ++ [c]) <-> got id cs \/ (exists r, c = CGet r /\ r_id r = id).
Proof.
  unfold got. split.
  - intros (r & [Hin|Hin]%elem_of_app & Hid); [left; by exists r|right].
    apply elem_of_list_singleton in Hin. by exists r.
  - intros [(r & Hin & Hid)|(r & -> & Hid)]; exists r; (split; [apply elem_of_app|done]); [by left|right].
    by apply elem_of_list_singleton.
Qed.

Lemma got_len_app (f : Z -> nat) cs (c : call) : (forall id, (f id <= length cs)%nat) -> forall id, (f id <= length (cs ++ [c]))%nat.
Proof. intros H id. specialize (H id). rewrite app_length. lia. Qed.

Lemma evict_to_sub pol cap md n m m' : evict_to pol cap md n m m' -> m' ⊆ m.
Proof.
  induction 1 as [m Hfit|m v m' Hno [e He] Hpol Hev IH]; [done|].
  etrans; [exact IH|]. apply delete_subseteq.
Qed.

Lemma bloom_inv_step pol cap md cs a c o a' : bloom_inv cs a -> abs_step pol cap md a c o a' ->
  (forall r, c <> CInsert r) -> Z.of_nat (length cs) < 2 ^ 31 - 1 -> bloom_inv (cs ++ [c]) a'.
Proof.
  intros (seen & f & Ha & Hs & Hf & Hlen & Hm) Hst Hni Hl.
  assert (HF : forall id (f' : Z -> nat), (forall i, f' i = f i) -> (forall r, c <> CGet r) -> f' id <> 0%nat <-> got id (cs ++ [c])).
  { intros id f' E Hc. rewrite E, got_app, Hf. split; [by left|]. intros [?|(r & -> & _)]; [done|]. by destruct (Hc r). }
  assert (HM : forall id, got id cs -> got id (cs ++ [c])) by (intros id ?; apply got_app; by left).
  assert (HG : forall r, c = CGet r -> got (r_id r) (cs ++ [c])) by (intros r ->; apply got_app; right; by exists r).
  assert (HN : forall r, c = CGet r ->
    exists seen', (admit (AdmBloom seen) r).1 = AdmBloom seen' /\
      seen_ok seen' (fun id => if decide (r_id r = id) then S (f id) else f id)).
  { intros r ->. destruct (admit_bloom_seen seen f r Hs) as (seen' & -> & Hs'); [specialize (Hlen (r_id r)); lia|].
    by exists seen'. }
  assert (HF2 : forall r, c = CGet r -> forall id,
    (if decide (r_id r = id) then S (f id) else f id) <> 0%nat <-> got id (cs ++ [c])).
  { intros r -> id. rewrite got_app. destruct (decide (r_id r = id)) as [He|Hne].
    - split; [intros _; right; by exists r|lia].
    - rewrite Hf. split; [by left|]. intros [?|(r' & Hr & Hid)]; [done|]. injection Hr as <-. done. }
  assert (HL2 : forall r, c = CGet r -> forall id, ((if decide (r_id r = id) then S (f id) else f id) <= length (cs ++ [c]))%nat).
  { intros r -> id. rewrite app_length. cbn [length]. specialize (Hlen id). destruct (decide _); lia. }
  destruct Hst as [t m a0 r e He|t m a0 r a1 Hn Had|t m a0 r a1 Hn Had Hbig|t m a0 r a1 m1 Hn Had Hfit Hev
    |t m a0 r|t m a0 r e He|t m a0 r Hn|t m a0 r Hn Hfit|t m a0 r Hn|t m a0 id|t m a0 r v Hv Hp|t a0 r|t m a0 r v Hv Hp|t a0 r];
    cbn [a_adm a_m] in *; subst a0; try (exfalso; by apply (Hni r)).
  - (* hit: the object is already counted *)
    exists seen, f. split_and!; try done.
    + intros id. rewrite got_app, Hf. split; [by left|]. intros [?|(r' & Hr & Hid)]; [done|].
      injection Hr as <-. subst id. apply Hm. by exists e.
    + by apply got_len_app.
    + cbn [a_m]. intros id. destruct (decide (id = r_id r)) as [->|Hne]; [intros _; by apply HG|].
      rewrite lookup_insert_ne by congruence. intros ?. by apply HM, Hm.
  - destruct (HN r eq_refl) as (seen' & Ea & Hs'). rewrite Had in Ea. cbn [fst] in Ea. subst a1.
    exists seen', (fun id => if decide (r_id r = id) then S (f id) else f id). split_and!; try done; [by apply HF2|by apply HL2|].
    intros id ?. by apply HM, Hm.
  - destruct (HN r eq_refl) as (seen' & Ea & Hs'). rewrite Had in Ea. cbn [fst] in Ea. subst a1.
    exists seen', (fun id => if decide (r_id r = id) then S (f id) else f id). split_and!; try done; [by apply HF2|by apply HL2|].
    intros id ?. by apply HM, Hm.
  - destruct (HN r eq_refl) as (seen' & Ea & Hs'). rewrite Had in Ea. cbn [fst] in Ea. subst a1.
    exists seen', (fun id => if decide (r_id r = id) then S (f id) else f id). split_and!; try done; [by apply HF2|by apply HL2|].
    cbn [a_m]. intros id. destruct (decide (id = r_id r)) as [->|Hne]; [intros _; by apply HG|].
    rewrite lookup_insert_ne by congruence. intros [e He]. apply HM, Hm. exists e.
    eapply lookup_weaken; [exact He|by eapply evict_to_sub].
  - exists seen, f. split_and!; try done; [intros id; by apply HF|by apply got_len_app|].
    intros id ?. by apply HM, Hm.
  - exists seen, f. split_and!; try done; [intros id; by apply HF|by apply got_len_app|].
    cbn [a_m]. intros id. destruct (decide (id = r_id r)) as [->|Hne]; [intros _; apply HM, Hm; by exists e|].
    rewrite lookup_insert_ne by congruence. intros ?. by apply HM, Hm.
  - exists seen, f. split_and!; try done; [intros id; by apply HF|by apply got_len_app|].
    intros id ?. by apply HM, Hm.
  - exists seen, f. split_and!; try done; [intros id0; by apply HF|by apply got_len_app|].
    cbn [a_m]. intros j [e He]. apply lookup_delete_Some in He as [_ He]. apply HM, Hm. by exists e.
  - exists seen, f. split_and!; try done; [intros id0; by apply HF|by apply got_len_app|].
    cbn [a_m]. intros j [e He]. apply lookup_delete_Some in He as [_ He]. apply HM, Hm. by exists e.
  - exists seen, f. split_and!; try done; [intros id0; by apply HF|by apply got_len_app|].
    intros id ?. by apply HM, Hm.
  - exists seen, f. split_and!; try done; [intros id0; by apply HF|by apply got_len_app|].
    intros id ?. by apply HM, Hm.
  - exists seen, f. split_and!; try done; [intros id0; by apply HF|by apply got_len_app|].
    intros id ?. by apply HM, Hm.
Qed.

Lemma bloom_inv_run pol cap md cs : forall cs0 a os a', bloom_inv cs0 a -> abs_run pol cap md a cs os a' ->
  (forall r, CInsert r ∉ cs) -> Z.of_nat (length cs0 + length cs) < 2 ^ 31 -> bloom_inv (cs0 ++ cs) a'.
Proof.
  induction cs as [|c cs IH]; intros cs0 a os a' HI Hrun Hni Hl.
  - inversion Hrun; subst. by rewrite app_nil_r.
  - inversion Hrun as [|? ? o a1 ? os1 ? Hst Hr]; subst. cbn [length] in Hl.
    replace (cs0 ++ c :: cs) with ((cs0 ++ [c]) ++ cs) by (by rewrite <- app_assoc).
    eapply IH; [|exact Hr| |rewrite app_length; cbn; lia].
    + eapply bloom_inv_step; [exact HI|exact Hst| |lia]. intros r ->. apply (Hni r). left.
    + intros r Hin. apply (Hni r). by right.
Qed.

Lemma accounting_second_hit {S} (O : ops S) s0 cap md P pol :
  spec_accounting O s0 cap md (AdmBloom ∅) P pol -> spec_second_hit O s0 cap md P.
Proof.
  intros HA cs r fuel Hok Hni Hl Hfu.
  destruct (HA (cs ++ [CGet r]) fuel Hok) as (s & os & a & Hrun & Habs & _ & _ & HR & HN); [rewrite app_length; cbn; lia|].
  exists s, os. split; [done|].
  assert (exists a1 os1 o, abs_run pol cap md (abs_init (AdmBloom ∅)) cs os1 a1 /\ abs_step pol cap md a1 (CGet r) o a)
    as (a1 & os1 & o & Hrun1 & Hst).
  { clear -Habs. revert Habs. generalize (abs_init (AdmBloom ∅)). revert os.
    induction cs as [|c cs IH]; intros os a0 H; cbn [app] in H.
    - inversion H as [|? ? o a1 ? os1 ? Hst Hr]; subst. inversion Hr; subst. exists a0, [], o. split; [constructor|done].
    - inversion H as [|? ? o a1 ? os1 ? Hst Hr]; subst. destruct (IH _ _ Hr) as (a2 & os2 & o2 & H2 & Hs2).
      exists a2, (o :: os2), o2. split; [|done]. by econstructor. }
  assert (HI : bloom_inv [] (abs_init (AdmBloom ∅))).
  { exists ∅, (fun _ => 0%nat). cbn. split; [done|]. split; [intros id; by rewrite lookup_empty|]. split; [|split; [done|]].
    - intros id. split; [done|]. intros (r0 & Hin & _). by apply elem_of_nil in Hin.
    - intros id [e He]. by rewrite lookup_empty in He. }
  destruct (bloom_inv_run pol cap md cs [] _ _ _ HI Hrun1 Hni ltac:(cbn; lia)) as (seen & f & Ha & Hs & Hf & Hlen & Hm).
  cbn [app length] in *.
  assert (HB : forall a', admit (AdmBloom seen) r = (a', false) -> ~ got (r_id r) cs).
  { intros a' Had. destruct (admit_bloom_seen seen f r Hs) as (seen' & E & _); [specialize (Hlen (r_id r)); lia|].
    rewrite E in Had. injection Had as _ Hb. apply bool_decide_eq_false in Hb. rewrite <- Hf. done. }
  assert (HT : forall a', admit (AdmBloom seen) r = (a', true) -> got (r_id r) cs).
  { intros a' Had. destruct (admit_bloom_seen seen f r Hs) as (seen' & E & _); [specialize (Hlen (r_id r)); lia|].
    rewrite E in Had. injection Had as _ Hb. apply bool_decide_eq_true in Hb. by apply Hf. }
  inversion Hst as [t m a0 r' e He|t m a0 r' a2 Hn Had|t m a0 r' a2 Hn Had Hbig|t m a0 r' a2 m1 Hn Had Hfit Hev| | | | | | | | | |]; subst;
    cbn [a_adm a_m] in *; subst a0; split; intros Hg.
  - intros _. apply HR. rewrite lookup_insert. by eexists.
  - exfalso. apply Hg, Hm. by exists e.
  - exfalso. by apply (HB _ Had).
  - by apply HN.
  - intros Hfit. lia.
  - exfalso. apply Hg. by apply (HT _ Had).
  - intros _. apply HR. rewrite lookup_insert. by eexists.
  - exfalso. apply Hg. by apply (HT _ Had).
Qed.

Theorem C32_second_hit_cache cap : 0 <= cap ->
  (* FIFO *) spec_second_hit fifo_ops (fifo_init cap (AdmBloom ∅)) cap 0 (req_ok 0) /\
  (* LRU *) (forall (b : bool), spec_second_hit lru_ops (lru_init b cap (AdmBloom ∅)) cap (if b then 16 else 0) (req_ok (if b then 16 else 0))) /\
  (* Clock *) (forall (mf : Z), 0 <= mf -> spec_second_hit (clock_ops mf) (clock_init cap (AdmBloom ∅)) cap 0 (req_ok 0)) /\
  (* Sieve *) (forall (b : bool), spec_second_hit sieve_ops (sieve_init b cap (AdmBloom ∅)) cap (if b then 1 else 0) (req_ok (if b then 1 else 0))) /\
  (* LFU *) (forall (b : bool), spec_second_hit lfu_ops (lfu_init b cap (AdmBloom ∅)) cap (if b then 16 else 0) (req_ok (if b then 16 else 0))) /\
  (* Belady *) spec_second_hit belady_ops (heap_init cap (AdmBloom ∅)) cap 0 belady_req /\
  (* Size *) spec_second_hit size_ops (heap_init cap (AdmBloom ∅)) cap 0 (req_ok 0).
Proof.
  intros Hcap. destruct (C02_accounting cap (AdmBloom ∅) Hcap) as (H1 & H2 & H3 & H4 & H5).
  split_and!; intros; eapply accounting_second_hit; eauto.
  - apply (C19_belady_api cap (AdmBloom ∅) Hcap).
  - apply (C20_size_api cap (AdmBloom ∅) Hcap).
Qed.

Example C32_second_hit_ex :
  (let! (s, os) := run lru_ops 9 (lru_init false 3 (AdmBloom ∅))
     (CGet <$> [ex_req 1; ex_req 2; ex_req 1; ex_req 1; ex_req 3; ex_req 2]) in Ok (os, q_q s))
  = Ok ([OBool false; OBool false; OBool false; OBool true; OBool false; OBool false], [2; 1]).
Proof. vm_compute. reflexivity. Qed.
