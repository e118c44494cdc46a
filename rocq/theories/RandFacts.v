(** The generator next_rand (mymath.h:27-30) reduced modulo a power of two
    runs through all residues. *)
From stdpp Require Import gmap list numbers fin_maps.
From Verif Require Import Base ModelHash.
Open Scope Z_scope.

(** [n] calls of next_rand *)
Definition rand_n (n : nat) (seed : Z) : Z := Nat.iter n next_rand seed.

Lemma rand_n_S n x : rand_n (Datatypes.S n) x = next_rand (rand_n n x).
Proof. done. Qed.
Lemma rand_n_S' n x : rand_n (Datatypes.S n) x = rand_n n (next_rand x).
Proof. unfold rand_n. by rewrite <- Nat.iter_succ_r. Qed.
Lemma rand_n_add n k x : rand_n (n + k) x = rand_n k (rand_n n x).
Proof. unfold rand_n. rewrite Nat.add_comm. apply Nat.iter_add. Qed.

(** congruence modulo 2^k *)
Definition eqm (k x y : Z) : Prop := exists q, x - y = 2 ^ k * q.

Lemma eqm_refl k x : eqm k x x.
Proof. exists 0. lia. Qed.
Lemma eqm_trans k x y z : eqm k x y -> eqm k y z -> eqm k x z.
Proof. intros [p Hp] [q Hq]. exists (p + q). lia. Qed.
Lemma eqm_sym k x y : eqm k x y -> eqm k y x.
Proof. intros [p Hp]. exists (- p). lia. Qed.
Lemma eqm_weak k j x y : 0 <= k <= j -> eqm j x y -> eqm k x y.
Proof.
  intros Hk [p Hp]. exists (2 ^ (j - k) * p). rewrite Hp, Z.mul_assoc, <- Z.pow_add_r by lia.
  by replace (k + (j - k)) with j by lia.
Qed.
Lemma eqm_mod k x y : 0 <= k -> eqm k x y -> x mod 2 ^ k = y mod 2 ^ k.
Proof.
  intros Hk [p Hp]. replace x with (y + p * 2 ^ k) by lia. by apply Z_mod_plus_full.
Qed.

Lemma next_rand_eqm x : eqm 64 (next_rand x) (6364136223846793005 * x + 1442695040888963407).
Proof.
  unfold next_rand, u64. set (v := 6364136223846793005 * x + 1442695040888963407).
  exists (- (v / 2 ^ 64)). pose proof (Z_div_mod_eq_full v (2 ^ 64)). lia.
Qed.

(** 2^k steps are affine, with slope 1 (mod 2^(k+2)) and offset 2^k (mod 2^(k+1)) *)
Lemma rand_affine k : exists A C u w,
  A = 1 + 2 ^ (Z.of_nat k + 2) * u /\ C = 2 ^ Z.of_nat k * (1 + 2 * w) /\
  forall x, eqm 64 (rand_n (2 ^ k) x) (A * x + C).
Proof.
  induction k as [|k IH].
  - exists 6364136223846793005, 1442695040888963407, 1591034055961698251, 721347520444481703.
    split_and!; [done|done|]. intros x. apply next_rand_eqm.
  - destruct IH as (A & C & u & w & HA & HC & H).
    exists (A * A), (A * C + C), (u + 2 ^ (Z.of_nat k + 1) * u * u),
      (w + 2 ^ (Z.of_nat k) * u * (1 + 2 * w)).
    assert (E1 : 2 ^ (Z.of_nat k + 2) = 4 * 2 ^ Z.of_nat k) by (rewrite Z.pow_add_r; lia).
    assert (E2 : 2 ^ (Z.of_nat k + 1) = 2 * 2 ^ Z.of_nat k) by (rewrite Z.pow_add_r; lia).
    assert (E3 : 2 ^ (Z.of_nat (Datatypes.S k) + 2) = 8 * 2 ^ Z.of_nat k).
    { replace (Z.of_nat (Datatypes.S k) + 2) with (Z.of_nat k + 3) by lia. rewrite Z.pow_add_r; lia. }
    assert (E4 : 2 ^ Z.of_nat (Datatypes.S k) = 2 * 2 ^ Z.of_nat k).
    { replace (Z.of_nat (Datatypes.S k)) with (Z.of_nat k + 1) by lia. rewrite Z.pow_add_r; lia. }
    rewrite E1 in HA. rewrite E2, E3, E4. clear E1 E2 E3 E4.
    generalize dependent (2 ^ Z.of_nat k). intros P HA HC.
    split_and!; [subst; ring|subst; ring|].
    intros x. replace (2 ^ Datatypes.S k)%nat with (2 ^ k + 2 ^ k)%nat by (cbn; lia).
    rewrite rand_n_add. destruct (H (rand_n (2 ^ k) x)) as [p Hp]. destruct (H x) as [q Hq].
    exists (p + A * q). rewrite Z.mul_add_distr_l.
    rewrite <- Hp. replace (2 ^ 64 * (A * q)) with (A * (2 ^ 64 * q)) by ring. rewrite <- Hq. ring.
Qed.

Lemma rand_jump k x : (k <= 63)%nat -> eqm (Z.of_nat k + 1) (rand_n (2 ^ k) x) (x + 2 ^ Z.of_nat k).
Proof.
  intros Hk. destruct (rand_affine k) as (A & C & u & w & HA & HC & H).
  eapply eqm_trans; [eapply eqm_weak; [|apply H]; lia|].
  exists (2 * u * x + w). rewrite HA, HC.
  rewrite (Z.pow_add_r 2 (Z.of_nat k) 2), (Z.pow_add_r 2 (Z.of_nat k) 1) by lia. ring.
Qed.

(** every residue modulo 2^k comes up among 2^k consecutive values *)
Lemma rand_covers k x y : (k <= 64)%nat -> exists n, (1 <= n <= 2 ^ k)%nat /\ eqm (Z.of_nat k) (rand_n n x) y.
Proof.
  induction k as [|k IH]; intros Hk.
  - exists 1%nat. split; [cbn; lia|]. exists (rand_n 1 x - y). lia.
  - destruct IH as (n & Hn & [q Hq]); [lia|].
    assert (E4 : 2 ^ Z.of_nat (Datatypes.S k) = 2 * 2 ^ Z.of_nat k).
    { replace (Z.of_nat (Datatypes.S k)) with (Z.of_nat k + 1) by lia. rewrite Z.pow_add_r; lia. }
    destruct (Z.Even_or_Odd q) as [[h Hh]|[h Hh]].
    + exists n. split; [cbn; lia|]. exists h. rewrite Hq, E4, Hh. ring.
    + exists (n + 2 ^ k)%nat. split; [cbn; lia|]. rewrite rand_n_add.
      eapply eqm_trans.
      * replace (Z.of_nat (Datatypes.S k)) with (Z.of_nat k + 1) by lia. apply rand_jump. lia.
      * exists (h + 1). rewrite E4. rewrite Hh in Hq. lia.
Qed.

(** 2^k consecutive values: each residue exactly once *)
Lemma rand_perm k x : (k <= 64)%nat ->
  map (fun n => rand_n n x mod 2 ^ Z.of_nat k) (seq 1 (2 ^ k)) ≡ₚ seqZ 0 (2 ^ Z.of_nat k).
Proof.
  intros Hk. symmetry. apply submseteq_Permutation_length_le; cycle 1.
  - apply NoDup_submseteq; [apply NoDup_seqZ|]. intros y Hy%elem_of_seqZ.
    destruct (rand_covers k x y Hk) as (n & Hn & He). apply elem_of_list_fmap. exists n. split.
    + apply eqm_mod in He; [|lia]. rewrite He. symmetry. apply Z.mod_small. lia.
    + apply elem_of_seq. lia.
  - rewrite map_length, seq_length, seqZ_length.
    replace (2 ^ Z.of_nat k) with (Z.of_nat (2 ^ k)); [lia|].
    clear. induction k as [|k IH]; [done|].
    replace (Z.of_nat (Datatypes.S k)) with (Z.of_nat k + 1) by lia. rewrite Z.pow_add_r by lia.
    rewrite <- IH. cbn. lia.
Qed.

(** ** The loop of chained_hashtable_rand_obj_v2 *)
Lemma rand_obj_found t : forall n seed, (1 <= n)%nat ->
  is_Some (ht_tab t !! Z.land (rand_n n seed) (2 ^ ht_pow t - 1)) ->
  exists a k, ht_rand_obj n t seed = Ok (a, rand_n k seed) /\ (1 <= k <= n)%nat.
Proof.
  induction n as [|n IH]; intros seed Hn H; [lia|]. cbn [ht_rand_obj].
  destruct (ht_tab t !! Z.land (next_rand seed) (2 ^ ht_pow t - 1)) as [a|] eqn:E.
  - exists a, 1%nat. split; [done|lia].
  - destruct n as [|n]; [change (rand_n 1 seed) with (next_rand seed) in H; by rewrite E in H; destruct H|].
    rewrite rand_n_S' in H. destruct (IH (next_rand seed)) as (a & k & Hr & Hk); [lia|done|].
    exists a, (Datatypes.S k). rewrite rand_n_S'. split; [done|lia].
Qed.

Lemma rand_obj_more t : forall n n' seed x, (n <= n')%nat ->
  ht_rand_obj n t seed = Ok x -> ht_rand_obj n' t seed = Ok x.
Proof.
  induction n as [|n IH]; intros n' seed x Hle H; [done|]. destruct n' as [|n']; [lia|]. cbn [ht_rand_obj] in *.
  destruct (_ !! _); [done|]. apply IH; [lia|done].
Qed.
