(** md5.c computes the MD5 of RFC 1321, in whatever pieces the message comes. *)
From stdpp Require Import list numbers.
From Verif Require Import Base ModelMD5 SpecMD5.
Open Scope Z_scope.

Definition w32 (x : Z) : Prop := 0 <= x < 2 ^ 32.
Definition wregs (x : regs) : Prop := let '(a, b, c, d) := x in w32 a /\ w32 b /\ w32 c /\ w32 d.

(** ** One block *)
Lemma wnot_eq x : w32 x -> wnot x = w_not x.
Proof.
  intros Hx. unfold wnot, w_not, T_MASK. change 4294967295 with (Z.ones 32).
  apply Z.bits_inj'. intros n Hn. rewrite Z.lxor_spec.
  assert (E : 2 ^ 32 - 1 - x = Z.lnot x + 1 * 2 ^ 32) by (unfold Z.lnot; lia). rewrite E.
  destruct (decide (n < 32)) as [Hl|Hl].
  - rewrite Z.ones_spec_low by lia. rewrite <- (Z.mod_pow2_bits_low (Z.lnot x + 1 * 2 ^ 32) 32 n) by lia.
    rewrite Z.mod_add by lia. rewrite Z.mod_pow2_bits_low by lia. rewrite Z.lnot_spec by lia. by destruct (Z.testbit x n).
  - rewrite Z.ones_spec_high by lia. rewrite <- E.
    rewrite <- (Z.mod_small x (2 ^ 32)) by (unfold w32 in Hx; lia).
    rewrite Z.mod_pow2_bits_high by lia.
    rewrite <- (Z.mod_small (2 ^ 32 - 1 - x mod 2 ^ 32) (2 ^ 32)) by (pose proof (Z.mod_pos_bound x (2 ^ 32)); lia).
    by rewrite Z.mod_pow2_bits_high by lia.
Qed.

Lemma rotl_eq x s : w32 x -> 0 < s < 32 -> ROTATE_LEFT x s = w_rotl x s.
Proof.
  intros Hx Hs. unfold ROTATE_LEFT, w_rotl, u32. rewrite Z.shiftl_mul_pow2, Z.shiftr_div_pow2 by lia.
  assert (H0 : Z.land ((x * 2 ^ s) mod 2 ^ 32) (x / 2 ^ (32 - s)) = 0).
  { apply Z.bits_inj'. intros n Hn. rewrite Z.land_spec, Z.bits_0.
    destruct (decide (n < s)) as [Hl|Hl].
    - rewrite Z.mod_pow2_bits_low by lia. by rewrite Z.mul_pow2_bits_low by lia.
    - rewrite Z.div_pow2_bits by lia. rewrite <- (Z.mod_small x (2 ^ 32) Hx), (Z.mod_pow2_bits_high x 32 (n + (32 - s))) by lia.
      apply andb_false_r. }
  rewrite <- Z.lxor_lor by done. by rewrite <- Z.add_nocarry_lxor.
Qed.

Lemma u32_range x : w32 (u32 x).
Proof. unfold w32, u32. apply Z.mod_pos_bound. lia. Qed.

Definition ra (i : nat) : reg := match (i mod 4)%nat with 0%nat => Ra | 1%nat => Rd | 2%nat => Rc | _ => Rb end.
Definition rb (i : nat) : reg := match (i mod 4)%nat with 0%nat => Rb | 1%nat => Ra | 2%nat => Rd | _ => Rc end.
Definition rc (i : nat) : reg := match (i mod 4)%nat with 0%nat => Rc | 1%nat => Rb | 2%nat => Ra | _ => Rd end.
Definition rd (i : nat) : reg := match (i mod 4)%nat with 0%nat => Rd | 1%nat => Rc | 2%nat => Rb | _ => Ra end.
Definition mdf (i : nat) : Z -> Z -> Z -> Z := match (i / 16)%nat with 0%nat => md_F | 1%nat => md_G | 2%nat => md_H | _ => md_I end.
Definition instr (X : nat -> Z) (i : nat) : regs -> regs := SET (mdf i) X (ra i) (rb i) (rc i) (rd i) (rfc_k i) (rfc_s i) (T_ (S i)).

Lemma program X : round_F X ++ round_G X ++ round_H X ++ round_I X = instr X <$> seq 0 64.
Proof. reflexivity. Qed.

Lemma table i : T_ (S i) = default 0 (rfc_T !! i).
Proof. unfold T_. assert (T_table = rfc_T) as -> by (vm_compute; reflexivity). by replace (S i - 1)%nat with i by lia. Qed.

Lemma mdf_eq i x y z : w32 x -> w32 y -> w32 z -> mdf i x y z = rfc_f i x y z.
Proof.
  intros Hx Hy Hz. unfold mdf, rfc_f. destruct (i / 16)%nat as [|[|[|?]]]; unfold md_F, md_G, md_H, md_I; rewrite ?wnot_eq by done; try done.
  by rewrite Z.lxor_assoc.
Qed.

Definition view (x : regs) (i : nat) : Z * Z * Z * Z := (rget x (ra i), rget x (rb i), rget x (rc i), rget x (rd i)).

Lemma rfc_s_range i : 0 < rfc_s i < 32.
Proof. unfold rfc_s. destruct (i / 16)%nat as [|[|[|?]]], (i mod 4)%nat as [|[|[|?]]]; lia. Qed.

Lemma rget_range x r : wregs x -> w32 (rget x r).
Proof. destruct x as [[[a b] c] d]. intros (? & ? & ? & ?). by destruct r. Qed.
Lemma rput_range x r v : wregs x -> w32 v -> wregs (rput x r v).
Proof. destruct x as [[[a b] c] d]. intros (? & ? & ? & ?) Hv. by destruct r. Qed.

Lemma instr_step X i x : wregs x -> wregs (instr X i x) /\ view (instr X i x) (S i) = rfc_step X (view x i) i.
Proof.
  intros Hx. split; [unfold instr, SET; apply rput_range; [done|apply u32_range]|].
  unfold instr, SET. rewrite mdf_eq by (by apply rget_range). rewrite rotl_eq by (apply u32_range || apply rfc_s_range). rewrite table.
  unfold rfc_step, view. unfold u32. set (v := (w_rotl _ _ + _) mod 2 ^ 32).
  assert (Hc : exists q, (i = 4 * q \/ i = 4 * q + 1 \/ i = 4 * q + 2 \/ i = 4 * q + 3)%nat).
  { exists (i / 4)%nat. pose proof (Nat.div_mod i 4 ltac:(lia)). pose proof (Nat.mod_upper_bound i 4 ltac:(lia)). lia. }
  destruct Hc as (q & Hc).
  assert (Hm : forall r, (r < 4)%nat -> i = (4 * q + r)%nat -> (i mod 4)%nat = r /\ (S i mod 4)%nat = (S r mod 4)%nat).
  { intros r Hr ->. rewrite Nat.add_comm, Nat.mul_comm, Nat.mod_add by lia. rewrite Nat.mod_small by lia. split; [done|].
    replace (S (r + q * 4)) with (S r + q * 4)%nat by lia. by rewrite Nat.mod_add by lia. }
  clearbody v. destruct x as [[[a b] c] d].
  destruct Hc as [Hc|[Hc|[Hc|Hc]]];
    [destruct (Hm 0%nat ltac:(lia) ltac:(lia)) as [E1 E2]|destruct (Hm 1%nat ltac:(lia) ltac:(lia)) as [E1 E2]
    |destruct (Hm 2%nat ltac:(lia) ltac:(lia)) as [E1 E2]|destruct (Hm 3%nat ltac:(lia) ltac:(lia)) as [E1 E2]];
    unfold ra, rb, rc, rd; rewrite E1, E2; reflexivity.
Qed.

Lemma steps_ok X n : forall i x, wregs x ->
  wregs (foldl (fun x f => f x) x (instr X <$> seq i n)) /\
  view (foldl (fun x f => f x) x (instr X <$> seq i n)) (i + n) = foldl (rfc_step X) (view x i) (seq i n).
Proof.
  induction n as [|n IH]; intros i x Hx; cbn [seq fmap list_fmap foldl].
  - by rewrite Nat.add_0_r.
  - destruct (instr_step X i x Hx) as [H1 H2]. destruct (IH (S i) _ H1) as [H3 H4].
    split; [done|]. rewrite <- H2, <- H4. f_equal. lia.
Qed.

Lemma rfc_step_ext X Y i st : (forall k, X k = Y k) -> rfc_step X st i = rfc_step Y st i.
Proof. intros E. destruct st as [[[a b] c] d]. unfold rfc_step. by rewrite E. Qed.

Lemma block_ok abcd data : wregs abcd -> md5_process abcd data = rfc_block abcd data /\ wregs (md5_process abcd data).
Proof.
  intros Hw. unfold md5_process, rfc_block.
  set (X := fun k : nat => _). rewrite program.
  destruct (steps_ok X 64 0 abcd Hw) as [H1 H2].
  set (x := foldl _ abcd (instr X <$> seq 0 64)) in *. clearbody x.
  assert (E : foldl (rfc_step (rfc_word data)) abcd (seq 0 64) = x).
  { transitivity (foldl (rfc_step X) abcd (seq 0 64)).
    - generalize (seq 0 64). intros l. generalize abcd. clear. induction l as [|i l IH]; intros st; [done|]. cbn [foldl]. rewrite IH. f_equal.
      apply rfc_step_ext. intros k. unfold X, rfc_word. cbn [seq foldr].
      rewrite Nat.add_0_r. change (2 ^ 8) with 256. change (2 ^ 16) with 65536. change (2 ^ 24) with 16777216. lia.
    - transitivity (view x (0 + 64)); [rewrite H2; destruct abcd as [[[? ?] ?] ?]; reflexivity|]. destruct x as [[[? ?] ?] ?]. reflexivity. }
  rewrite E. destruct x as [[[a b] c] d]. destruct abcd as [[[a0 b0] c0] d0]. split; [done|].
  split_and!; apply u32_range.
Qed.

(** ** Many blocks *)
Lemma blocks_short st m : (length m < 64)%nat -> rfc_blocks st m = st.
Proof. intros H. unfold rfc_blocks. by rewrite Nat.div_small. Qed.

Lemma blocks_cons st m : (64 <= length m)%nat -> rfc_blocks st m = rfc_blocks (rfc_block st (take 64 m)) (drop 64 m).
Proof.
  intros H. unfold rfc_blocks. assert (E : (length m / 64 = S (length (drop 64 m) / 64))%nat).
  { rewrite drop_length. replace (length m) with (1 * 64 + (length m - 64))%nat at 1 by lia. rewrite Nat.div_add_l by lia. lia. }
  rewrite E. cbn [seq foldl]. rewrite Nat.mul_0_r, drop_0. rewrite <- seq_shift.
  generalize (rfc_block st (take 64 m)). generalize (seq 0 (length (drop 64 m) / 64)). intros l. induction l as [|i l IH]; intros s; [done|].
  cbn [map foldl]. rewrite IH. f_equal. f_equal. rewrite drop_drop. do 2 f_equal. lia.
Qed.

Lemma blocks_app st m m' : (length m mod 64 = 0)%nat -> rfc_blocks st (m ++ m') = rfc_blocks (rfc_blocks st m) m'.
Proof.
  revert st. remember (length m) as n eqn:En. revert m En. induction (lt_wf n) as [n _ IH]. intros m -> st Hm.
  destruct (decide (length m = 0%nat)) as [E|E].
  { destruct m; [|done]. cbn [app]. by rewrite (blocks_short st []) by (cbn; lia). }
  assert (64 <= length m)%nat.
  { destruct (decide (64 <= length m)%nat); [done|]. rewrite Nat.mod_small in Hm by lia. lia. }
  rewrite (blocks_cons st (m ++ m')) by (rewrite app_length; lia). rewrite (blocks_cons st m) by done.
  rewrite take_app_le, drop_app_le by lia. eapply IH; [|done|].
  - rewrite drop_length. lia.
  - rewrite drop_length. pose proof (Nat.mod_add (length m - 64) 1 64 ltac:(lia)) as H1. replace (length m - 64 + 1 * 64)%nat with (length m) in H1 by lia. lia.
Qed.

Lemma rfc_block_range st m : wregs st -> wregs (rfc_block st m).
Proof. intros H. destruct (block_ok st m H) as [<- H']. done. Qed.
Lemma rfc_blocks_range st m : wregs st -> wregs (rfc_blocks st m).
Proof.
  unfold rfc_blocks. generalize (seq 0 (length m / 64)). intros l. revert st. induction l as [|i l IH]; intros st Hst; [done|].
  cbn [foldl]. apply IH. by apply rfc_block_range.
Qed.

Lemma whole_ok fuel : forall abcd p, wregs abcd -> (length p <= fuel)%nat ->
  exists q, md5_blocks fuel abcd p = Ok (rfc_blocks abcd p, q) /\ q = drop (64 * (length p / 64)) p /\ (length q = length p mod 64)%nat.
Proof.
  induction fuel as [|fuel IH]; intros abcd p Hw Hf; cbn [md5_blocks].
  - rewrite decide_False by lia. exists p. rewrite blocks_short by lia. rewrite Nat.div_small, Nat.mod_small by lia. done.
  - destruct (decide (64 <= length p)%nat) as [Hl|Hl].
    + destruct (block_ok abcd (take 64 p) Hw) as [E Hw']. rewrite E in *.
      destruct (IH (rfc_block abcd (take 64 p)) (drop 64 p)) as (q & -> & -> & Hq); [done|rewrite drop_length; lia|].
      rewrite drop_length in *. rewrite (blocks_cons abcd p) by done. eexists. split; [done|].
      assert (E1 : (length p / 64 = S ((length p - 64) / 64))%nat).
      { replace (length p) with (1 * 64 + (length p - 64))%nat at 1 by lia. rewrite Nat.div_add_l by lia. lia. }
      split.
      * rewrite drop_drop. f_equal. rewrite E1. lia.
      * rewrite !drop_length in *. pose proof (Nat.mod_add (length p - 64) 1 64 ltac:(lia)) as H1. replace (length p - 64 + 1 * 64)%nat with (length p) in H1 by lia. lia.
    + exists p. rewrite blocks_short by lia. rewrite Nat.div_small, Nat.mod_small by lia. done.
Qed.

(** ** The state after the message [m] *)
Definition md5_start : regs := (0x67452301, 0xefcdab89, 0x98badcfe, 0x10325476).

Definition holds (s : md5_state) (m : list Z) : Prop :=
  md_abcd s = rfc_blocks md5_start m /\ length (md_buf s) = 64%nat /\
  take (length m mod 64) (md_buf s) = drop (64 * (length m / 64)) m /\
  md_count0 s = (8 * Z.of_nat (length m)) mod 2 ^ 32 /\
  md_count1 s = (8 * Z.of_nat (length m)) / 2 ^ 32 mod 2 ^ 32.

Lemma start_range : wregs md5_start.
Proof. unfold md5_start, wregs, w32. lia. Qed.

Lemma init_holds junk : length junk = 64%nat -> holds (md5_init junk) [].
Proof. intros H. split; [reflexivity|]. split; [done|]. split; [reflexivity|]. split; reflexivity. Qed.

Lemma offset_ok n : Z.to_nat (Z.land (Z.shiftr ((8 * Z.of_nat n) mod 2 ^ 32) 3) 63) = (n mod 64)%nat.
Proof.
  change 63 with (Z.ones 6). rewrite Z.land_ones, Z.shiftr_div_pow2 by lia.
  assert (E : (8 * Z.of_nat n) mod 2 ^ 32 / 2 ^ 3 = Z.of_nat n mod 2 ^ 29).
  { change (2 ^ 32) with (8 * 2 ^ 29). rewrite Z.mul_mod_distr_l by lia. change (2 ^ 3) with 8. rewrite Z.mul_comm. by rewrite Z.div_mul. }
  rewrite E. rewrite <- (Nat2Z.id (n mod 64)). f_equal. rewrite Nat2Z.inj_mod. change (2 ^ 29) with (64 * 2 ^ 23). change (2 ^ 6) with 64.
  rewrite Z.rem_mul_r by lia. rewrite Z.mul_comm, Z.mod_add by lia. by rewrite Z.mod_mod.
Qed.

Lemma count_ok L nb : 0 <= L -> 0 <= nb < 2 ^ 31 ->
  u32 (L mod 2 ^ 32 + nb) = (L + nb) mod 2 ^ 32 /\
  (if decide (u32 (L mod 2 ^ 32 + nb) < nb) then u32 (u32 (L / 2 ^ 32 mod 2 ^ 32 + 0) + 1) else u32 (L / 2 ^ 32 mod 2 ^ 32 + 0)) = (L + nb) / 2 ^ 32 mod 2 ^ 32.
Proof.
  intros HL Hnb. unfold u32. rewrite Z.add_mod_idemp_l by lia. split; [done|].
  rewrite Z.add_0_r, Z.mod_mod by lia. pose proof (Z.div_mod L (2 ^ 32) ltac:(lia)) as HD. pose proof (Z.mod_pos_bound L (2 ^ 32) ltac:(lia)) as HB.
  set (q := L / 2 ^ 32) in *. set (c := L mod 2 ^ 32) in *.
  destruct (decide (c + nb < 2 ^ 32)) as [Hlt|Hge].
  - assert (E1 : (L + nb) mod 2 ^ 32 = c + nb) by (symmetry; apply (Z.mod_unique_pos _ _ q); lia).
    assert (E2 : (L + nb) / 2 ^ 32 = q) by (symmetry; apply (Z.div_unique_pos _ _ _ (c + nb)); lia).
    rewrite E1, E2. by rewrite decide_False by lia.
  - assert (E1 : (L + nb) mod 2 ^ 32 = c + nb - 2 ^ 32) by (symmetry; apply (Z.mod_unique_pos _ _ (q + 1)); lia).
    assert (E2 : (L + nb) / 2 ^ 32 = q + 1) by (symmetry; apply (Z.div_unique_pos _ _ _ (c + nb - 2 ^ 32)); lia).
    rewrite E1, E2. rewrite decide_True by lia. by rewrite Z.add_mod_idemp_l by lia.
Qed.

Lemma mod64_add a b : (a mod 64 = 0)%nat -> ((a + b) mod 64 = b mod 64)%nat /\ (64 * ((a + b) / 64) = a + 64 * (b / 64))%nat.
Proof.
  intros Ha. pose proof (Nat.div_mod a 64 ltac:(lia)) as H. rewrite Ha in H.
  replace (a + b)%nat with (b + (a / 64) * 64)%nat by lia. rewrite Nat.mod_add, Nat.div_add by lia. lia.
Qed.

(** the end of md5_append, from a block boundary on *)
Lemma finish_ok M p buf c0 c1 : (length M mod 64 = 0)%nat -> length buf = 64%nat ->
  c0 = (8 * Z.of_nat (length (M ++ p))) mod 2 ^ 32 -> c1 = (8 * Z.of_nat (length (M ++ p))) / 2 ^ 32 mod 2 ^ 32 ->
  exists s, (let! (abcd, p) := md5_blocks (length p) (rfc_blocks md5_start M) p in
             let! buf := (if decide (length p = 0%nat) then Ok buf else memcpy buf 0 p (length p)) in
             Ok (mkMd5 c0 c1 abcd buf)) = Ok s /\ holds s (M ++ p).
Proof.
  intros HM Hb Hc0 Hc1.
  destruct (whole_ok (length p) (rfc_blocks md5_start M) p (rfc_blocks_range _ _ start_range) ltac:(lia)) as (q & -> & Hq & Hql).
  cbn [rbind]. pose proof (Nat.mod_upper_bound (length p) 64 ltac:(lia)) as Hlt.
  destruct (mod64_add (length M) (length p) HM) as [E1 E2].
  assert (Hd : drop (64 * (length (M ++ p) / 64)) (M ++ p) = q).
  { rewrite app_length, E2, drop_app_ge by lia. rewrite Hq. f_equal. lia. }
  assert (exists buf', (if decide (length q = 0%nat) then Ok buf else memcpy buf 0 q (length q)) = Ok buf' /\ length buf' = 64%nat /\ take (length q) buf' = q) as (buf' & -> & Hb' & Ht).
  { destruct (decide (length q = 0%nat)) as [E|E].
    - exists buf. destruct q; [|done]. by rewrite take_0.
    - unfold memcpy. rewrite decide_True by lia. eexists. split; [done|]. rewrite take_0, firstn_all. cbn [app]. split.
      + rewrite app_length, drop_length. lia.
      + by rewrite take_app. }
  cbn [rbind]. eexists. split; [done|]. split; [cbn [md_abcd]; by rewrite blocks_app|]. split; [done|]. cbn [md_buf md_count0 md_count1].
  split; [|done]. rewrite Hd, app_length, E1, <- Hql. done.
Qed.

Lemma append_ok s m d : holds s m -> Z.of_nat (length d) < 2 ^ 28 -> exists s', md5_append s d = Ok s' /\ holds s' (m ++ d).
Proof.
  intros Hh Hn. pose proof Hh as (Ha & Hb & Ht & H0 & H1). unfold md5_append. rewrite decide_False by lia.
  destruct (decide (length d = 0%nat)) as [E|Hne].
  { exists s. destruct d; [|done]. by rewrite app_nil_r. }
  rewrite H0, H1, offset_ok. rewrite !Z.shiftl_mul_pow2, (Z.shiftr_div_pow2 (Z.of_nat (length d))) by lia.
  rewrite (Z.div_small (Z.of_nat (length d))) by lia. change (2 ^ 3) with 8.
  destruct (count_ok (8 * Z.of_nat (length m)) (Z.of_nat (length d) * 8) ltac:(lia) ltac:(lia)) as [C0 C1].
  rewrite C1, C0. clear C0 C1.
  replace (8 * Z.of_nat (length m) + Z.of_nat (length d) * 8) with (8 * Z.of_nat (length (m ++ d))) by (rewrite app_length; lia).
  pose proof (Nat.mod_upper_bound (length m) 64 ltac:(lia)) as Hlt. pose proof (Nat.div_mod (length m) 64 ltac:(lia)) as Hdm.
  set (o := (length m mod 64)%nat) in *. 
  destruct (decide (o = 0%nat)) as [Eo|Eo].
  { rewrite Ha. by apply finish_ok. }
  (* m = M ++ r with r in the buffer *)
  set (M := take (64 * (length m / 64)) m). set (r := drop (64 * (length m / 64)) m) in *.
  assert (Em : m = M ++ r) by (symmetry; apply take_drop).
  assert (LM : length M = (64 * (length m / 64))%nat) by (unfold M; rewrite take_length; lia).
  assert (Lr : length r = o) by (unfold r; rewrite drop_length; lia).
  assert (HM : (length M mod 64 = 0)%nat) by (rewrite LM, Nat.mul_comm; by apply Nat.mod_mul).
  assert (HA : md_abcd s = rfc_blocks md5_start M).
  { rewrite Ha, Em, blocks_app by done. apply blocks_short. lia. }
  destruct (decide (64 < o + length d)%nat) as [Hbig|Hsmall]; unfold memcpy.
  - rewrite decide_True by lia. cbn [rbind]. rewrite decide_False by lia.
    set (c := (64 - o)%nat) in *. rewrite Ht. replace (o + c)%nat with 64%nat by lia. rewrite (drop_ge (md_buf s)) by lia. rewrite app_nil_r.
    set (B := r ++ take c d). assert (LB : length B = 64%nat) by (unfold B; rewrite app_length, take_length; lia).
    assert (E : md5_process (md_abcd s) B = rfc_blocks md5_start (M ++ B)).
    { rewrite HA. destruct (block_ok (rfc_blocks md5_start M) B (rfc_blocks_range _ _ start_range)) as [-> _].
      rewrite blocks_app by done. rewrite (blocks_cons _ B) by lia. rewrite (blocks_short _ (drop 64 B)) by (rewrite drop_length; lia). by rewrite take_ge by lia. }
    rewrite E. assert (Emd : m ++ d = (M ++ B) ++ drop c d).
    { rewrite Em. unfold B. rewrite <- !app_assoc. by rewrite take_drop. }
    rewrite Emd. apply finish_ok; [|done|done|done]. rewrite app_length, LB, LM. replace (64 * (length m / 64) + 64)%nat with (S (length m / 64) * 64)%nat by lia. by apply Nat.mod_mul.
  - rewrite decide_True by lia. cbn [rbind]. rewrite Ht, (take_ge d) by lia.
    destruct (decide (o + length d < 64)%nat) as [Hs|Hs].
    + eexists. split; [done|].
      assert (Emd : m ++ d = M ++ r ++ d) by (rewrite app_assoc; by rewrite <- Em).
      clearbody M r. rewrite Emd. unfold holds. cbn [md_abcd md_buf md_count0 md_count1].
      destruct (mod64_add (length M) (length (r ++ d)) HM) as [E1 E2].
      assert (L3 : (length (r ++ d) < 64)%nat) by (rewrite app_length; lia).
      rewrite (Nat.mod_small (length (r ++ d))) in E1 by lia. rewrite (Nat.div_small (length (r ++ d))) in E2 by lia.
      split; [rewrite blocks_app by done; rewrite (blocks_short _ (r ++ d)) by done; done|].
      split; [rewrite !app_length, drop_length; lia|]. split; [|done].
      rewrite (app_length M), E1, E2. rewrite app_assoc. rewrite take_app by done. rewrite drop_app_ge by lia.
      by replace (length M + 64 * 0 - length M)%nat with 0%nat by lia.
    + assert (Hsum : (o + length d = 64)%nat) by lia. rewrite Hsum. rewrite (drop_ge (md_buf s)) by lia. rewrite app_nil_r.
      set (B := r ++ d). assert (LB : length B = 64%nat) by (unfold B; rewrite app_length; lia).
      assert (E : md5_process (md_abcd s) B = rfc_blocks md5_start (M ++ B)).
      { rewrite HA. destruct (block_ok (rfc_blocks md5_start M) B (rfc_blocks_range _ _ start_range)) as [-> _].
        rewrite blocks_app by done. rewrite (blocks_cons _ B) by lia. rewrite (blocks_short _ (drop 64 B)) by (rewrite drop_length; lia). by rewrite take_ge by lia. }
      rewrite E, drop_ge by lia. assert (Emd : m ++ d = (M ++ B) ++ []).
      { rewrite app_nil_r. unfold B. rewrite app_assoc. by rewrite <- Em. }
      rewrite Emd. apply finish_ok; [|done|done|done]. rewrite app_length, LB, LM. replace (64 * (length m / 64) + 64)%nat with (S (length m / 64) * 64)%nat by lia. by apply Nat.mod_mul.
Qed.

Lemma appends_ok ds : forall s m, holds s m -> Forall (fun d => Z.of_nat (length d) < 2 ^ 28) ds ->
  exists s', md5_appends s ds = Ok s' /\ holds s' (m ++ mjoin ds).
Proof.
  induction ds as [|d ds IH]; intros s m Hs HF; cbn [md5_appends mjoin list_join].
  - exists s. by rewrite app_nil_r.
  - apply Forall_cons_1 in HF as [Hd HF]. destruct (append_ok s m d Hs Hd) as (s1 & -> & H1). cbn [rbind].
    destruct (IH s1 _ H1 HF) as (s2 & -> & H2). exists s2. by rewrite app_assoc.
Qed.

Lemma byte_eq x i : 0 <= i -> Z.shiftr x (i * 8) mod 2 ^ 8 = (x / 256 ^ i) mod 256.
Proof. intros Hi. rewrite Z.shiftr_div_pow2 by lia. rewrite Z.mul_comm, Z.pow_mul_r by lia. done. Qed.

Lemma finish_md5 s m : holds s m -> md5_finish s = Ok (rfc_md5 m).
Proof.
  intros Hs. pose proof Hs as (_ & _ & _ & H0 & H1). unfold md5_finish.
  set (z := Z.to_nat ((55 - Z.of_nat (length m)) mod 64)).
  assert (Hz : (z < 64)%nat) by (unfold z; pose proof (Z.mod_pos_bound (55 - Z.of_nat (length m)) 64); lia).
  assert (En : Z.to_nat (Z.land (u32 (55 - Z.shiftr (md_count0 s) 3)) 63 + 1) = S z).
  { rewrite H0. change 63 with (Z.ones 6). rewrite Z.land_ones, Z.shiftr_div_pow2 by lia.
    assert (E : (8 * Z.of_nat (length m)) mod 2 ^ 32 / 2 ^ 3 = Z.of_nat (length m) mod 2 ^ 29).
    { change (2 ^ 32) with (8 * 2 ^ 29). rewrite Z.mul_mod_distr_l by lia. change (2 ^ 3) with 8. rewrite Z.mul_comm. by rewrite Z.div_mul. }
    rewrite E. unfold u32, z.
    assert (E2 : (55 - Z.of_nat (length m) mod 2 ^ 29) mod 2 ^ 32 mod 2 ^ 6 = (55 - Z.of_nat (length m)) mod 64).
    { pose proof (Z.div_mod (Z.of_nat (length m)) (2 ^ 29) ltac:(lia)) as HD.
      set (y := 55 - Z.of_nat (length m) mod 2 ^ 29) in *. pose proof (Z.div_mod y (2 ^ 32) ltac:(lia)) as HE.
      set (q1 := Z.of_nat (length m) / 2 ^ 29) in *. set (q2 := y / 2 ^ 32) in *.
      replace (y mod 2 ^ 32) with (55 - Z.of_nat (length m) + (q1 * 2 ^ 23 - q2 * 2 ^ 26) * 64) by lia.
      change (2 ^ 6) with 64. by rewrite Z.mod_add by lia. }
    rewrite E2. pose proof (Z.mod_pos_bound (55 - Z.of_nat (length m)) 64). lia. }
  rewrite En. unfold md5_pad. cbn [take]. rewrite take_replicate, Nat.min_l by lia.
  destruct (append_ok s m (128 :: replicate z 0) Hs) as (s1 & E1 & Hs1); [cbn [length]; rewrite replicate_length; lia|].
  rewrite E1. cbn [rbind].
  assert (Ed : byte_of [md_count0 s; md_count1 s] <$> seq 0 8 = le 8 ((8 * Z.of_nat (length m)) mod 2 ^ 64)).
  { rewrite H0, H1. set (L := 8 * Z.of_nat (length m)). unfold le. cbn [seq fmap list_fmap]. unfold byte_of.
    assert (El : forall i, 0 <= i < 4 -> L mod 2 ^ 64 / 256 ^ i mod 256 = L mod 2 ^ 32 / 256 ^ i mod 256).
    { intros i Hi. replace (256 ^ i) with (2 ^ (8 * i)) by (by rewrite Z.pow_mul_r by lia). change 256 with (2 ^ 8).
      apply Z.bits_inj'. intros n Hn. destruct (decide (n < 8)); [|by rewrite !Z.mod_pow2_bits_high by lia].
      rewrite !(Z.mod_pow2_bits_low _ 8) by lia. rewrite !Z.div_pow2_bits by lia. by rewrite !Z.mod_pow2_bits_low by lia. }
    assert (Eh : forall i, 0 <= i < 4 -> L mod 2 ^ 64 / 256 ^ (4 + i) mod 256 = (L / 2 ^ 32) mod 2 ^ 32 / 256 ^ i mod 256).
    { intros i Hi. replace (256 ^ (4 + i)) with (2 ^ (8 * (4 + i))) by (by rewrite Z.pow_mul_r by lia).
      replace (256 ^ i) with (2 ^ (8 * i)) by (by rewrite Z.pow_mul_r by lia). change 256 with (2 ^ 8).
      apply Z.bits_inj'. intros n Hn. destruct (decide (n < 8)); [|by rewrite !Z.mod_pow2_bits_high by lia].
      rewrite !(Z.mod_pow2_bits_low _ 8) by lia. rewrite !Z.div_pow2_bits by lia. rewrite !Z.mod_pow2_bits_low by lia. rewrite Z.div_pow2_bits by lia. f_equal. lia. }
    repeat apply (f_equal2 cons); try done; cbn [Nat.div Nat.modulo fst snd Nat.divmod Nat.sub lookup list_lookup default Z.of_nat];
      rewrite byte_eq by lia; symmetry; first [apply (El 0); lia|apply (El 1); lia|apply (El 2); lia|apply (El 3); lia
        |apply (Eh 0); lia|apply (Eh 1); lia|apply (Eh 2); lia|apply (Eh 3); lia]. }
  rewrite Ed. destruct (append_ok s1 _ (le 8 ((8 * Z.of_nat (length m)) mod 2 ^ 64)) Hs1) as (s2 & -> & Hs2); [done|]. cbn [rbind].
  destruct Hs2 as (Ha & _). rewrite Ha. unfold rfc_md5.
  replace ((m ++ 128 :: replicate z 0) ++ le 8 ((8 * Z.of_nat (length m)) mod 2 ^ 64)) with (rfc_pad m)
    by (unfold rfc_pad; fold z; by rewrite <- app_assoc).
  fold md5_start. destruct (rfc_blocks md5_start (rfc_pad m)) as [[[a b] c] d]. f_equal.
  unfold le. cbn [seq fmap list_fmap app]. unfold byte_of.
  repeat apply (f_equal2 cons); try done; apply byte_eq; lia.
Qed.
