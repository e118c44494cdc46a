(** C30: record layouts.  Each encoder below writes the fields of a record in
    the order and with the widths of the struct documented at the top of the
    reader's header file; the theorems say that the reader gets the same values
    back, wherever the record stands in the file. *)
From stdpp Require Import gmap list numbers fin_maps.
From Verif Require Import Base ModelReader SpecReader ReaderFacts.
Open Scope Z_scope.

(** Decoding the record [bytes] with the reader of trace type [t] sets exactly
    the fields of [vals], each to the given value, leaves all other fields of
    the request alone and looks at nothing outside the record. *)
Definition decodes_to (t : ttype) (bytes : list Z) (vals : list (Z * Z)) : Prop :=
  length bytes = item_size t /\
  forall pre post q, exists q',
    dec_table (table_of (stored_type t)) (pre ++ bytes ++ post) (length pre) q = Ok q' /\
    Forall (fun fv => q' !! (fv.1) = Some (fv.2)) vals /\
    forall f, f ∉ map fst vals -> q' !! f = q !! f.

(** Ranges of the unsigned and signed integer types. *)
Definition uint (n : Z) (x : Z) : Prop := 0 <= x < 2 ^ n.
Definition sint (n : Z) (x : Z) : Prop := - 2 ^ (n - 1) <= x < 2 ^ (n - 1).

Lemma mod_uint n x : uint n x -> x mod 2 ^ n = x.
Proof. intros H. apply Z.mod_small. exact H. Qed.

Lemma signed_mod n x : 0 < n -> sint n x -> signed n (x mod 2 ^ n) = x.
Proof.
  intros Hn [H1 H2]. unfold signed.
  assert (E : 2 ^ n = 2 * 2 ^ (n - 1)).
  { rewrite <- Z.pow_succ_r by lia. f_equal. lia. }
  assert (P : 0 < 2 ^ (n - 1)) by (apply Z.pow_pos_nonneg; lia).
  destruct (Z_lt_ge_dec x 0) as [L|G].
  - assert (Em : x mod 2 ^ n = x + 2 ^ n).
    { symmetry. apply Z.mod_unique_pos with (-1); lia. }
    rewrite Em. destruct (Z.ltb_spec (x + 2 ^ n) (2 ^ (n - 1))); lia.
  - rewrite Z.mod_small by lia. destruct (Z.ltb_spec x (2 ^ (n - 1))); lia.
Qed.

(** What "never again" becomes: -1 and INT64_MAX are both INT64_MAX. *)
Definition next_val (x : Z) : Z := if decide (x = -1) then 2 ^ 63 - 1 else x.

Lemma next_post_mod x : sint 64 x -> next_post (x mod 2 ^ 64) = next_val x.
Proof.
  intros H. unfold next_post, next_val. rewrite signed_mod by (lia || done).
  destruct (Z.eqb_spec x (-1)) as [->|N]; cbn [orb]; [done|].
  rewrite decide_False by done.
  destruct (Z.eqb_spec x int64_max) as [->|N2]; done.
Qed.

Lemma le_at_join a b x y l :
  le_at (le_bytes a x ++ le_bytes b y ++ l) 0 (a + b)
  = Ok (x mod 2 ^ (8 * Z.of_nat a) + 2 ^ (8 * Z.of_nat a) * (y mod 2 ^ (8 * Z.of_nat b))).
Proof.
  assert (G : forall f off k m v w, le_at f off k = Ok v -> le_at f (off + k) m = Ok w ->
            le_at f off (k + m) = Ok (v + 2 ^ (8 * Z.of_nat k) * w)).
  { intros f off k. revert off. induction k as [|k IH]; intros off m v w H1 H2.
    - cbn in H1. injection H1 as <-. rewrite Nat.add_0_r in H2. cbn [Nat.add].
      rewrite H2. f_equal. change (8 * Z.of_nat 0) with 0. lia.
    - cbn [le_at Nat.add] in *. destruct (f !! off) as [c|]; [|discriminate].
      destruct (le_at f (S off) k) as [v'|] eqn:E; [|discriminate]. cbn in H1.
      injection H1 as <-. replace (off + S k)%nat with (S off + k)%nat in H2 by lia.
      rewrite (IH _ _ _ _ E H2). cbn. f_equal.
      replace (8 * Z.of_nat (S k)) with (8 + 8 * Z.of_nat k) by lia.
      rewrite Z.pow_add_r by lia. change (2 ^ 8) with 256. ring. }
  apply G; [apply le_at_bytes|]. rewrite Nat.add_0_l.
  replace a with (a + 0)%nat at 2 by lia. rewrite le_at_skip. apply le_at_bytes.
Qed.

Lemma le_at_low a b x l :
  (a <= b)%nat -> le_at (le_bytes b x ++ l) 0 a = Ok (x mod 2 ^ (8 * Z.of_nat a)).
Proof.
  revert b x l. intros b x l Hab.
  assert (S : exists y, le_bytes b x = le_bytes a x ++ y).
  { clear l. revert b x Hab. induction a as [|a IH]; intros b x Hab; [eexists; reflexivity|].
    destruct b as [|b]; [lia|]. cbn. destruct (IH b (x / 256) ltac:(lia)) as [y Hy].
    exists y. rewrite Hy. done. }
  destruct S as [y ->]. rewrite <- app_assoc. apply le_at_bytes.
Qed.

Ltac rd1 :=
  match goal with
  | |- context [le_at (le_bytes ?m ?x ++ ?l) ?k ?n] =>
      let b := eval vm_compute in (Nat.leb m k) in
      lazymatch b with
      | true =>
          let k' := eval vm_compute in (k - m)%nat in
          change (le_at (le_bytes m x ++ l) k n) with (le_at (le_bytes m x ++ l) (m + k') n);
          rewrite (le_at_skip m x l k' n)
      | false => 
          change (le_at (le_bytes m x ++ l) k n) with (le_at (le_bytes m x ++ l) 0 n);
          first [rewrite (le_at_bytes n x l) | rewrite (le_at_low n m x l) by lia |
                 match l with le_bytes ?b ?y ++ ?l' => 
                   change (le_at (le_bytes m x ++ le_bytes b y ++ l') 0 n)
                     with (le_at (le_bytes m x ++ le_bytes b y ++ l') 0 (m + b));
                   rewrite (le_at_join m b x y l') end]
      end
  end.

Ltac rdz :=
  match goal with |- context [le_at ?f ?o 0] => change (le_at f o 0) with (@Ok Z 0) end.

Ltac norm8 :=
  repeat match goal with
  | |- context [8 * Z.of_nat ?n] =>
      let v := eval vm_compute in (8 * Z.of_nat n) in change (8 * Z.of_nat n) with v
  end.

Ltac lay :=
  split; [rewrite ?app_length, ?le_bytes_length; reflexivity|];
  intros pre post q; rewrite <- ?app_assoc;
  cbn [stored_type table_of dec_table f_off f_width f_field f_post];
  repeat (rewrite (le_at_app_r pre) || rdz; repeat rd1; cbn [rbind]);
  norm8;
  eexists; split; [reflexivity|]; split;
  [ repeat (apply Forall_cons; split; [cbn [fst snd]|]); [..|constructor]
  | intros f Hf; cbn [map fst] in Hf; repeat (apply not_elem_of_cons in Hf as [? Hf]);
    rewrite ?lookup_insert_ne by congruence; reflexivity ].

(** Look a field up in a chain of inserts, then normalise the value. *)
Ltac look :=
  repeat (rewrite lookup_insert_ne by discriminate); rewrite lookup_insert; f_equal;
  rewrite ?Z.mod_1_r;
  first [ reflexivity
        | apply mod_uint; assumption
        | apply signed_mod; [lia|assumption]
        | apply next_post_mod; assumption
        | idtac ].

(** oracle/oracleGeneralBin.h:3-12 *)
Definition enc_oracleGeneral (time id size next : Z) : list Z :=
  le_bytes 4 time ++ le_bytes 8 id ++ le_bytes 4 size ++ le_bytes 8 next.

Theorem C30_oracleGeneral time id size next :
  uint 32 time -> uint 64 id -> uint 32 size -> sint 64 next ->
  decodes_to T_OGEN (enc_oracleGeneral time id size next)
    [(F_TIME, time); (F_ID, id); (F_SIZE, size); (F_NEXT, next_val next)].
Proof. intros. unfold enc_oracleGeneral. lay; look. Qed.

(** oracle/oracleGeneralBin.h:50-75 (no struct is documented; the fields of
    oracleGeneral with an 8-bit operation and a 16-bit namespace before the
    next access time). *)
Definition enc_oracleGeneralOpNS (time id size op ns next : Z) : list Z :=
  le_bytes 4 time ++ le_bytes 8 id ++ le_bytes 4 size ++ le_bytes 1 op ++
  le_bytes 2 ns ++ le_bytes 8 next.

Theorem C30_oracleGeneralOpNS time id size op ns next :
  uint 32 time -> uint 64 id -> uint 32 size -> uint 8 op -> uint 16 ns -> sint 64 next ->
  decodes_to T_OGENOPNS (enc_oracleGeneralOpNS time id size op ns next)
    [(F_TIME, time); (F_ID, id); (F_SIZE, size); (F_OP, op); (F_NS, ns);
     (F_NEXT, next_val next)].
Proof. intros. unfold enc_oracleGeneralOpNS. lay; look. Qed.

(** standardBin.h:7-12 *)
Definition enc_IQI (time id size : Z) : list Z :=
  le_bytes 4 time ++ le_bytes 8 id ++ le_bytes 4 size.

Theorem C30_IQI time id size :
  uint 32 time -> uint 64 id -> uint 32 size ->
  decodes_to T_IQI (enc_IQI time id size) [(F_TIME, time); (F_ID, id); (F_SIZE, size)].
Proof. intros. unfold enc_IQI. lay; look. Qed.

Definition enc_IQIBH (time id size op ns : Z) : list Z :=
  le_bytes 4 time ++ le_bytes 8 id ++ le_bytes 4 size ++ le_bytes 1 op ++ le_bytes 2 ns.

Theorem C30_IQIBH time id size op ns :
  uint 32 time -> uint 64 id -> uint 32 size -> uint 8 op -> uint 16 ns ->
  decodes_to T_IQIBH (enc_IQIBH time id size op ns)
    [(F_TIME, time); (F_ID, id); (F_SIZE, size); (F_OP, op); (F_NS, ns)].
Proof. intros. unfold enc_IQIBH. lay; look. Qed.

(** An IQQ record holds a 64-bit size, of which the reader takes the low 32
    bits. *)
Definition enc_IQQ (time id size : Z) : list Z :=
  le_bytes 4 time ++ le_bytes 8 id ++ le_bytes 8 size.

Theorem C30_IQQ_partial time id size :
  uint 32 time -> uint 64 id -> uint 64 size ->
  decodes_to T_IQQ (enc_IQQ time id size)
    [(F_TIME, time); (F_ID, id); (F_SIZE, size mod 2 ^ 32)].
Proof. intros. unfold enc_IQQ. lay; look. Qed.

(** Sizes of 4 GiB and more are not read back. *)
Theorem C30_IQQ_refuted :
  exists time id size, uint 32 time /\ uint 64 id /\ uint 64 size /\
    ~ decodes_to T_IQQ (enc_IQQ time id size)
        [(F_TIME, time); (F_ID, id); (F_SIZE, size)].
Proof.
  exists 1, 7, (2 ^ 32 + 5). split_and!; try (unfold uint; lia).
  intros [_ H]. destruct (H [] [] ∅) as (q' & E & F & _).
  vm_compute in E. injection E as <-.
  apply Forall_cons in F as [_ F]. apply Forall_cons in F as [_ F].
  apply Forall_cons in F as [F _]. vm_compute in F. discriminate.
Qed.

(** standardBin.h:15-20: an III record has a 32-bit object id, but the reader
    takes 64 bits, so the size becomes the high half of the id. *)
Definition enc_III (time id size : Z) : list Z :=
  le_bytes 4 time ++ le_bytes 4 id ++ le_bytes 4 size.

Theorem C30_III_partial time id size :
  uint 32 time -> uint 32 id -> uint 32 size ->
  decodes_to T_III (enc_III time id size)
    [(F_TIME, time); (F_ID, id + 2 ^ 32 * size); (F_SIZE, size)].
Proof.
  intros. unfold enc_III. lay; look.
  rewrite !mod_uint by assumption. reflexivity.
Qed.

Theorem C30_III_refuted :
  exists time id size, uint 32 time /\ uint 32 id /\ uint 32 size /\
    ~ decodes_to T_III (enc_III time id size)
        [(F_TIME, time); (F_ID, id); (F_SIZE, size)].
Proof.
  exists 1, 7, 100. split_and!; try (unfold uint; lia).
  intros [_ H]. destruct (H [] [] ∅) as (q' & E & F & _).
  vm_compute in E. injection E as <-.
  apply Forall_cons in F as [_ F]. apply Forall_cons in F as [F _].
  vm_compute in F. discriminate.
Qed.

(** twrBin.h:1-14; the key size occupies the high 10 bits of its word, the
    operation the high 8 bits. *)
Definition enc_twr (time id key val op ttl : Z) : list Z :=
  le_bytes 4 time ++ le_bytes 8 id ++ le_bytes 4 (key * 2 ^ 22 + val) ++
  le_bytes 4 (op * 2 ^ 24 + ttl).

Lemma split_word a b n m :
  0 <= n -> 0 <= m -> uint n a -> uint m b ->
  let w := (a * 2 ^ m + b) mod 2 ^ (n + m) in
  Z.land (Z.shiftr w m) (2 ^ n - 1) = a /\ Z.land w (2 ^ m - 1) = b.
Proof.
  intros Hn Hm [A1 A2] [B1 B2].
  assert (P : 0 < 2 ^ m) by (apply Z.pow_pos_nonneg; lia).
  assert (Ew : (a * 2 ^ m + b) mod 2 ^ (n + m) = a * 2 ^ m + b).
  { apply Z.mod_small. rewrite Z.pow_add_r by lia. nia. }
  cbn zeta. rewrite Ew.
  replace (2 ^ n - 1) with (Z.ones n) by (rewrite Z.ones_equiv; lia).
  replace (2 ^ m - 1) with (Z.ones m) by (rewrite Z.ones_equiv; lia).
  rewrite !Z.land_ones by lia. rewrite Z.shiftr_div_pow2 by lia.
  rewrite Z.div_add_l by lia. rewrite (Z.div_small b) by lia.
  rewrite Z.add_0_r. split.
  - apply Z.mod_small. lia.
  - rewrite Z.add_comm, Z.mod_add by lia. apply Z.mod_small. lia.
Qed.

Theorem C30_twr time id key val op ttl :
  uint 32 time -> uint 64 id -> uint 10 key -> uint 22 val -> uint 8 op -> uint 24 ttl ->
  decodes_to T_TWR (enc_twr time id key val op ttl)
    [(F_TIME, time); (F_ID, id); (F_KEY, key); (F_VAL, val); (F_SIZE, key + val);
     (F_OP, op); (F_TTL, ttl)].
Proof.
  intros Ht Hi Hk Hv Ho Hl. unfold enc_twr.
  assert (W1 := split_word key val 10 22 ltac:(lia) ltac:(lia) Hk Hv).
  assert (W2 := split_word op ttl 8 24 ltac:(lia) ltac:(lia) Ho Hl).
  cbn zeta in W1, W2. change (10 + 22) with 32 in W1. change (8 + 24) with 32 in W2.
  destruct W1 as [W1 W1']. destruct W2 as [W2 W2'].
  lay; look; try assumption.
  rewrite W1, W1'. apply Z.mod_small. unfold uint in *. lia.
Qed.

(** twrNSBin.h:1-14 *)
Definition enc_twrNS (time id key val op ttl ns : Z) : list Z :=
  le_bytes 4 time ++ le_bytes 8 id ++ le_bytes 4 (key * 2 ^ 22 + val) ++
  le_bytes 4 (op * 2 ^ 24 + ttl) ++ le_bytes 2 ns.

Theorem C30_twrNS time id key val op ttl ns :
  uint 32 time -> uint 64 id -> uint 10 key -> uint 22 val -> uint 8 op -> uint 24 ttl ->
  uint 16 ns ->
  decodes_to T_TWRNS (enc_twrNS time id key val op ttl ns)
    [(F_TIME, time); (F_ID, id); (F_KEY, key); (F_VAL, val); (F_SIZE, key + val);
     (F_OP, op); (F_TTL, ttl); (F_NS, ns)].
Proof.
  intros Ht Hi Hk Hv Ho Hl Hn. unfold enc_twrNS.
  assert (W1 := split_word key val 10 22 ltac:(lia) ltac:(lia) Hk Hv).
  assert (W2 := split_word op ttl 8 24 ltac:(lia) ltac:(lia) Ho Hl).
  cbn zeta in W1, W2. change (10 + 22) with 32 in W1. change (8 + 24) with 32 in W2.
  destruct W1 as [W1 W1']. destruct W2 as [W2 W2'].
  lay; look; try assumption.
  rewrite W1, W1'. apply Z.mod_small. unfold uint in *. lia.
Qed.

(** oracle/oracleTwrNSBin.h:3-10 *)
Definition enc_oracleSimTwrNS (time id size ttl ns next : Z) : list Z :=
  le_bytes 4 time ++ le_bytes 8 id ++ le_bytes 4 size ++ le_bytes 4 ttl ++
  le_bytes 2 ns ++ le_bytes 8 next.

Theorem C30_oracleSimTwrNS time id size ttl ns next :
  uint 32 time -> uint 64 id -> uint 32 size -> sint 32 ttl -> uint 16 ns -> sint 64 next ->
  decodes_to T_OSIM_TWRNS (enc_oracleSimTwrNS time id size ttl ns next)
    [(F_TIME, time); (F_ID, id); (F_SIZE, size); (F_TTL, ttl); (F_NS, ns);
     (F_NEXT, next_val next)].
Proof. intros. unfold enc_oracleSimTwrNS. lay; look. Qed.

(** oracle/oracleTwrNSBin.h:14-24 *)
Definition enc_oracleSysTwrNS (time id key val op ns ttl next : Z) : list Z :=
  le_bytes 4 time ++ le_bytes 8 id ++ le_bytes 2 key ++ le_bytes 4 val ++
  le_bytes 2 op ++ le_bytes 2 ns ++ le_bytes 4 ttl ++ le_bytes 8 next.

Theorem C30_oracleSysTwrNS time id key val op ns ttl next :
  uint 32 time -> uint 64 id -> uint 16 key -> uint 32 val -> uint 16 op -> uint 16 ns ->
  sint 32 ttl -> sint 64 next ->
  decodes_to T_OSYS_TWRNS (enc_oracleSysTwrNS time id key val op ns ttl next)
    [(F_TIME, time); (F_ID, id); (F_KEY, key); (F_VAL, val); (F_SIZE, key + val);
     (F_OP, op); (F_NS, ns); (F_TTL, ttl); (F_NEXT, next_val next)].
Proof.
  intros. unfold enc_oracleSysTwrNS. lay; look.
  rewrite (mod_uint 16 key), (mod_uint 32 val) by assumption. unfold uint in *.
  rewrite (Z.mul_comm (2 ^ 16)), Z.mod_add by lia.
  rewrite Z.div_add by lia. rewrite Z.mod_small, Z.div_small by lia. lia.
Qed.

(** akamaiBin.h:7-15 *)
Definition enc_akamai (time id size tenant bucket ct : Z) : list Z :=
  le_bytes 4 time ++ le_bytes 8 id ++ le_bytes 4 size ++ le_bytes 2 tenant ++
  le_bytes 2 bucket ++ le_bytes 2 ct.

Theorem C30_akamai time id size tenant bucket ct :
  uint 32 time -> uint 64 id -> uint 32 size -> uint 16 tenant -> uint 16 bucket -> uint 16 ct ->
  decodes_to T_AKAMAI (enc_akamai time id size tenant bucket ct)
    [(F_TIME, time); (F_ID, id); (F_SIZE, size); (F_TENANT, tenant);
     (F_BUCKET, bucket); (F_CT, ct)].
Proof. intros. unfold enc_akamai. lay; look. Qed.

(** oracle/oracleAkamaiBin.h:6-14.  The reader subtracts one from the three
    classification fields, so they are stored one higher than delivered. *)
Definition enc_oracleAkamai (time id size tenant bucket ct next : Z) : list Z :=
  le_bytes 4 time ++ le_bytes 8 id ++ le_bytes 4 size ++ le_bytes 2 tenant ++
  le_bytes 2 bucket ++ le_bytes 2 ct ++ le_bytes 8 next.

Theorem C30_oracleAkamai_partial time id size tenant bucket ct next :
  uint 32 time -> uint 64 id -> uint 32 size -> sint 16 tenant -> sint 16 bucket ->
  sint 16 ct -> sint 64 next ->
  decodes_to T_OAKAMAI (enc_oracleAkamai time id size tenant bucket ct next)
    [(F_TIME, time); (F_ID, id); (F_SIZE, size); (F_TENANT, tenant - 1);
     (F_BUCKET, bucket - 1); (F_CT, ct - 1); (F_NEXT, next_val next)].
Proof.
  intros. unfold enc_oracleAkamai. lay; look;
    (rewrite signed_mod by (lia || assumption); reflexivity).
Qed.

(** wikiBin.h:7-31 *)
Definition enc_wiki16u (id size ct : Z) : list Z :=
  le_bytes 8 id ++ le_bytes 4 size ++ le_bytes 2 ct.
Definition enc_wiki19u (time id size ct : Z) : list Z :=
  le_bytes 4 time ++ le_bytes 8 id ++ le_bytes 4 size ++ le_bytes 2 ct.
Definition enc_wiki19t (time id size : Z) : list Z :=
  le_bytes 4 time ++ le_bytes 8 id ++ le_bytes 4 size.

Theorem C30_wiki16u id size ct :
  uint 64 id -> uint 32 size -> uint 16 ct ->
  decodes_to T_WIKI16u (enc_wiki16u id size ct)
    [(F_TIME, 0); (F_ID, id); (F_SIZE, size); (F_CT, ct)].
Proof. intros. unfold enc_wiki16u. lay; look. Qed.

Theorem C30_wiki19u time id size ct :
  uint 32 time -> uint 64 id -> uint 32 size -> uint 16 ct ->
  decodes_to T_WIKI19u (enc_wiki19u time id size ct)
    [(F_TIME, time); (F_ID, id); (F_SIZE, size); (F_CT, ct)].
Proof. intros. unfold enc_wiki19u. lay; look. Qed.

Theorem C30_wiki19t time id size :
  uint 32 time -> uint 64 id -> uint 32 size ->
  decodes_to T_WIKI19t (enc_wiki19t time id size)
    [(F_TIME, time); (F_ID, id); (F_SIZE, size)].
Proof. intros. unfold enc_wiki19t. lay; look. Qed.

(** oracle/oracleWikiBin.h:6-31 *)
Theorem C30_oracleWiki16u id size ct next :
  uint 64 id -> uint 32 size -> uint 16 ct -> sint 64 next ->
  decodes_to T_OWIKI16u (enc_wiki16u id size ct ++ le_bytes 8 next)
    [(F_TIME, 0); (F_ID, id); (F_SIZE, size); (F_CT, ct); (F_NEXT, next_val next)].
Proof. intros. unfold enc_wiki16u. lay; look. Qed.

Theorem C30_oracleWiki19u time id size ct next :
  uint 32 time -> uint 64 id -> uint 32 size -> uint 16 ct -> sint 64 next ->
  decodes_to T_OWIKI19u (enc_wiki19u time id size ct ++ le_bytes 8 next)
    [(F_TIME, time); (F_ID, id); (F_SIZE, size); (F_CT, ct); (F_NEXT, next_val next)].
Proof. intros. unfold enc_wiki19u. lay; look. Qed.

(** cf1Bin.h:1-19.  The struct declares unsigned fields, request_t holds signed
    ones: values up to the signed maximum are read back. *)
Definition enc_cf1 (time id size ttl age host ct ext nlevel nparam method colo : Z) : list Z :=
  le_bytes 4 time ++ le_bytes 8 id ++ le_bytes 8 size ++ le_bytes 4 ttl ++
  le_bytes 4 age ++ le_bytes 4 host ++ le_bytes 2 ct ++ le_bytes 2 ext ++
  le_bytes 2 nlevel ++ le_bytes 1 nparam ++ le_bytes 1 method ++ le_bytes 1 colo.

Theorem C30_cf1_partial time id size ttl age host ct ext nlevel nparam method colo :
  uint 32 time -> uint 64 id -> sint 64 size -> sint 32 ttl -> sint 32 age -> sint 32 host ->
  uint 16 ct -> sint 16 ext -> sint 16 nlevel -> uint 8 nparam -> sint 8 method -> uint 8 colo ->
  decodes_to T_CF1 (enc_cf1 time id size ttl age host ct ext nlevel nparam method colo)
    [(F_TIME, time); (F_ID, id); (F_SIZE, size); (F_TTL, ttl); (F_AGE, age); (F_HOST, host);
     (F_CT, ct); (F_EXT, ext); (F_NLEVEL, nlevel); (F_NPARAM, nparam); (F_METHOD, method);
     (F_COLO, colo)].
Proof. intros. unfold enc_cf1. lay; look. Qed.

(** oracle/oracleCF1Bin.h:1-24 *)
Definition enc_oracleCF1 (time id size ttl age host next ct ext nlevel nparam method colo : Z)
  : list Z :=
  le_bytes 4 time ++ le_bytes 8 id ++ le_bytes 8 size ++ le_bytes 4 ttl ++
  le_bytes 4 age ++ le_bytes 4 host ++ le_bytes 8 next ++ le_bytes 2 ct ++ le_bytes 2 ext ++
  le_bytes 2 nlevel ++ le_bytes 1 nparam ++ le_bytes 1 method ++ le_bytes 1 colo.

Theorem C30_oracleCF1_partial time id size ttl age host next ct ext nlevel nparam method colo :
  uint 32 time -> uint 64 id -> sint 64 size -> sint 32 ttl -> sint 32 age -> sint 32 host ->
  sint 64 next ->
  uint 16 ct -> sint 16 ext -> sint 16 nlevel -> uint 8 nparam -> sint 8 method -> uint 8 colo ->
  decodes_to T_OCF1 (enc_oracleCF1 time id size ttl age host next ct ext nlevel nparam method colo)
    [(F_TIME, time); (F_ID, id); (F_SIZE, size); (F_TTL, ttl); (F_AGE, age); (F_HOST, host);
     (F_NEXT, next_val next);
     (F_CT, ct); (F_EXT, ext); (F_NLEVEL, nlevel); (F_NPARAM, nparam); (F_METHOD, method);
     (F_COLO, colo)].
Proof. intros. unfold enc_oracleCF1. lay; look. Qed.

(** valpinBin.h: object ids only, every object has size 1. *)
Theorem C30_valpin id :
  uint 64 id -> decodes_to T_VALPIN (le_bytes 8 id) [(F_ID, id); (F_SIZE, 1)].
Proof. intros. lay; look. Qed.

(** vscsi.h:29-37 and 39-48: only the length, the block number and the time
    stamp (microseconds, delivered as seconds) are used. *)
Definition enc_vscsi1 (sn len nsg cmd ver lbn ts : Z) : list Z :=
  le_bytes 4 sn ++ le_bytes 4 len ++ le_bytes 4 nsg ++ le_bytes 2 cmd ++ le_bytes 2 ver ++
  le_bytes 8 lbn ++ le_bytes 8 ts.
Definition enc_vscsi2 (cmd ver sn len nsg lbn ts rt : Z) : list Z :=
  le_bytes 2 cmd ++ le_bytes 2 ver ++ le_bytes 4 sn ++ le_bytes 4 len ++ le_bytes 4 nsg ++
  le_bytes 8 lbn ++ le_bytes 8 ts ++ le_bytes 8 rt.

Theorem C30_vscsi1 sn len nsg cmd ver lbn ts :
  uint 32 len -> uint 64 lbn -> uint 64 ts ->
  decodes_to T_VSCSI1 (enc_vscsi1 sn len nsg cmd ver lbn ts)
    [(F_ID, lbn); (F_SIZE, len); (F_TIME, ts / 1000000)].
Proof.
  intros. unfold enc_vscsi1. lay; look. rewrite mod_uint by assumption. done.
Qed.

Theorem C30_vscsi2 cmd ver sn len nsg lbn ts rt :
  uint 32 len -> uint 64 lbn -> uint 64 ts ->
  decodes_to T_VSCSI2 (enc_vscsi2 cmd ver sn len nsg lbn ts rt)
    [(F_ID, lbn); (F_SIZE, len); (F_TIME, ts / 1000000)].
Proof.
  intros. unfold enc_vscsi2. lay; look. rewrite mod_uint by assumption. done.
Qed.

(** ** The generic binary reader: any record format, any choice of fields *)

(** A record of format [fmt] holding the values [vals]. *)
Definition enc_binary (fmt : list bchar) (vals : list Z) : list Z :=
  concat (zip_with (fun c v => le_bytes (format_to_size c) v) fmt vals).

Lemma dec_table_get t f off q :
  NoDup (map f_field t) ->
  Forall (fun e => exists v, le_at f (off + f_off e)%nat (f_width e) = Ok v) t ->
  exists q', dec_table t f off q = Ok q' /\
    (forall e v, e ∈ t -> le_at f (off + f_off e)%nat (f_width e) = Ok v ->
       q' !! f_field e = Some (f_post e v)) /\
    (forall fld, fld ∉ map f_field t -> q' !! fld = q !! fld).
Proof.
  revert q. induction t as [|e t IH]; intros q ND F.
  - exists q. split_and!; [done| |done]. intros e v He. by apply elem_of_nil in He.
  - cbn [map] in ND. apply NoDup_cons in ND as [N ND]. apply Forall_cons in F as [[v Hv] F].
    destruct (IH (<[f_field e := f_post e v]> q) ND F) as (q' & E & G & K).
    exists q'. cbn [dec_table]. rewrite Hv. cbn [rbind]. split; [exact E|]. split.
    + intros e' v' He' Hv'. apply elem_of_cons in He' as [->|He'].
      * rewrite Hv in Hv'. injection Hv' as <-. rewrite K by done. apply lookup_insert.
      * exact (G _ _ He' Hv').
    + intros fld Hf. cbn [map] in Hf. apply not_elem_of_cons in Hf as [Hf1 Hf2].
      rewrite K by done. rewrite lookup_insert_ne by congruence. done.
Qed.

Lemma enc_binary_at fmt vals k c v l :
  fmt !! k = Some c -> vals !! k = Some v ->
  le_at (enc_binary fmt vals ++ l) (cal_offset fmt (S k)) (format_to_size c)
  = Ok (v mod 2 ^ (8 * Z.of_nat (format_to_size c))).
Proof.
  unfold cal_offset. replace (S k - 1)%nat with k by lia.
  revert vals k. induction fmt as [|c0 fmt IH]; intros vals k Hc Hv; [done|].
  destruct vals as [|v0 vals]; [done|]. unfold enc_binary. cbn [zip_with concat].
  rewrite <- app_assoc. destruct k as [|k].
  - cbn in Hc, Hv. injection Hc as ->. injection Hv as ->. cbn [take sum_list_with].
    apply le_at_bytes.
  - cbn in Hc, Hv. cbn [take sum_list_with]. rewrite le_at_skip. exact (IH _ _ Hc Hv).
Qed.

Lemma enc_binary_length fmt vals :
  length vals = length fmt ->
  length (enc_binary fmt vals) = sum_list_with format_to_size fmt.
Proof.
  revert vals. induction fmt as [|c fmt IH]; intros [|v vals] H; try done.
  unfold enc_binary. cbn [zip_with concat sum_list_with].
  rewrite app_length, le_bytes_length. f_equal. apply IH. cbn in H. lia.
Qed.

(** Width in bits of the [k]-th field (counting from 0). *)
Definition bits_of (fmt : list bchar) (k : nat) : Z :=
  8 * Z.of_nat (default 0%nat (format_to_size <$> fmt !! k)).

(** For every format, every choice of fields within it and every record:
    a field whose value is in the signed range of its type is delivered
    unchanged; an 8-byte object id is delivered unchanged for all 64-bit
    values.  Missing: values in the upper half of the unsigned types (refuted
    below) and the ttl field, which the reader never delivers. *)
Theorem C30_binary_partial p vals :
  length vals = length (b_fmt p) ->
  (b_id p <= length vals)%nat -> (b_time p <= length vals)%nat ->
  (b_size p <= length vals)%nat -> (b_op p <= length vals)%nat ->
  (b_next p <= length vals)%nat ->
  length (enc_binary (b_fmt p) vals) = item_size (T_BIN p) /\
  forall pre post q, exists q',
    dec_table (table_of (stored_type (T_BIN p)))
      (pre ++ enc_binary (b_fmt p) vals ++ post) (length pre) q = Ok q' /\
    (forall k v, b_id p = S k -> vals !! k = Some v ->
       0 <= v /\ sint (bits_of (b_fmt p) k) v \/ bits_of (b_fmt p) k = 64 /\ uint 64 v ->
       q' !! F_ID = Some v) /\
    (forall k v, b_time p = S k -> vals !! k = Some v ->
       sint (bits_of (b_fmt p) k) v -> q' !! F_TIME = Some v) /\
    (forall k v, b_size p = S k -> vals !! k = Some v ->
       sint (bits_of (b_fmt p) k) v -> q' !! F_SIZE = Some v) /\
    (forall k v, b_op p = S k -> vals !! k = Some v ->
       sint (bits_of (b_fmt p) k) v -> uint 32 v -> q' !! F_OP = Some v) /\
    (forall k v, b_next p = S k -> vals !! k = Some v ->
       sint (bits_of (b_fmt p) k) v -> q' !! F_NEXT = Some v) /\
    (forall f, f ∉ [F_ID; F_TIME; F_SIZE; F_OP; F_NEXT] -> q' !! f = q !! f).
Proof.
  intros HL H1 H2 H3 H4 H5. split; [rewrite enc_binary_length by done; cbn [item_size]; unfold cal_offset; rewrite ?firstn_all2 by lia; try reflexivity|].
  intros pre post q.
  set (file := pre ++ enc_binary (b_fmt p) vals ++ post).
  assert (At : forall k c v, b_fmt p !! k = Some c -> vals !! k = Some v ->
     le_at file (length pre + cal_offset (b_fmt p) (S k)) (format_to_size c)
     = Ok (v mod 2 ^ (8 * Z.of_nat (format_to_size c)))).
  { intros k c v Hc Hv. unfold file. rewrite le_at_app_r. by apply enc_binary_at. }
  assert (BF : forall fld idx conv, (idx <= length vals)%nat ->
     Forall (fun e => exists v, le_at file (length pre + f_off e)%nat (f_width e) = Ok v)
       (bin_field p fld idx conv)).
  { intros fld idx conv Hi. destruct idx as [|k]; cbn [bin_field]; [constructor|].
    destruct (lookup_lt_is_Some_2 vals k ltac:(lia)) as [v Hv].
    destruct (lookup_lt_is_Some_2 (b_fmt p) k ltac:(lia)) as [c Hc]. rewrite Hc.
    constructor; [|constructor]. cbn [f_off f_width]. eexists. by apply At. }
  assert (BN : forall fld idx conv, bin_field p fld idx conv = [] \/
     map f_field (bin_field p fld idx conv) = [fld]).
  { intros fld idx conv. destruct idx as [|k]; cbn [bin_field]; [by left|].
    destruct (b_fmt p !! k); [right; done|by left]. }
  assert (Tin : forall x, x ∈ map f_field (bin_table p) ->
     x ∈ [F_ID; F_TIME; F_SIZE; F_OP; F_NEXT]).
  { intros x. unfold bin_table. rewrite !map_app, !elem_of_app, !elem_of_cons.
    assert (K : forall fld idx conv, x ∈ map f_field (bin_field p fld idx conv) -> x = fld).
    { intros fld idx conv Hx. destruct (BN fld idx conv) as [E|E]; rewrite E in Hx; [by apply elem_of_nil in Hx|].
      by apply elem_of_list_singleton in Hx. }
    intros [Hx|[Hx|[Hx|[Hx|Hx]]]]; apply K in Hx; subst x; tauto. }
  destruct (dec_table_get (bin_table p) file (length pre) q) as (q' & E & G & K).
  { unfold bin_table. rewrite !map_app.
    destruct (BN F_ID (b_id p) u64) as [->| ->], (BN F_TIME (b_time p) raw) as [->| ->],
      (BN F_SIZE (b_size p) raw) as [->| ->], (BN F_OP (b_op p) u32) as [->| ->],
      (BN F_NEXT (b_next p) raw) as [->| ->]; cbn [map app];
      repeat (apply NoDup_cons; split; [rewrite ?elem_of_cons, elem_of_nil;
         unfold F_ID, F_TIME, F_SIZE, F_OP, F_NEXT; lia|]); apply NoDup_nil; done. }
  { unfold bin_table. rewrite !Forall_app. split_and!; apply BF; assumption. }
  exists q'. split; [exact E|].
  assert (Get : forall fld idx conv k v,
     (forall e, e ∈ bin_field p fld idx conv -> e ∈ bin_table p) ->
     (idx <= length vals)%nat -> idx = S k -> vals !! k = Some v ->
     q' !! fld = Some (conv (signed (bits_of (b_fmt p) k) (v mod 2 ^ bits_of (b_fmt p) k)))).
  { intros fld idx conv k v Hin Hl -> Hv. cbn [bin_field] in Hin.
    destruct (lookup_lt_is_Some_2 (b_fmt p) k ltac:(lia)) as [c Hc].
    unfold bits_of. rewrite Hc in *. cbn [fmap option_fmap option_map default].
    exact (G (mkF fld _ _ _) _ (Hin _ ltac:(left)) (At k c v Hc Hv)). }
  assert (Pos : forall k v, vals !! k = Some v -> 0 < bits_of (b_fmt p) k).
  { intros k v Hv. apply lookup_lt_Some in Hv. unfold bits_of.
    destruct (lookup_lt_is_Some_2 (b_fmt p) k ltac:(lia)) as [c ->].
    cbn. destruct c; cbn; lia. }
  assert (Hi : forall fld idx conv e, e ∈ bin_field p fld idx conv ->
     (fld, idx, conv) = (fld, idx, conv) -> True) by done. clear Hi.
  unfold bin_table in Get. split; [|split; [|split; [|split; [|split]]]].
  - intros k v Hk Hv R.
    rewrite (Get F_ID (b_id p) u64 k v) by (try assumption; intros; rewrite !elem_of_app; tauto).
    assert (P := Pos k v Hv). f_equal. unfold u64.
    destruct R as [[R1 R2]|[R1 R2]].
    + rewrite signed_mod by done. apply Z.mod_small. split; [done|].
      destruct R2 as [_ R2]. eapply Z.lt_le_trans; [exact R2|].
      apply Z.pow_le_mono_r; [lia|].
      unfold bits_of. destruct (b_fmt p !! k) as [[]|]; cbn; lia.
    + rewrite R1. rewrite (mod_uint 64 v) by assumption. unfold signed. unfold uint in R2.
      destruct (Z.ltb_spec v (2 ^ (64 - 1))).
      * apply Z.mod_small. exact R2.
      * rewrite Zminus_mod, Z_mod_same_full, Z.sub_0_r, Z.mod_mod by lia.
        apply Z.mod_small. exact R2.
  - intros k v Hk Hv R.
    rewrite (Get F_TIME (b_time p) raw k v) by (try assumption; intros; rewrite !elem_of_app; tauto).
    unfold raw. rewrite signed_mod; [done|exact (Pos k v Hv)|done].
  - intros k v Hk Hv R.
    rewrite (Get F_SIZE (b_size p) raw k v) by (try assumption; intros; rewrite !elem_of_app; tauto).
    unfold raw. rewrite signed_mod; [done|exact (Pos k v Hv)|done].
  - intros k v Hk Hv R Ru.
    rewrite (Get F_OP (b_op p) u32 k v) by (try assumption; intros; rewrite !elem_of_app; tauto).
    rewrite signed_mod; [|exact (Pos k v Hv)|done]. f_equal. apply Z.mod_small. exact Ru.
  - intros k v Hk Hv R.
    rewrite (Get F_NEXT (b_next p) raw k v) by (try assumption; intros; rewrite !elem_of_app; tauto).
    unfold raw. rewrite signed_mod; [done|exact (Pos k v Hv)|done].
  - intros f Hf. apply K. intros Hx. apply Hf. by apply Tin.
Qed.

(** A 32-bit unsigned ('I') time stamp or size of 2^31 or more is delivered as
    a negative number; and so is a 32-bit object id, sign-extended to 64 bits. *)
Theorem C30_binary_unsigned_refuted :
  exists p vals, length vals = length (b_fmt p) /\
    Forall (fun cv => uint (8 * Z.of_nat (format_to_size (cv.1))) (cv.2)) (zip (b_fmt p) vals) /\
    exists q', dec_table (table_of (T_BIN p)) (enc_binary (b_fmt p) vals) 0 ∅ = Ok q' /\
      vals = [3000000000; 3000000001; 3000000002] /\
      (b_time p, b_id p, b_size p) = (1%nat, 2%nat, 3%nat) /\
      q' !! F_TIME = Some (3000000000 - 2 ^ 32) /\
      q' !! F_ID = Some (3000000001 - 2 ^ 32 + 2 ^ 64) /\
      q' !! F_SIZE = Some (3000000002 - 2 ^ 32).
Proof.
  exists (mkBin [BI; BI; BI] 2 1 3 0 0 0), [3000000000; 3000000001; 3000000002].
  split; [done|]. split.
  { repeat (apply Forall_cons; split; [cbn; unfold uint; lia|]). constructor. }
  eexists. split; [vm_compute; reflexivity|]. split_and!; vm_compute; reflexivity.
Qed.

(** The ttl field of a generic binary trace is never delivered. *)
Theorem C30_binary_ttl_refuted p vals pre post q :
  length vals = length (b_fmt p) ->
  (b_id p <= length vals)%nat -> (b_time p <= length vals)%nat ->
  (b_size p <= length vals)%nat -> (b_op p <= length vals)%nat ->
  (b_next p <= length vals)%nat ->
  exists q', dec_table (table_of (T_BIN p)) (pre ++ enc_binary (b_fmt p) vals ++ post)
               (length pre) q = Ok q' /\ q' !! F_TTL = q !! F_TTL.
Proof.
  intros H0 H1 H2 H3 H4 H5.
  destruct (C30_binary_partial p vals H0 H1 H2 H3 H4 H5) as [_ K].
  destruct (K pre post q) as (q' & E & _ & _ & _ & _ & _ & F).
  exists q'. split; [exact E|]. apply F.
  rewrite !elem_of_cons, elem_of_nil. unfold F_ID, F_TIME, F_SIZE, F_OP, F_NEXT, F_TTL. lia.
Qed.

(** CF1: the struct declares unsigned fields; an age of 2^31 s is delivered
    negative. *)
Theorem C30_cf1_refuted :
  exists age q', uint 32 age /\
    dec_table (table_of T_CF1) (enc_cf1 1 2 3 4 age 6 7 8 9 10 11 12) 0 ∅ = Ok q' /\
    q' !! F_AGE <> Some age.
Proof.
  exists (2 ^ 31). eexists. split; [unfold uint; lia|].
  split; [vm_compute; reflexivity|]. vm_compute. discriminate.
Qed.

(** oracleAkamai: the three classification fields come back one lower, unlike
    those of the akamai format. *)
Theorem C30_oracleAkamai_refuted :
  exists tenant q', uint 15 tenant /\
    dec_table (table_of T_OAKAMAI) (enc_oracleAkamai 1 2 3 tenant 5 6 7) 0 ∅ = Ok q' /\
    q' !! F_TENANT <> Some tenant.
Proof.
  exists 4. eexists. split; [unfold uint; lia|].
  split; [vm_compute; reflexivity|]. vm_compute. discriminate.
Qed.

(** A twr record (key 37 bytes, value 1000 bytes, operation 4, ttl 86400) and a
    generic record of format "IQHiq" read with swapped columns. *)
Example C30_ex :
  (exists q, dec_table (table_of T_TWR)
      ([255; 255] ++ enc_twr 1600000000 12345678901234 37 1000 4 86400 ++ [7]) 2 ∅ = Ok q /\
    q !! F_KEY = Some 37 /\ q !! F_VAL = Some 1000 /\ q !! F_SIZE = Some 1037 /\
    q !! F_OP = Some 4 /\ q !! F_TTL = Some 86400) /\
  (exists q, dec_table (table_of (T_BIN (mkBin [BI; BQ; BH; Bi; Bq] 2 1 4 0 3 5)))
      (enc_binary [BI; BQ; BH; Bi; Bq] [100; 2 ^ 64 - 5; 9; 4096; 77]) 0 ∅ = Ok q /\
    q !! F_TIME = Some 100 /\ q !! F_ID = Some (2 ^ 64 - 5) /\ q !! F_SIZE = Some 4096 /\
    q !! F_NEXT = Some 77).
Proof.
  split; eexists; (split; [vm_compute; reflexivity|]); split_and!; vm_compute; reflexivity.
Qed.
