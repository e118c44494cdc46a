(** MD5 as in RFC 1321. *)
From stdpp Require Import list numbers.
From Verif Require Import Base.
Open Scope Z_scope.

(** Words have 32 bits.  The complement of a word, and rotation to the left. *)
Definition w_not (x : Z) : Z := 2 ^ 32 - 1 - x.
Definition w_rotl (x s : Z) : Z := (x * 2 ^ s) mod 2 ^ 32 + x / 2 ^ (32 - s).

(** 3.4: the four auxiliary functions *)
Definition rfc_f (i : nat) (x y z : Z) : Z :=
  match (i / 16)%nat with
  | 0%nat => Z.lor (Z.land x y) (Z.land (w_not x) z)
  | 1%nat => Z.lor (Z.land x z) (Z.land y (w_not z))
  | 2%nat => Z.lxor x (Z.lxor y z)
  | _ => Z.lxor y (Z.lor x (w_not z))
  end.
(** the word of the block used in step i *)
Definition rfc_k (i : nat) : nat :=
  match (i / 16)%nat with
  | 0%nat => i mod 16
  | 1%nat => (5 * i + 1) mod 16
  | 2%nat => (3 * i + 5) mod 16
  | _ => (7 * i) mod 16
  end.
(** the rotation in step i *)
Definition rfc_s (i : nat) : Z :=
  match (i / 16)%nat, (i mod 4)%nat with
  | 0%nat, 0%nat => 7 | 0%nat, 1%nat => 12 | 0%nat, 2%nat => 17 | 0%nat, _ => 22
  | 1%nat, 0%nat => 5 | 1%nat, 1%nat => 9 | 1%nat, 2%nat => 14 | 1%nat, _ => 20
  | 2%nat, 0%nat => 4 | 2%nat, 1%nat => 11 | 2%nat, 2%nat => 16 | 2%nat, _ => 23
  | _, 0%nat => 6 | _, 1%nat => 10 | _, 2%nat => 15 | _, _ => 21
  end.
(** the integer part of 4294967296 times abs(sin(i + 1)) *)
Definition rfc_T : list Z :=
  [0xd76aa478; 0xe8c7b756; 0x242070db; 0xc1bdceee; 0xf57c0faf; 0x4787c62a; 0xa8304613; 0xfd469501;
   0x698098d8; 0x8b44f7af; 0xffff5bb1; 0x895cd7be; 0x6b901122; 0xfd987193; 0xa679438e; 0x49b40821;
   0xf61e2562; 0xc040b340; 0x265e5a51; 0xe9b6c7aa; 0xd62f105d; 0x02441453; 0xd8a1e681; 0xe7d3fbc8;
   0x21e1cde6; 0xc33707d6; 0xf4d50d87; 0x455a14ed; 0xa9e3e905; 0xfcefa3f8; 0x676f02d9; 0x8d2a4c8a;
   0xfffa3942; 0x8771f681; 0x6d9d6122; 0xfde5380c; 0xa4beea44; 0x4bdecfa9; 0xf6bb4b60; 0xbebfbc70;
   0x289b7ec6; 0xeaa127fa; 0xd4ef3085; 0x04881d05; 0xd9d4d039; 0xe6db99e5; 0x1fa27cf8; 0xc4ac5665;
   0xf4292244; 0x432aff97; 0xab9423a7; 0xfc93a039; 0x655b59c3; 0x8f0ccc92; 0xffeff47d; 0x85845dd1;
   0x6fa87e4f; 0xfe2ce6e0; 0xa3014314; 0x4e0811a1; 0xf7537e82; 0xbd3af235; 0x2ad7d2bb; 0xeb86d391].

(** One step: [a] becomes [d], [d] becomes [c], [c] becomes [b]. *)
Definition rfc_step (X : nat -> Z) (st : Z * Z * Z * Z) (i : nat) : Z * Z * Z * Z :=
  let '(a, b, c, d) := st in
  let t := (a + rfc_f i b c d + X (rfc_k i) + default 0 (rfc_T !! i)) mod 2 ^ 32 in
  (d, (w_rotl t (rfc_s i) + b) mod 2 ^ 32, b, c).

(** A block of 64 bytes, as 16 words with the low-order byte first. *)
Definition rfc_word (m : list Z) (k : nat) : Z :=
  foldr (fun j n => default 0 (m !! (4 * k + j)%nat) + 256 * n) 0 (seq 0 4).
Definition rfc_block (st : Z * Z * Z * Z) (m : list Z) : Z * Z * Z * Z :=
  let '(a, b, c, d) := foldl (rfc_step (rfc_word m)) st (seq 0 64) in
  let '(a0, b0, c0, d0) := st in
  ((a0 + a) mod 2 ^ 32, (b0 + b) mod 2 ^ 32, (c0 + c) mod 2 ^ 32, (d0 + d) mod 2 ^ 32).

(** 3.1, 3.2: a one bit, zeros up to 56 modulo 64 bytes, the length in bits. *)
Definition le (n : nat) (x : Z) : list Z := (fun i => (x / 256 ^ Z.of_nat i) mod 256) <$> seq 0 n.
Definition rfc_pad (m : list Z) : list Z :=
  m ++ 0x80 :: replicate (Z.to_nat ((55 - Z.of_nat (length m)) mod 64)) 0 ++ le 8 ((8 * Z.of_nat (length m)) mod 2 ^ 64).

(** 3.3 - 3.5: the blocks one after the other; the four words. *)
Definition rfc_blocks (st : Z * Z * Z * Z) (m : list Z) : Z * Z * Z * Z :=
  foldl (fun st i => rfc_block st (take 64 (drop (64 * i) m))) st (seq 0 (length m / 64)).
Definition rfc_md5 (m : list Z) : list Z :=
  let '(a, b, c, d) := rfc_blocks (0x67452301, 0xefcdab89, 0x98badcfe, 0x10325476) (rfc_pad m) in
  le 4 a ++ le 4 b ++ le 4 c ++ le 4 d.
