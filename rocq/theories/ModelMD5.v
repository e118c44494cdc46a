(** example/cacheCluster/md5.c (the files under libketama have a copy). *)
From stdpp Require Import list numbers.
From Verif Require Import Base.
Open Scope Z_scope.

(** md5.c:64-128.  md5_word_t is unsigned int, 32 bits. *)
Definition T_MASK : Z := 0xffffffff.
Definition T_table : list Z :=
  [Z.lxor T_MASK 0x28955b87; Z.lxor T_MASK 0x173848a9; 0x242070db; Z.lxor T_MASK 0x3e423111;
   Z.lxor T_MASK 0x0a83f050; 0x4787c62a; Z.lxor T_MASK 0x57cfb9ec; Z.lxor T_MASK 0x02b96afe;
   0x698098d8; Z.lxor T_MASK 0x74bb0850; Z.lxor T_MASK 0x0000a44e; Z.lxor T_MASK 0x76a32841;
   0x6b901122; Z.lxor T_MASK 0x02678e6c; Z.lxor T_MASK 0x5986bc71; 0x49b40821;
   Z.lxor T_MASK 0x09e1da9d; Z.lxor T_MASK 0x3fbf4cbf; 0x265e5a51; Z.lxor T_MASK 0x16493855;
   Z.lxor T_MASK 0x29d0efa2; 0x02441453; Z.lxor T_MASK 0x275e197e; Z.lxor T_MASK 0x182c0437;
   0x21e1cde6; Z.lxor T_MASK 0x3cc8f829; Z.lxor T_MASK 0x0b2af278; 0x455a14ed;
   Z.lxor T_MASK 0x561c16fa; Z.lxor T_MASK 0x03105c07; 0x676f02d9; Z.lxor T_MASK 0x72d5b375;
   Z.lxor T_MASK 0x0005c6bd; Z.lxor T_MASK 0x788e097e; 0x6d9d6122; Z.lxor T_MASK 0x021ac7f3;
   Z.lxor T_MASK 0x5b4115bb; 0x4bdecfa9; Z.lxor T_MASK 0x0944b49f; Z.lxor T_MASK 0x4140438f;
   0x289b7ec6; Z.lxor T_MASK 0x155ed805; Z.lxor T_MASK 0x2b10cf7a; 0x04881d05;
   Z.lxor T_MASK 0x262b2fc6; Z.lxor T_MASK 0x1924661a; 0x1fa27cf8; Z.lxor T_MASK 0x3b53a99a;
   Z.lxor T_MASK 0x0bd6ddbb; 0x432aff97; Z.lxor T_MASK 0x546bdc58; Z.lxor T_MASK 0x036c5fc6;
   0x655b59c3; Z.lxor T_MASK 0x70f3336d; Z.lxor T_MASK 0x00100b82; Z.lxor T_MASK 0x7a7ba22e;
   0x6fa87e4f; Z.lxor T_MASK 0x01d3191f; Z.lxor T_MASK 0x5cfebceb; 0x4e0811a1;
   Z.lxor T_MASK 0x08ac817d; Z.lxor T_MASK 0x42c50dca; 0x2ad7d2bb; Z.lxor T_MASK 0x14792c6e].
Definition T_ (i : nat) : Z := default 0 (T_table !! (i - 1)%nat).

(** ~x on md5_word_t *)
Definition wnot (x : Z) : Z := Z.lxor T_MASK x.

(** 197 (ROTATE_LEFT) *)
Definition ROTATE_LEFT (x n : Z) : Z := Z.lor (u32 (Z.shiftl x n)) (Z.shiftr x (32 - n)).

(** 202, 228, 254, 280 *)
Definition md_F (x y z : Z) : Z := Z.lor (Z.land x y) (Z.land (wnot x) z).
Definition md_G (x y z : Z) : Z := Z.lor (Z.land x z) (Z.land y (wnot z)).
Definition md_H (x y z : Z) : Z := Z.lxor (Z.lxor x y) z.
Definition md_I (x y z : Z) : Z := Z.lxor y (Z.lor x (wnot z)).

(** The local variables a, b, c, d of md5_process, by position. *)
Notation regs := (Z * Z * Z * Z)%type.
Inductive reg : Type := Ra | Rb | Rc | Rd.
Definition rget (x : regs) (r : reg) : Z :=
  let '(a, b, c, d) := x in match r with Ra => a | Rb => b | Rc => c | Rd => d end.
Definition rput (x : regs) (r : reg) (v : Z) : regs :=
  let '(a, b, c, d) := x in
  match r with Ra => (v, b, c, d) | Rb => (a, v, c, d) | Rc => (a, b, v, d) | Rd => (a, b, c, v) end.

(** 203-205, 229-231, 255-257, 281-283 (SET) *)
Definition SET (f : Z -> Z -> Z -> Z) (X : nat -> Z) (a b c d : reg) (k : nat) (s Ti : Z) (x : regs) : regs :=
  let t := u32 (rget x a + f (rget x b) (rget x c) (rget x d) + X k + Ti) in
  rput x a (u32 (ROTATE_LEFT t s + rget x b)).

(** 207-222, 233-248, 259-274, 285-300 *)
Definition round_F (X : nat -> Z) : list (regs -> regs) :=
  [SET md_F X Ra Rb Rc Rd 0 7 (T_ 1);
   SET md_F X Rd Ra Rb Rc 1 12 (T_ 2);
   SET md_F X Rc Rd Ra Rb 2 17 (T_ 3);
   SET md_F X Rb Rc Rd Ra 3 22 (T_ 4);
   SET md_F X Ra Rb Rc Rd 4 7 (T_ 5);
   SET md_F X Rd Ra Rb Rc 5 12 (T_ 6);
   SET md_F X Rc Rd Ra Rb 6 17 (T_ 7);
   SET md_F X Rb Rc Rd Ra 7 22 (T_ 8);
   SET md_F X Ra Rb Rc Rd 8 7 (T_ 9);
   SET md_F X Rd Ra Rb Rc 9 12 (T_ 10);
   SET md_F X Rc Rd Ra Rb 10 17 (T_ 11);
   SET md_F X Rb Rc Rd Ra 11 22 (T_ 12);
   SET md_F X Ra Rb Rc Rd 12 7 (T_ 13);
   SET md_F X Rd Ra Rb Rc 13 12 (T_ 14);
   SET md_F X Rc Rd Ra Rb 14 17 (T_ 15);
   SET md_F X Rb Rc Rd Ra 15 22 (T_ 16)].
Definition round_G (X : nat -> Z) : list (regs -> regs) :=
  [SET md_G X Ra Rb Rc Rd 1 5 (T_ 17);
   SET md_G X Rd Ra Rb Rc 6 9 (T_ 18);
   SET md_G X Rc Rd Ra Rb 11 14 (T_ 19);
   SET md_G X Rb Rc Rd Ra 0 20 (T_ 20);
   SET md_G X Ra Rb Rc Rd 5 5 (T_ 21);
   SET md_G X Rd Ra Rb Rc 10 9 (T_ 22);
   SET md_G X Rc Rd Ra Rb 15 14 (T_ 23);
   SET md_G X Rb Rc Rd Ra 4 20 (T_ 24);
   SET md_G X Ra Rb Rc Rd 9 5 (T_ 25);
   SET md_G X Rd Ra Rb Rc 14 9 (T_ 26);
   SET md_G X Rc Rd Ra Rb 3 14 (T_ 27);
   SET md_G X Rb Rc Rd Ra 8 20 (T_ 28);
   SET md_G X Ra Rb Rc Rd 13 5 (T_ 29);
   SET md_G X Rd Ra Rb Rc 2 9 (T_ 30);
   SET md_G X Rc Rd Ra Rb 7 14 (T_ 31);
   SET md_G X Rb Rc Rd Ra 12 20 (T_ 32)].
Definition round_H (X : nat -> Z) : list (regs -> regs) :=
  [SET md_H X Ra Rb Rc Rd 5 4 (T_ 33);
   SET md_H X Rd Ra Rb Rc 8 11 (T_ 34);
   SET md_H X Rc Rd Ra Rb 11 16 (T_ 35);
   SET md_H X Rb Rc Rd Ra 14 23 (T_ 36);
   SET md_H X Ra Rb Rc Rd 1 4 (T_ 37);
   SET md_H X Rd Ra Rb Rc 4 11 (T_ 38);
   SET md_H X Rc Rd Ra Rb 7 16 (T_ 39);
   SET md_H X Rb Rc Rd Ra 10 23 (T_ 40);
   SET md_H X Ra Rb Rc Rd 13 4 (T_ 41);
   SET md_H X Rd Ra Rb Rc 0 11 (T_ 42);
   SET md_H X Rc Rd Ra Rb 3 16 (T_ 43);
   SET md_H X Rb Rc Rd Ra 6 23 (T_ 44);
   SET md_H X Ra Rb Rc Rd 9 4 (T_ 45);
   SET md_H X Rd Ra Rb Rc 12 11 (T_ 46);
   SET md_H X Rc Rd Ra Rb 15 16 (T_ 47);
   SET md_H X Rb Rc Rd Ra 2 23 (T_ 48)].
Definition round_I (X : nat -> Z) : list (regs -> regs) :=
  [SET md_I X Ra Rb Rc Rd 0 6 (T_ 49);
   SET md_I X Rd Ra Rb Rc 7 10 (T_ 50);
   SET md_I X Rc Rd Ra Rb 14 15 (T_ 51);
   SET md_I X Rb Rc Rd Ra 5 21 (T_ 52);
   SET md_I X Ra Rb Rc Rd 12 6 (T_ 53);
   SET md_I X Rd Ra Rb Rc 3 10 (T_ 54);
   SET md_I X Rc Rd Ra Rb 10 15 (T_ 55);
   SET md_I X Rb Rc Rd Ra 1 21 (T_ 56);
   SET md_I X Ra Rb Rc Rd 8 6 (T_ 57);
   SET md_I X Rd Ra Rb Rc 15 10 (T_ 58);
   SET md_I X Rc Rd Ra Rb 6 15 (T_ 59);
   SET md_I X Rb Rc Rd Ra 13 21 (T_ 60);
   SET md_I X Ra Rb Rc Rd 4 6 (T_ 61);
   SET md_I X Rd Ra Rb Rc 11 10 (T_ 62);
   SET md_I X Rc Rd Ra Rb 2 15 (T_ 63);
   SET md_I X Rb Rc Rd Ra 9 21 (T_ 64)].

(** 131-310 (md5_process).  [data]: the 64 bytes of the block, the words least
    significant byte first (158-172; the memcpy for unaligned data is not
    modelled). *)
Definition md5_process (abcd : regs) (data : list Z) : regs :=
  let byte i := default 0 (data !! i) in
  let X k := byte (4 * k)%nat + byte (4 * k + 1)%nat * 2 ^ 8 + byte (4 * k + 2)%nat * 2 ^ 16 + byte (4 * k + 3)%nat * 2 ^ 24 in
  let x := foldl (fun x f => f x) abcd (round_F X ++ round_G X ++ round_H X ++ round_I X) in
  let '(a, b, c, d) := x in let '(a0, b0, c0, d0) := abcd in
  (u32 (a0 + a), u32 (b0 + b), u32 (c0 + c), u32 (d0 + d)).

(** md5.h:67-71 (md5_state_t) *)
Record md5_state : Type := mkMd5 { md_count0 : Z; md_count1 : Z; md_abcd : regs; md_buf : list Z }.

(** 312-320 (md5_init).  [junk]: what is in the 64 bytes of buf before. *)
Definition md5_init (junk : list Z) : md5_state :=
  mkMd5 0 0 (0x67452301, Z.lxor T_MASK 0x10325476, Z.lxor T_MASK 0x67452301, 0x10325476) junk.

(** memcpy(buf + off, p, n) *)
Definition memcpy (buf : list Z) (off : nat) (p : list Z) (n : nat) : res (list Z) :=
  if decide (off + n <= length buf /\ n <= length p)%nat
  then Ok (take off buf ++ take n p ++ drop (off + n) buf) else Err OutOfBounds.

(** 352-353: whole blocks straight from the input; returns what is left *)
Fixpoint md5_blocks (fuel : nat) (abcd : regs) (p : list Z) : res (regs * list Z) :=
  if decide (64 <= length p)%nat
  then match fuel with
       | 0%nat => Err OutOfFuel
       | Datatypes.S f => md5_blocks f (md5_process abcd (take 64 p)) (drop 64 p)
       end
  else Ok (abcd, p).

(** 322-358 (md5_append).  nbytes is the length of [data]; nbytes << 3 is done on
    int, so it is undefined from 2^28 bytes on. *)
Definition md5_append (m : md5_state) (data : list Z) : res md5_state :=
  let nbytes := length data in
  if decide (2 ^ 28 <= Z.of_nat nbytes) then Err IntOverflow
  else
    let offset := Z.to_nat (Z.land (Z.shiftr (md_count0 m) 3) 63) in
    let nbits := Z.shiftl (Z.of_nat nbytes) 3 in
    if decide (nbytes = 0%nat) then Ok m
    else
      let c1 := u32 (md_count1 m + Z.shiftr (Z.of_nat nbytes) 29) in
      let c0 := u32 (md_count0 m + nbits) in
      let c1 := if decide (c0 < nbits) then u32 (c1 + 1) else c1 in
      let finish abcd buf p :=
        let! (abcd, p) := md5_blocks (length p) abcd p in
        let! buf := (if decide (length p = 0%nat) then Ok buf else memcpy buf 0 p (length p)) in
        Ok (mkMd5 c0 c1 abcd buf) in
      if decide (offset = 0%nat) then finish (md_abcd m) (md_buf m) data
      else
        let copy := if decide (64 < offset + nbytes)%nat then (64 - offset)%nat else nbytes in
        let! buf := memcpy (md_buf m) offset data copy in
        if decide (offset + copy < 64)%nat then Ok (mkMd5 c0 c1 (md_abcd m) buf)
        else finish (md5_process (md_abcd m) buf) buf (drop copy data).

(** byte i of the little endian words of a list *)
Definition byte_of (ws : list Z) (i : nat) : Z := Z.shiftr (default 0 (ws !! (i / 4)%nat)) (Z.of_nat (i mod 4) * 8) mod 2 ^ 8.

(** 360-381 (md5_finish) *)
Definition md5_pad : list Z := 0x80 :: replicate 63 0.
Definition md5_finish (m : md5_state) : res (list Z) :=
  let data := byte_of [md_count0 m; md_count1 m] <$> seq 0 8 in
  let npad := Z.land (u32 (55 - Z.shiftr (md_count0 m) 3)) 63 + 1 in
  let! m := md5_append m (take (Z.to_nat npad) md5_pad) in
  let! m := md5_append m data in
  let '(a, b, c, d) := md_abcd m in
  Ok (byte_of [a; b; c; d] <$> seq 0 16).

(** md5_append called for one piece after the other *)
Fixpoint md5_appends (m : md5_state) (ds : list (list Z)) : res md5_state :=
  match ds with
  | [] => Ok m
  | d :: ds => let! m := md5_append m d in md5_appends m ds
  end.

(** consistentHash.c:26-33 (md5_digest) *)
Definition md5_digest (junk : list Z) (key : list Z) : res (list Z) :=
  let! m := md5_append (md5_init junk) key in md5_finish m.
