(** C68: md5.c of the cache cluster. *)
From stdpp Require Import list numbers.
From Verif Require Import Base ModelMD5 SpecMD5 MD5Facts.
Open Scope Z_scope.

(** However the message is cut into pieces (each below 2^28 bytes), and whatever
    was in the buffer before, the digest is the MD5 of the whole message. *)
Theorem C68_md5 junk ds : length junk = 64%nat -> Forall (fun d => Z.of_nat (length d) < 2 ^ 28) ds ->
  exists s, md5_appends (md5_init junk) ds = Ok s /\ md5_finish s = Ok (rfc_md5 (mjoin ds)).
Proof.
  intros Hj HF. destruct (appends_ok ds (md5_init junk) [] (init_holds _ Hj) HF) as (s & E & Hs).
  exists s. split; [exact E|]. by apply finish_md5.
Qed.

Theorem C68_digest junk key : length junk = 64%nat -> Z.of_nat (length key) < 2 ^ 28 -> md5_digest junk key = Ok (rfc_md5 key).
Proof.
  intros Hj Hk. unfold md5_digest. destruct (append_ok (md5_init junk) [] key (init_holds _ Hj) Hk) as (s & -> & Hs). cbn [rbind].
  by apply finish_md5.
Qed.

(** The digest has 16 bytes. *)
Theorem C68_sixteen_bytes m : length (rfc_md5 m) = 16%nat /\ Forall (fun b => 0 <= b < 256) (rfc_md5 m).
Proof.
  unfold rfc_md5. destruct (rfc_blocks _ _) as [[[a b] c] d]. split; [reflexivity|].
  unfold le. cbn [seq fmap list_fmap app]. repeat (apply Forall_cons_2; [apply Z.mod_pos_bound; lia|]). apply Forall_nil_2.
Qed.

(** Full claim: pieces of any length.  Refuted: the number of bits of a piece is
    computed in an int. *)
Theorem C68_large_piece_refuted s d : 2 ^ 28 <= Z.of_nat (length d) -> md5_append s d = Err IntOverflow.
Proof. intros H. unfold md5_append. by rewrite decide_True. Qed.

(** The test suite of RFC 1321, A.5: "", "a", "abc", "message digest". *)
Example C68_rfc_suite :
  rfc_md5 [] = [0xd4; 0x1d; 0x8c; 0xd9; 0x8f; 0x00; 0xb2; 0x04; 0xe9; 0x80; 0x09; 0x98; 0xec; 0xf8; 0x42; 0x7e] /\
  rfc_md5 [97] = [0x0c; 0xc1; 0x75; 0xb9; 0xc0; 0xf1; 0xb6; 0xa8; 0x31; 0xc3; 0x99; 0xe2; 0x69; 0x77; 0x26; 0x61] /\
  rfc_md5 [97; 98; 99] = [0x90; 0x01; 0x50; 0x98; 0x3c; 0xd2; 0x4f; 0xb0; 0xd6; 0x96; 0x3f; 0x7d; 0x28; 0xe1; 0x7f; 0x72] /\
  rfc_md5 [109; 101; 115; 115; 97; 103; 101; 32; 100; 105; 103; 101; 115; 116] =
    [0xf9; 0x6b; 0x69; 0x7d; 0x7c; 0xb7; 0x93; 0x8d; 0x52; 0x5a; 0x2f; 0x31; 0xaa; 0xf1; 0x61; 0xd0].
Proof. vm_compute. done. Qed.

(** 80 digits in pieces of 3, 70, 0 and 7 bytes: two blocks and a padded one *)
Example C68_pieces_ex :
  let m := mjoin (replicate 8 [49; 50; 51; 52; 53; 54; 55; 56; 57; 48]) in
  let ds := [take 3 m; take 70 (drop 3 m); []; drop 73 m] in
  mjoin ds = m /\ (let! s := md5_appends (md5_init (replicate 64 255)) ds in md5_finish s) =
    Ok [0x57; 0xed; 0xf4; 0xa2; 0x2b; 0xe3; 0xc9; 0x55; 0xac; 0x49; 0xda; 0x2e; 0x21; 0x07; 0xb6; 0x7a].
Proof. vm_compute. done. Qed.
