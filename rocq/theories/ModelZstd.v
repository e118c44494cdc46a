(** Reading zstd-compressed binary traces (traceReader/generalReader/zstdReader.c,
    traceReader/customizedReader/binaryUtils.h, reader.c), SUPPORT_ZSTD_TRACE on.
    zstd_reader_read_line, which nothing calls, is not modelled, nor are read
    errors of the file. *)
From stdpp Require Import list numbers.
From Verif Require Import Base SpecZstd.
Open Scope Z_scope.

Section Zstd.
  Context {D : Type}.
  (** ZSTD_decompressStream; zstdReader.c:95-102 only prints a warning for an error
      code, so that an error is a call without effect. *)
  Context (dec : decoder D).
  (** zstdReader.c:27, 33: buff_in_sz and buff_out_sz *)
  Context (in_sz out_sz : nat).

  (** zstdReader.h:12-26 (zstd_reader).  [z_all] is the file, [z_file] the part of it
      after the file position, [z_in] the bytes of the input buffer from input.pos
      to input.size, [z_buf] the bytes of buff_out up to output.pos, [z_rp]
      buff_out_read_pos, [z_eof] whether status is MY_EOF. *)
  Record zr : Type := mkZ { z_d : D; z_all : list Z; z_file : list Z; z_in : list Z; z_buf : list Z; z_rp : nat; z_eof : bool }.

  (** zstdReader.c:18-45 (create_zstd_reader) *)
  Definition z_create (d : D) (file : list Z) : zr := mkZ d file file [] [] 0 false.

  (** zstdReader.c:54-72 (_read_from_file) *)
  Definition z_read_file (s : zr) : zr * nat :=
    let b := take in_sz (z_file s) in
    (mkZ (z_d s) (z_all s) (drop in_sz (z_file s)) b (z_buf s) (z_rp s)
       (if decide (length b < in_sz)%nat then true else z_eof s), length b).

  (** zstdReader.c:74-106 (_decompress_from_buff); true stands for OK, false for
      MY_EOF *)
  Definition z_decompress (s : zr) : zr * bool :=
    let left := drop (z_rp s) (z_buf s) in
    let s := mkZ (z_d s) (z_all s) (z_file s) (z_in s) left 0 (z_eof s) in
    let '(s, more) := match z_in s with
                      | [] => let '(s, n) := z_read_file s in (s, negb (Nat.eqb n 0))
                      | _ => (s, true)
                      end in
    if more : bool then
      let '(d, k, p) := dec (z_d s) (z_in s) (out_sz - length (z_buf s))%nat in
      (mkZ d (z_all s) (z_file s) (drop k (z_in s)) (z_buf s ++ p) (z_rp s) (z_eof s), true)
    else (s, false).

  (** zstdReader.c:173-202 (zstd_reader_read_bytes).  The loop has no bound in C;
      here it runs on [fuel].  The result: the bytes at data_start, None for 0. *)
  Fixpoint z_read_bytes (fuel : nat) (s : zr) (n : nat) : res (zr * option (list Z)) :=
    if decide (length (z_buf s) < z_rp s + n)%nat then
      match fuel with
      | O => Err OutOfFuel
      | S fuel => let '(s, ok) := z_decompress s in if ok : bool then z_read_bytes fuel s n else Ok (s, None)
      end
    else Ok (mkZ (z_d s) (z_all s) (z_file s) (z_in s) (z_buf s) (z_rp s + n)%nat (z_eof s), Some (take n (drop (z_rp s) (z_buf s)))).

  (** binaryUtils.h:27-39 (_read_bytes_zstd): ERROR aborts. *)
  Definition z_read_one (fuel : nat) (s : zr) (item : nat) : res (zr * option (list Z)) :=
    let! (s, b) := z_read_bytes fuel s item in
    match b with
    | Some b => Ok (s, Some b)
    | None => if z_eof s then Ok (s, None) else Err AssertFail
    end.

  (** reader.c:565-568 (reset_reader): the file position only *)
  Definition z_reset (s : zr) : zr := mkZ (z_d s) (z_all s) (z_all s) (z_in s) (z_buf s) (z_rp s) (z_eof s).

  (** [m] records read in turn *)
  Fixpoint z_reads (fuel m : nat) (s : zr) (item : nat) : res (zr * list (option (list Z))) :=
    match m with
    | O => Ok (s, [])
    | S m =>
        let! (s, b) := z_read_one fuel s item in
        let! (s, bs) := z_reads fuel m s item in
        Ok (s, b :: bs)
    end.
End Zstd.
Arguments zr : clear implicits.
