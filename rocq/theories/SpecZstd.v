(** What a reader of compressed records should deliver. *)
From stdpp Require Import list numbers.
Open Scope Z_scope.

(** A streaming decompressor, as zstd.h describes ZSTD_decompressStream: from a
    state, some input bytes and room for output bytes it computes the next state,
    how many input bytes it consumed, and the bytes it wrote. *)
Definition decoder (D : Type) : Type := D -> list Z -> nat -> D * nat * list Z.

(** [R d inp out]: in state [d], with the compressed bytes [inp] still to be fed,
    the bytes [out] are still to come.  A call consumes and writes no more than
    it may, writes the next bytes, and with input and room it does something. *)
Record decodes {D} (dec : decoder D) (R : D -> list Z -> list Z -> Prop) : Prop := {
  dc_step : forall d inp more out room d' k p, R d (inp ++ more) out -> inp <> [] -> dec d inp room = (d', k, p) ->
    (k <= length inp)%nat /\ (length p <= room)%nat /\ exists out', out = p ++ out' /\ R d' (drop k inp ++ more) out';
  dc_progress : forall d inp more out room d' k p, R d (inp ++ more) out -> inp <> [] -> (0 < room)%nat -> dec d inp room = (d', k, p) ->
    (0 < k)%nat \/ p <> []
}.
(** The decoder holds nothing back once it has consumed all input. *)
Definition prompt {D} (R : D -> list Z -> list Z -> Prop) : Prop := forall d out, R d [] out -> out = [].

(** the [i]-th record of [n] bytes *)
Definition record (n : nat) (plain : list Z) (i : nat) : list Z := take n (drop (i * n) plain).
(** [j] records, then end of file *)
Definition delivered (n : nat) (plain : list Z) (j m : nat) : list (option (list Z)) :=
  ((fun i => Some (record n plain i)) <$> seq 0 j) ++ replicate (m - j) None.
