(** bin/customized/SOSP23/oneHit/oneHit.cpp (bin/dep/traceOneHit/oneHit.cpp is the same):
    the part of the objects that were requested once, for every 100 objects.
    A trace is the list of its object ids.  Simplified: a ratio is kept as the pair of
    its numbers; the text printed is not modelled. *)
From stdpp Require Import gmap list numbers fin_maps.
From Verif Require Import Base.
Open Scope Z_scope.

(** oneHit.cpp:22-29 *)
Record onehit : Type := mkOne { oh_freq : gmap Z Z; oh_n : Z; oh_last : Z; oh_vec : list (Z * Z) }.
Definition oh0 : onehit := mkOne ∅ 0 0 [].

(** oneHit.cpp:31-40: the counts, of 32 bits *)
Definition oh_count (s : onehit) (x : Z) : onehit :=
  match oh_freq s !! x with
  | None => mkOne (<[x := 1]> (oh_freq s)) (oh_n s + 1) (oh_last s) (oh_vec s)
  | Some k => let k := u32 (k + 1) in
              mkOne (<[x := k]> (oh_freq s)) (if decide (k = 2) then oh_n s - 1 else oh_n s) (oh_last s) (oh_vec s)
  end.
(** oneHit.cpp:42-49; ERROR aborts *)
Definition oh_add (s : onehit) (x : Z) : res onehit :=
  let s := oh_count s x in
  let n := Z.of_nat (size (oh_freq s)) in
  if decide (n mod 100 = 0 /\ n <> oh_last s) then
    let vec := oh_vec s ++ [(oh_n s, n)] in
    if decide (Z.of_nat (length vec) <> n / 100) then Err AssertFail
    else Ok (mkOne (oh_freq s) (oh_n s) n vec)
  else Ok s.
Fixpoint oh_run (s : onehit) (tr : list Z) : res onehit :=
  match tr with
  | [] => Ok s
  | x :: tr => let! s := oh_add s x in oh_run s tr
  end.
(** oneHit.cpp:21-66 (cal_one_hit): the ratios written, and the first and the last of
    them, which are printed (63-65; an empty vector is not checked) *)
Definition cal_one_hit (tr : list Z) : res (list (Z * Z) * (Z * Z) * (Z * Z)) :=
  let! s := oh_run oh0 tr in
  match head (oh_vec s), last (oh_vec s) with
  | Some a, Some b => Ok (oh_vec s, a, b)
  | _, _ => Err OutOfBounds
  end.
