(** The distribution of size changes of the trace analyzer:
    traceAnalyzer/experimental/sizeChange.cpp/.h, fed by the part of analyzer.cpp that
    keeps the size of every object.  Simplified: quotients of doubles are exact (the
    bounds 0.0001 etc. as well), the counters are unbounded, and of the printed text
    only labels and numbers are modelled. *)
From stdpp Require Import gmap list numbers fin_maps.
From Verif Require Import Base ModelAnalyzer.
Open Scope Z_scope.

(** sizeChange.h:146-153, 157-165: the labels.  Relative ones are in 1/10000:
    "0.0001" is [At 1], "<-0.1" is [Below (-1000)]. *)
Inductive label : Type := At (z : Z) | Below (z : Z) | Above (z : Z).
Definition rel_labels : list label :=
  [Below (-1000); At (-1000); At (-800); At (-500); At (-200); At (-100); At (-80); At (-50); At (-20); At (-10); At (-8); At (-5);
   At (-2); At (-1); At 0; At 1; At 2; At 5; At 8; At 10; At 20; At 50; At 80; At 100; At 200; At 500; At 800; At 1000; Below 1000].
Definition abs_labels : list label :=
  [Below (-16384); At (-16384); At (-8192); At (-4096); At (-2048); At (-1024); At (-512); At (-256); At (-128); At (-64); At (-32);
   At (-16); At (-8); At (-4); At (-2); At (-1); At 0; At 1; At 2; At 4; At 8; At 16; At 32; At 64; At 128; At 256; At 512; At 1024;
   At 2048; At 4096; At 8192; At 16384; Above 16384].
Definition n_bins_relative : Z := 14 * 2 + 1.
Definition n_bins_absolute : Z := 16 * 2 + 1.

(** sizeChange.cpp:26-36: how often [change] is halved until it is 0 *)
Fixpoint halvings (fuel : nat) (change : Z) : res Z :=
  match fuel with
  | O => Err OutOfFuel
  | S k => if decide (change > 0) then let! n := halvings k (change / 2) in Ok (n + 1) else Ok 0
  end.
(** sizeChange.cpp:19-45 (absolute_change_to_array_pos); negating INT_MIN overflows *)
Definition abs_pos (d : Z) : res Z :=
  let mid := Z.quot n_bins_absolute 2 in
  if decide (d = 0) then Ok mid
  else
    let! pos := if decide (d > 0) then let! n := halvings 33 d in Ok (mid + n)
                else if decide (d = - 2 ^ 31) then Err IntOverflow
                else let! n := halvings 33 (- d) in Ok (mid - n) in
    Ok (if decide (pos >= n_bins_absolute) then n_bins_absolute - 1 else if decide (pos < 0) then 0 else pos).

(** sizeChange.h:31-98: the bounds that follow each other, in 1/10000 *)
Definition rel_bounds : list Z := [1; 2; 5; 8; 10; 20; 50; 80; 100; 200; 500; 800; 1000].
(** 1 + the number of bounds passed before one is greater than [d]/[p], [p] > 0 *)
Fixpoint bounds_passed (bs : list Z) (d p : Z) : Z :=
  match bs with
  | [] => 1
  | b :: bs => if decide (d * 10000 < b * p) then 1 else bounds_passed bs d p + 1
  end.
(** sizeChange.h:31-98 (relative_change_to_array_pos) of [d]/[p].  With [p] = 0 the
    quotient is an infinity or not a number. *)
Definition rel_pos (d p : Z) : Z :=
  let mid := Z.quot n_bins_relative 2 in
  if decide (p = 0) then
    if decide (d > 0) then mid - 14 else if decide (d < 0) then mid + 1 else mid + 14
  else if decide (d * 100000 < p /\ d * 100000 > - p) then mid
  else if decide (d > 0) then mid - bounds_passed rel_bounds d p
  else mid + bounds_passed rel_bounds d p.

(** sizeChange.h:137-156; [sc_size] is the obj_size of obj_map_ (struct.h:15, 32 bits) *)
Record schg : Type := mkSc { sc_n : Z; sc_rel : Z -> Z; sc_abs : Z -> Z; sc_size : gmap Z Z }.
Definition sc0 : schg := mkSc 0 (fun _ => 0) (fun _ => 0) ∅.
Definition bump (f : Z -> Z) (p : Z) : Z -> Z := fun p' => if decide (p' = p) then f p' + 1 else f p'.

(** sizeChange.cpp:47-69 (add_req) for a request with the sizes [prev] and [size];
    the difference of the two ints may overflow *)
Definition sc_overwrite (s : schg) (prev size : Z) : res schg :=
  let d := i32 size - i32 prev in
  if decide (- 2 ^ 31 <= d < 2 ^ 31) then
    let! pa := abs_pos d in
    Ok (mkSc (sc_n s) (bump (sc_rel s) (rel_pos d prev)) (bump (sc_abs s) pa) (sc_size s))
  else Err IntOverflow.
(** analyzer.cpp:121-122, 126, 139, 148-153, 166-167, 211-213: one request *)
Definition sc_add (s : schg) (q : areq) : res schg :=
  let s' := mkSc (sc_n s + 1) (sc_rel s) (sc_abs s) (<[a_id q := u32 (a_size q)]> (sc_size s)) in
  match sc_size s !! a_id q with
  | None => Ok s'
  | Some prev =>
      if decide (a_op q = OP_SET \/ a_op q = OP_REPLACE \/ a_op q = OP_CAS) then sc_overwrite s' prev (a_size q) else Ok s'
  end.
Fixpoint sc_run (s : schg) (tr : list areq) : res schg :=
  match tr with
  | [] => Ok s
  | q :: tr => let! s := sc_add s q in sc_run s tr
  end.
