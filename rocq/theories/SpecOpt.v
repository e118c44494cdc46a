(** Specification for Belady's optimality: what an arbitrary replacement
    strategy is, and what correct next-access annotations are. *)
From stdpp Require Import gmap list numbers sets fin_sets.
From Verif Require Import Base Driver.
Open Scope Z_scope.

(** [strategy k C xs n]: starting with contents [C], some strategy that never
    holds more than [k] objects serves the requests [xs] with [n] misses.  It
    may drop whatever it likes whenever it likes, and may look ahead; a missed
    object must be brought in, and nothing else may be. *)
Inductive strategy (k : nat) : gset Z -> list Z -> nat -> Prop :=
| st_end C : strategy k C [] 0
| st_hit C x xs C' n : x ∈ C -> C' ⊆ C -> strategy k C' xs n -> strategy k C (x :: xs) n
| st_miss C x xs C' n : x ∉ C -> x ∈ C' -> C' ⊆ {[x]} ∪ C -> (size C' <= k)%nat ->
    strategy k C' xs n -> strategy k C (x :: xs) (S n).

(** The annotation of request [i] is the (absolute) index of the next request
    for the same object, or anything past the end of the trace when there is
    none ([off] is the index of the first request). *)
Definition annotated (off : Z) (rs : list req) : Prop :=
  forall i r, rs !! i = Some r ->
    (exists j r', (i < j)%nat /\ rs !! j = Some r' /\ r_id r' = r_id r /\ r_next r = off + Z.of_nat j /\
       forall l r'', (i < l < j)%nat -> rs !! l = Some r'' -> r_id r'' <> r_id r) \/
    ((forall l r'', (i < l)%nat -> rs !! l = Some r'' -> r_id r'' <> r_id r) /\
     off + Z.of_nat (length rs) <= r_next r).

Fixpoint misses (os : list obs) : nat :=
  match os with
  | [] => 0%nat
  | OBool false :: os => S (misses os)
  | _ :: os => misses os
  end.
