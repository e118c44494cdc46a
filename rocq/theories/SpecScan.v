(** Scans in a trace.  A request is the place of the next request for its object. *)
From stdpp Require Import gmap list numbers.
From Verif Require Import Base.
Open Scope Z_scope.

(** the next request for the object of request [v] (counted from 0) *)
Definition next_of (tr : list Z) (v : Z) : Z := default (-1) (tr !! Z.to_nat v).
(** is there one? -1 and INT64_MAX say no *)
Definition comes_back (tr : list Z) (v : Z) : Prop := next_of tr v <> -1 /\ next_of tr v <> 2 ^ 63 - 1.
(** The requests [g] are a scan: they come closely after one of them, their objects
    are requested again, and the next requests are as close together. *)
Definition scan (tr : list Z) (diff : Z) (g : list Z) : Prop :=
  NoDup g /\ exists s, s ∈ g /\ forall v, v ∈ g ->
    s <= v <= s + diff + Z.of_nat (length g) /\
    Z.abs (next_of tr v - next_of tr s) <= diff + Z.of_nat (length g) /\
    0 <= v < Z.of_nat (length tr) /\ comes_back tr v.
