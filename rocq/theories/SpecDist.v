(** Reuse distances of a trace, by positions only. *)
From stdpp Require Import gmap list numbers.
Open Scope Z_scope.

(** [p] is the position of the request for the same id that precedes request [i] *)
Definition prev_at (ids : list Z) (i p : nat) : Prop :=
  (p < i)%nat /\ exists x, ids !! i = Some x /\ ids !! p = Some x /\
    forall j, (p < j < i)%nat -> ids !! j <> Some x.
(** request [i] is the first for its id / the last for its id *)
Definition first_at (ids : list Z) (i : nat) : Prop :=
  exists x, ids !! i = Some x /\ forall j, (j < i)%nat -> ids !! j <> Some x.
Definition last_at (ids : list Z) (i : nat) : Prop :=
  exists x, ids !! i = Some x /\ forall j, (i < j)%nat -> ids !! j <> Some x.
(** how many different ids are requested strictly between positions [p] and [i] *)
Definition distinct_between (ids : list Z) (p i : nat) : nat :=
  size (list_to_set (take (i - S p) (drop (S p) ids)) : gset Z).
