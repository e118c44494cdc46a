(** What a trace filtered through an LRU cache consists of, by stack distances. *)
From stdpp Require Import gmap list numbers.
From Verif Require Import Base ModelReader SpecLRUStack.
Open Scope Z_scope.

(** The requests of [l], after requests for the objects [before], whose object was
    not among the [n] last requested ones. *)
Fixpoint lru_filtered (n : nat) (before : list Z) (l : list treq) : list treq :=
  match l with
  | [] => []
  | q :: l' =>
      match stack_distance before (fget q F_ID) with
      | Some d => if decide (d < n)%nat then [] else [q]
      | None => [q]
      end ++ lru_filtered n (before ++ [fget q F_ID]) l'
  end.

(** [b] is request [a] as a filtered trace tells it. *)
Definition told (a b : treq) : Prop :=
  fget b F_TIME = fget a F_TIME /\ fget b F_ID = fget a F_ID /\ fget b F_SIZE = fget a F_SIZE.

(** The ranges of the fields of the output records. *)
Definition fits (ts : Z) (q : treq) : Prop :=
  0 <= fget q F_TIME - ts < 2 ^ 32 /\ 0 <= fget q F_ID < 2 ^ 64 /\ 0 <= fget q F_SIZE < 2 ^ 32.
