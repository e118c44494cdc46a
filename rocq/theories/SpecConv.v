(** What a converted trace should say (C43), on plain lists. *)
From stdpp Require Import gmap list numbers.
Open Scope Z_scope.

(** [v] is the reference number of the next request for the object of request
    [i]: requests are numbered from 1, and -1 means that there is none. *)
Definition next_ref (ids : list Z) (i : nat) (v : Z) : Prop :=
  exists x, ids !! i = Some x /\
    ((exists j, (i < j)%nat /\ ids !! j = Some x /\
        (forall k, (i < k < j)%nat -> ids !! k <> Some x) /\ v = Z.of_nat j + 1) \/
     ((forall k, (i < k)%nat -> ids !! k <> Some x) /\ v = -1)).

(** [s] is the size given in the first request for object [x]. *)
Definition first_size (ids sizes : list Z) (x s : Z) : Prop :=
  exists j, ids !! j = Some x /\ sizes !! j = Some s /\
    forall k, (k < j)%nat -> ids !! k <> Some x.

(** The sum over all objects of the size in the last request for the object. *)
Fixpoint last_sizes (l : list (Z * Z)) : Z :=
  match l with
  | [] => 0
  | (x, s) :: l' => (if decide (x ∈ map fst l') then 0 else s) + last_sizes l'
  end.

Definition sum_z (l : list Z) : Z := foldr Z.add 0 l.
