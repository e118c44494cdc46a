(** Objects of a trace that were requested once. *)
From stdpp Require Import gmap list numbers.
From Verif Require Import Base.
Open Scope Z_scope.

Definition times (x : Z) (tr : list Z) : nat := length (filter (fun y => y = x) tr).
Definition objs (tr : list Z) : gset Z := list_to_set tr.
Definition once (tr : list Z) : gset Z := filter (fun x => times x tr = 1%nat) (objs tr).
