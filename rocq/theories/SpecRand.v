(** Specification of sampling. *)
From stdpp Require Import gmap list numbers fin_maps.
From Verif Require Import Base Driver.
Open Scope Z_scope.

(** The ids obtained by drawing [n] times from table [T], starting with
    generator state [seed], and the generator state afterwards. *)
Fixpoint samples (draw : Z -> gmap Z cobj -> Z * Z) (n : nat) (seed : Z) (T : gmap Z cobj) : list Z * Z :=
  match n with
  | O => ([], seed)
  | Datatypes.S k =>
      let '(id, seed1) := draw seed T in
      let '(l, seed2) := samples draw k seed1 T in (id :: l, seed2)
  end.

(** [draw] returns an object of the table, whatever the generator state. *)
Definition draws_residents (draw : Z -> gmap Z cobj -> Z * Z) : Prop :=
  forall seed T, T <> ∅ -> is_Some (T !! (draw seed T).1).

(** Client programs in which get is the only call that uses or inserts
    objects (find only looks). *)
Definition get_uses (md : Z) (c : call) : Prop :=
  match c with
  | CGet r => req_ok md r
  | CFind _ u => u = false
  | CRemove _ | CEvict _ => True
  | CInsert _ | CToEvict _ => False
  end.
(** Client programs without to_evict. *)
Definition no_to_evict (md : Z) (c : call) : Prop :=
  match c with
  | CGet r | CInsert r => req_ok md r
  | CFind _ _ | CRemove _ | CEvict _ => True
  | CToEvict _ => False
  end.
(** Programs in which the cache evicts inside get only and in which find only
    looks. *)
Definition get_evicts (md : Z) (c : call) : Prop :=
  match c with
  | CGet r | CInsert r => req_ok md r
  | CFind _ u => u = false
  | CRemove _ => True
  | CEvict _ | CToEvict _ => False
  end.
(** Traces: programs that only get. *)
Definition gets_only (md : Z) (c : call) : Prop :=
  match c with CGet r => req_ok md r | _ => False end.
