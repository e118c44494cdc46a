(** Specifications for the caches that consult the future. *)
From stdpp Require Import gmap list numbers fin_maps.
From Verif Require Import Base Driver Abs.
Open Scope Z_scope.

(** Client programs made of get, find, insert and remove. *)
Definition future_call (md : Z) (c : call) : Prop :=
  match c with
  | CGet r | CInsert r => req_ok md r
  | CFind _ _ | CRemove _ => True
  | CEvict _ | CToEvict _ => False
  end.

(** How many gets a program made, and how many of them missed. *)
Definition is_get (c : call) : Z := match c with CGet _ => 1 | _ => 0 end.
Definition is_missed (c : call) (o : obs) : Z :=
  match c, o with CGet _, OBool false => 1 | _, _ => 0 end.
Fixpoint n_gets (cs : list call) : Z :=
  match cs with
  | [] => 0
  | c :: cs => is_get c + n_gets cs
  end.
Fixpoint n_missed (cs : list call) (os : list obs) : Z :=
  match cs, os with
  | c :: cs, o :: os => is_missed c o + n_missed cs os
  | _, _ => 0
  end.

Section Spec.
  Context (thresh : Z -> Z -> Z -> Z) (cap md : Z).

  (** The object is due again within the horizon, so that it should stay:
      [n] requests so far, [nm] of them missed before this one. *)
  Definition stays (n nm : Z) (e : entry) : Prop := e_next e - n <= thresh cap nm n.

  Global Instance stays_dec n nm e : Decision (stays n nm e).
  Proof. unfold stays. apply _. Defined.

  (** The bytes of the objects that should stay. *)
  Definition staying (n nm : Z) (m : gmap Z entry) : Z :=
    msum md (filter (fun x => stays n nm x.2) m).

  (** Only objects that need not stay are evicted. *)
  Definition pol_future (n nm : Z) : policy := fun m v =>
    forall e, m !! v = Some e -> ~ stays n nm e.

  (** A run of the abstract cache whose policy is the one in force at each
      call: [n] gets so far, [nm] of them missed. *)
  Inductive future_run : Z -> Z -> abs -> list call -> list obs -> abs -> Prop :=
  | fut_nil n nm a : future_run n nm a [] [] a
  | fut_cons n nm a c o a' cs os a'' :
      abs_step (pol_future (n + is_get c) nm) cap md a c o a' ->
      future_run (n + is_get c) (nm + is_missed c o) a' cs os a'' ->
      future_run n nm a (c :: cs) (o :: os) a''.
End Spec.

(** ** BeladySize *)

(** The request says that its object is never requested again. *)
Definition last_use (r : req) : Prop := r_next r = -1 \/ r_next r = 2 ^ 63 - 1.
Global Instance last_use_dec r : Decision (last_use r).
Proof. unfold last_use. apply _. Defined.

(** The object that leaves after the call because this was its last use. *)
Definition leaves (c : call) (m : gmap Z entry) (id : Z) : Prop :=
  match c with
  | CGet r | CFind r true => id = r_id r /\ last_use r
  | CInsert r => id = r_id r /\ last_use r /\ m !! id = None
  | _ => False
  end.

(** Victims are not overdue: size times distance to the next request is not
    negative. *)
Definition pol_due (n : Z) : policy := fun m v =>
  forall e, m !! v = Some e -> 0 <= e_size e * (e_next e - n).

(** A run of the abstract cache in which an object leaves after its last use:
    [n] gets so far. *)
Inductive leaving_run (cap : Z) : Z -> abs -> list call -> list obs -> abs -> Prop :=
| lv_nil n a : leaving_run cap n a [] [] a
| lv_cons n a c o t1 m1 ad1 m2 cs os a'' :
    abs_step (pol_due (n + is_get c)) cap 0 a c o (mkAbs t1 m1 ad1) ->
    (forall id, leaves c (a_m a) id -> m2 !! id = None) ->
    (forall id, ~ leaves c (a_m a) id -> m2 !! id = m1 !! id) ->
    leaving_run cap (n + is_get c) (mkAbs t1 m2 ad1) cs os a'' ->
    leaving_run cap n a (c :: cs) (o :: os) a''.

(** A trace whose annotations are right: each request is either the last one
    for its object or names a position at which the object is requested again. *)
Definition truthful (rs : list req) : Prop :=
  forall i r, rs !! i = Some r -> last_use r \/
    exists j r', (i < j)%nat /\ rs !! j = Some r' /\ r_id r' = r_id r /\ Z.of_nat j <= r_next r.

(** ** Sieve_Belady *)
Section Sieve.
  Context (thresh : Z -> Z -> Z -> Z) (cap md : Z).

  (** A new object that is not due within the horizon is not kept. *)
  Definition refused (n nm : Z) (c : call) (m : gmap Z entry) (id : Z) : Prop :=
    match c with
    | CGet r | CInsert r => id = r_id r /\ m !! id = None /\ ~ r_next r - n <= thresh cap nm n
    | _ => False
    end.

  (** The victim need not stay, unless every object should. *)
  Definition pol_future_or_all (n nm : Z) : policy := fun m v =>
    pol_future thresh cap n nm m v \/ forall id e, m !! id = Some e -> stays thresh cap n nm e.

  Inductive refusing_run : Z -> Z -> abs -> list call -> list obs -> abs -> Prop :=
  | rf_nil n nm a : refusing_run n nm a [] [] a
  | rf_cons n nm a c o t1 m1 ad1 m2 cs os a'' :
      abs_step (pol_future_or_all (n + is_get c) nm) cap md a c o (mkAbs t1 m1 ad1) ->
      (forall id, refused (n + is_get c) nm c (a_m a) id -> m2 !! id = None) ->
      (forall id, ~ refused (n + is_get c) nm c (a_m a) id -> m2 !! id = m1 !! id) ->
      refusing_run (n + is_get c) (nm + is_missed c o) (mkAbs t1 m2 ad1) cs os a'' ->
      refusing_run n nm a (c :: cs) (o :: os) a''.
End Sieve.

(** get, find, insert, remove and evict. *)
Definition sieve_call (md : Z) (c : call) : Prop :=
  match c with
  | CGet r | CInsert r => req_ok md r
  | CFind _ _ | CRemove _ | CEvict _ => True
  | CToEvict _ => False
  end.
