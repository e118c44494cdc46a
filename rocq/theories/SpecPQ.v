(** Specification of a priority queue with named nodes: a finite map from
    nodes to priorities. *)
From stdpp Require Import gmap list numbers fin_maps.
From Verif Require Import Base Driver ModelPQ.
Open Scope Z_scope.

Inductive pq_call : Type :=
| PInsert (x p : Z) | PChange (x p : Z) | PRemove (x : Z) | PPop | PPeek | PSize.
Inductive pq_obs : Type := PUnit | PNode (x : option Z) | PNum (n : Z).

(** Client rules: a node is inserted once, and only nodes that are in the
    queue are changed or removed. *)
Definition pq_allowed (m : gmap Z Z) (c : pq_call) : Prop :=
  match c with
  | PInsert x _ => m !! x = None
  | PChange x _ | PRemove x => is_Some (m !! x)
  | _ => True
  end.

Definition is_max (m : gmap Z Z) (x : Z) : Prop :=
  exists p, m !! x = Some p /\ forall y py, m !! y = Some py -> py <= p.

Inductive pq_step : gmap Z Z -> pq_call -> pq_obs -> gmap Z Z -> Prop :=
| S_insert m x p : pq_step m (PInsert x p) PUnit (<[x := p]> m)
| S_change m x p : pq_step m (PChange x p) PUnit (<[x := p]> m)
| S_remove m x : pq_step m (PRemove x) PUnit (delete x m)
| S_pop m x : is_max m x -> pq_step m PPop (PNode (Some x)) (delete x m)
| S_pop_empty : pq_step ∅ PPop (PNode None) ∅
| S_peek m x : is_max m x -> pq_step m PPeek (PNode (Some x)) m
| S_peek_empty : pq_step ∅ PPeek (PNode None) ∅
| S_size m : pq_step m PSize (PNum (Z.of_nat (size m))) m.

(** What the code does for a call; removed and popped nodes are freed by the
    caller, as Belady.c and Size.c do.  pqueue_size: pqueue.c:96 (size - 1). *)
Definition pq_exec (q : pq) (c : pq_call) : res (pq * pq_obs) :=
  match c with
  | PInsert x p => let! q := pq_insert q x p in Ok (q, PUnit)
  | PChange x p => let! q := pq_change q x p in Ok (q, PUnit)
  | PRemove x => let! q := pq_remove q x in Ok (pq_free q x, PUnit)
  | PPop => let! (q, o) := pq_pop q in
      Ok (match o with Some x => pq_free q x | None => q end, PNode o)
  | PPeek => let! o := pq_peek q in Ok (q, PNode o)
  | PSize => Ok (q, PNum (Z.of_nat (pq_sz q) - 1))
  end.

(** [q] behaves as the priority map [m] for ever. *)
CoInductive pq_refines (q : pq) (m : gmap Z Z) : Prop := {
  pq_ref : forall c, pq_allowed m c ->
    exists q' o m', pq_exec q c = Ok (q', o) /\ pq_step m c o m' /\ pq_refines q' m'
}.
