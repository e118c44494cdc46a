(** Specification of the two sweeping algorithms, Clock and Sieve, on what can
    be seen of the queue: the objects oldest first, each with its counter. *)
From stdpp Require Import gmap list numbers fin_maps.
From Verif Require Import Base Driver ModelQueue.
Open Scope Z_scope.

Notation ring := (list (Z * Z)).

Definition ring_ids (l : ring) : list Z := map fst l.
(** every counter of [l] lowered by [k] *)
Definition ring_lower (k : Z) (l : ring) : ring := map (fun p => (p.1, p.2 - k)) l.
(** counter of [id] changed by [f] *)
Definition ring_at (id : Z) (f : Z -> Z) (l : ring) : ring :=
  map (fun p => if decide (p.1 = id) then (p.1, f p.2) else p) l.
Definition ring_drop (id : Z) (l : ring) : ring := filter (fun p => p.1 <> id) l.

(** Clock (second chance): the sweep starts at the oldest object.  The victim
    is the first object with the smallest counter [k]; everybody has lost [k]
    chances, and those passed over in the last round one more; these are now
    the newest. *)
Definition clock_evict_spec (l : ring) (v : Z) (l' : ring) : Prop :=
  exists l1 k l2, l = l1 ++ (v, k) :: l2 /\
    (forall p, p ∈ l1 -> k < p.2) /\ (forall p, p ∈ l2 -> k <= p.2) /\
    l' = ring_lower k l2 ++ ring_lower (k + 1) l1.

(** Sieve: marks are 0 or 1.  The sweep starts at the hand, goes towards newer
    objects and wraps to the oldest.  The victim is the first unmarked object;
    the marks passed over are cleared, the queue order does not change and
    the hand stops at the next newer object (or is unset past the newest). *)
Definition sieve_evict_spec (l : ring) (hand : option Z) (v : Z) (l' : ring) (hand' : option Z) : Prop :=
  exists A B, l = A ++ B /\
    match hand with None => A = [] | Some h => head (ring_ids B) = Some h end /\
    ((exists l1 l2, B ++ A = l1 ++ (v, 0) :: l2 /\ (forall p, p ∈ l1 -> p.2 = 1) /\
        l' = map (fun p => if decide (p.1 ∈ ring_ids l1) then (p.1, 0) else p) (ring_drop v l))
     \/
     (exists l2, B ++ A = (v, 1) :: l2 /\ (forall p, p ∈ l -> p.2 = 1) /\
        l' = map (fun p => (p.1, 0)) (ring_drop v l))) /\
    exists u w, ring_ids l = u ++ v :: w /\ hand' = head w.

(** What the model's states look like. *)
Definition obj_cnt (c : cache) (x : Z) : Z :=
  match c_tbl c !! x with Some o => o_p1 o | None => 0 end.
Definition clock_view (s : qstate) : ring :=
  map (fun x => (x, obj_cnt (q_c s) x)) (rev (q_q s)).
Definition sieve_view (s : sieve_state) : ring :=
  map (fun x => (x, obj_cnt (v_c s) x)) (rev (v_q s)).
