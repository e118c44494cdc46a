(** Ranked caches in C++: cache/eviction/cpp/abstractRank.hpp, GDSF.cpp,
    LFU.cpp (LFUCpp).

    pq is a std::set of nodes (object, priority, last_request_vtime) ordered by
    priority, then last_request_vtime; two nodes that agree on both are the
    same element to the set.  itr_map takes an object to a set iterator.  Here a
    set node has a handle, [rk_pq] takes a handle to the node, [rk_it] an object
    to a handle; erasing through an iterator whose node is gone is undefined
    behaviour, reported as UseAfterFree.

    Priorities are doubles in C++.  Here a priority is an integer and only the
    order counts: for LFUCpp the frequency itself, for GDSF the bit pattern of
    the non-negative double, whose order is the order of the doubles.  [pri]
    is how the code computes the priority from pri_last_evict, the frequency
    and the object size; the theorems hold for every such function, so the
    rounding of the floating-point expression does not matter. *)
From stdpp Require Import gmap list numbers fin_maps.
From Verif Require Import Base Driver.
Open Scope Z_scope.

Record rank : Type := mkRank {
  rk_c    : cache;
  rk_pq   : gmap Z (Z * Z * Z);   (* handle -> obj, priority, last_request_vtime *)
  rk_it   : gmap Z Z;             (* itr_map *)
  rk_next : Z;                    (* next unused handle *)
  rk_L    : Z                     (* pri_last_evict *)
}.

(** GDSF.cpp:46-74, LFU.cpp:48-76: obj_md_size is 8 with
    consider_obj_metadata.  [L0] is the bit pattern of 0.0. *)
Definition rank_init (consider_md : bool) (cap L0 : Z) (adm : admissioner) : rank :=
  mkRank (cache_init cap (if consider_md then 8 else 0) adm) ∅ ∅ 0 L0.

(** abstractRank.hpp:41-48 (operator<) *)
Definition node_lt (x y : Z * Z * Z) : Prop :=
  x.1.2 < y.1.2 \/ x.1.2 = y.1.2 /\ x.2 < y.2.
Global Instance node_lt_dec x y : Decision (node_lt x y).
Proof. unfold node_lt. apply _. Defined.

(** std::set::emplace: no insertion when an equivalent node is there; the
    iterator of the equivalent or the new node. *)
Definition pq_emplace (pq : gmap Z (Z * Z * Z)) (next : Z) (nd : Z * Z * Z) :
    gmap Z (Z * Z * Z) * Z * Z :=
  match list_find (fun hn => ~ node_lt hn.2 nd /\ ~ node_lt nd hn.2) (map_to_list pq) with
  | Some (_, (h, _)) => (pq, h, next)
  | None => (<[next := nd]> pq, next, next + 1)
  end.

(** std::set::begin, with its node. *)
Fixpoint least (l : list (Z * (Z * Z * Z))) : option (Z * (Z * Z * Z)) :=
  match l with
  | [] => None
  | x :: l => match least l with
              | None => Some x
              | Some y => if decide (node_lt y.2 x.2) then Some y else Some x
              end
  end.
Definition pq_begin (pq : gmap Z (Z * Z * Z)) : option (Z * (Z * Z * Z)) := least (map_to_list pq).

Section Rank.
  Context (pri : Z -> Z -> Z -> Z).

  (** GDSF.cpp:125-144, LFU.cpp:128-141.  [o_p1] is lfu.freq. *)
  Definition rank_find (s : rank) (r : req) (u : bool) : res (rank * bool) :=
    let '(c, b) := cache_find_base (rk_c s) r u in
    if (b && u)%bool then
      match c_tbl c !! r_id r with
      | None => Err UseAfterFree
      | Some o =>
          let f := o_p1 o + 1 in
          let c := c_upd c (r_id r) (fun o => o_set_p1 o f) in
          match rk_it s !! r_id r with
          | None => Err UseAfterFree
          | Some h =>
              match rk_pq s !! h with
              | None => Err UseAfterFree
              | Some _ =>
                  let '(pq, h', next) :=
                    pq_emplace (delete h (rk_pq s)) (rk_next s)
                      (r_id r, pri (rk_L s) f (o_size o), c_nreq c) in
                  Ok (mkRank c pq (<[r_id r := h']> (rk_it s)) next (rk_L s), true)
              end
          end
      end
    else Ok (mkRank c (rk_pq s) (rk_it s) (rk_next s) (rk_L s), b).

  (** GDSF.cpp:157-169, LFU.cpp:154-165 *)
  Definition rank_insert (s : rank) (r : req) : res rank :=
    let! c := cache_insert_base (rk_c s) r in
    let c := c_upd c (r_id r) (fun o => o_set_p1 o 1) in
    match c_tbl c !! r_id r with
    | None => Err UseAfterFree
    | Some o =>
        let '(pq, h, next) :=
          pq_emplace (rk_pq s) (rk_next s) (r_id r, pri (rk_L s) 1 (o_size o), c_nreq c) in
        Ok (mkRank c pq (<[r_id r := h]> (rk_it s)) next (rk_L s))
    end.

  Definition rank_can_insert (s : rank) (r : req) : res (rank * bool) :=
    let '(c, b) := cache_can_insert_default (rk_c s) r in
    Ok (mkRank c (rk_pq s) (rk_it s) (rk_next s) (rk_L s), b).

  (** abstractRank.hpp:68-76 (pop_lowest_score), GDSF.cpp:197-204,
      LFU.cpp:192-199.  LFUCpp has no pri_last_evict: its [pri] ignores it.
      Dereferencing begin() of an empty set is undefined. *)
  Definition rank_evict (s : rank) (_ : req) : res rank :=
    match pq_begin (rk_pq s) with
    | None => Err NullDeref
    | Some (h, (id, p, _)) =>
        let! c := cache_remove_obj_base (rk_c s) id in
        Ok (mkRank c (delete h (rk_pq s)) (delete id (rk_it s)) (rk_next s) p)
    end.

  (** abstractRank.hpp:78-93 (remove, remove_obj), GDSF.cpp:224-227 *)
  Definition rank_remove (s : rank) (id : Z) : res (rank * bool) :=
    match c_tbl (rk_c s) !! id with
    | None => Ok (s, false)
    | Some _ =>
        match rk_it s !! id with
        | None => Err UseAfterFree
        | Some h =>
            match rk_pq s !! h with
            | None => Err UseAfterFree
            | Some _ =>
                let! c := cache_remove_obj_base (rk_c s) id in
                Ok (mkRank c (delete h (rk_pq s)) (delete id (rk_it s)) (rk_next s) (rk_L s), true)
            end
        end
    end.

  (** LFU.cpp:207-216 (LFUCpp_remove): after abstractRank::remove has freed the
      object, cache_remove_obj_base is called on it again. *)
  Definition lfucpp_remove (s : rank) (id : Z) : res (rank * bool) :=
    match c_tbl (rk_c s) !! id with
    | None => Ok (s, false)
    | Some _ =>
        let! (s, _) := rank_remove s id in
        let! c := cache_remove_obj_base (rk_c s) id in
        Ok (mkRank c (rk_pq s) (rk_it s) (rk_next s) (rk_L s), true)
    end.

  (** GDSF.cpp:63 sets cache->to_evict to NULL; LFU.cpp:60-66 leaves it NULL
      (cache_struct_init clears the structure): calling it calls NULL. *)
  Definition rank_to_evict (s : rank) (_ : req) : res (rank * option Z) := Err NullDeref.

  Definition rank_ops_with (remove : rank -> Z -> res (rank * bool)) : ops rank :=
    mkOps rank_find rank_can_insert rank_insert rank_evict rank_to_evict remove
      (fun s => c_occ (rk_c s)) (fun s => c_nobj (rk_c s)) (fun s => c_size (rk_c s))
      (fun s => c_md (rk_c s))
      (fun s => mkRank (c_incr_nreq (rk_c s)) (rk_pq s) (rk_it s) (rk_next s) (rk_L s)).
End Rank.

(** GDSF.cpp:137-138, 163: [pri last freq size] is the bit pattern of
    last + freq * 1.0e6 / size. *)
Definition gdsf_ops (pri : Z -> Z -> Z -> Z) : ops rank := rank_ops_with pri rank_remove.

(** LFU.cpp:136, 160: the priority is the frequency. *)
Definition lfucpp_ops : ops rank := rank_ops_with (fun _ f _ => f) lfucpp_remove.
