(** ARC: cache/eviction/ARC.c.  Line numbers refer to that file unless another
    file is named.

    The adaptation parameter p is a double.  Here it is a rational number and
    [rnd] is the rounding of the floating-point unit, applied wherever C
    rounds; the theorems say what they need of it. *)
From stdpp Require Import gmap list numbers fin_maps.
From Coq Require Import QArith.
From Verif Require Import Base Driver ModelQueue.
Open Scope Z_scope.

(** 31-53 (ARC_params_t).  A list is the ids of its objects, head first.
    [o_p1] of an object is ARC.lru_id, [o_p2] is ARC.ghost (0 or 1). *)
Record arc : Type := mkArc {
  ar_c  : cache;
  ar_t1 : list Z;    (* L1_data *)
  ar_b1 : list Z;    (* L1_ghost *)
  ar_t2 : list Z;    (* L2_data *)
  ar_b2 : list Z;    (* L2_ghost *)
  ar_s1 : Z;         (* L1_data_size *)
  ar_g1 : Z;         (* L1_ghost_size *)
  ar_s2 : Z;         (* L2_data_size *)
  ar_g2 : Z;         (* L2_ghost_size *)
  ar_p  : Q;         (* p *)
  ar_f1 : bool;      (* curr_obj_in_L1_ghost *)
  ar_f2 : bool;      (* curr_obj_in_L2_ghost *)
  ar_vt : Z          (* vtime_last_req_in_ghost *)
}.

Definition ar_set_c (s : arc) (c : cache) : arc :=
  mkArc c (ar_t1 s) (ar_b1 s) (ar_t2 s) (ar_b2 s) (ar_s1 s) (ar_g1 s) (ar_s2 s) (ar_g2 s)
    (ar_p s) (ar_f1 s) (ar_f2 s) (ar_vt s).
(** the L1_data list and its counter, and so on *)
Definition ar_set_t1 (s : arc) (l : list Z) (n : Z) : arc :=
  mkArc (ar_c s) l (ar_b1 s) (ar_t2 s) (ar_b2 s) n (ar_g1 s) (ar_s2 s) (ar_g2 s)
    (ar_p s) (ar_f1 s) (ar_f2 s) (ar_vt s).
Definition ar_set_b1 (s : arc) (l : list Z) (n : Z) : arc :=
  mkArc (ar_c s) (ar_t1 s) l (ar_t2 s) (ar_b2 s) (ar_s1 s) n (ar_s2 s) (ar_g2 s)
    (ar_p s) (ar_f1 s) (ar_f2 s) (ar_vt s).
Definition ar_set_t2 (s : arc) (l : list Z) (n : Z) : arc :=
  mkArc (ar_c s) (ar_t1 s) (ar_b1 s) l (ar_b2 s) (ar_s1 s) (ar_g1 s) n (ar_g2 s)
    (ar_p s) (ar_f1 s) (ar_f2 s) (ar_vt s).
Definition ar_set_b2 (s : arc) (l : list Z) (n : Z) : arc :=
  mkArc (ar_c s) (ar_t1 s) (ar_b1 s) (ar_t2 s) l (ar_s1 s) (ar_g1 s) (ar_s2 s) n
    (ar_p s) (ar_f1 s) (ar_f2 s) (ar_vt s).
Definition ar_set_p (s : arc) (p : Q) : arc :=
  mkArc (ar_c s) (ar_t1 s) (ar_b1 s) (ar_t2 s) (ar_b2 s) (ar_s1 s) (ar_g1 s) (ar_s2 s) (ar_g2 s)
    p (ar_f1 s) (ar_f2 s) (ar_vt s).
Definition ar_set_flags (s : arc) (f1 f2 : bool) (vt : Z) : arc :=
  mkArc (ar_c s) (ar_t1 s) (ar_b1 s) (ar_t2 s) (ar_b2 s) (ar_s1 s) (ar_g1 s) (ar_s2 s) (ar_g2 s)
    (ar_p s) f1 f2 vt.

(** 99-149 (ARC_init) *)
Definition arc_init (consider_md : bool) (cap : Z) (adm : admissioner) : arc :=
  mkArc (cache_init cap (if consider_md then 40 else 0) adm) [] [] [] [] 0 0 0 0 0%Q false false (-1).

(** obj->obj_size + cache->obj_md_size, a uint32_t *)
Definition charge (c : cache) (o : cobj) : Z := u32 (o_size o + c_md c).

(** cache.c:297-335 (cache_evict_base / cache_remove_obj_base with
    remove_from_hashtable = false): the counters change, the object stays in
    the hash table. *)
Definition cache_evict_keep (c : cache) (id : Z) : res cache :=
  match c_tbl c !! id with
  | None => Err UseAfterFree
  | Some o => Ok (mkCache (c_size c) (c_md c) (c_nreq c) (c_nobj c - 1) (c_occ c - charge c o)
                    (c_tbl c) (c_adm c))
  end.

(** dataStructure/hashtable: hashtable_delete alone. *)
Definition tbl_delete (c : cache) (id : Z) : cache := c_set_tbl c (delete id (c_tbl c)).

Section ARC.
  Context (rnd : Q -> Q).

  (** (double)x for an int64_t x *)
  Definition dbl (x : Z) : Q := rnd (inject_Z x).

  (** MAX((double)a / b, 1), lines 248-249, 257-258.  [None] is +infinity
      (a > 0, b = 0); 0/0 is not a number and a/0 for a < 0 is -infinity, for
      both of which MAX (a > b ? a : b) yields 1. *)
  Definition arc_delta (a b : Z) : option Q :=
    if decide (b = 0) then if decide (a > 0) then None else Some 1%Q
    else let q := rnd (dbl a / dbl b)%Q in if Qle_bool q 1 then Some 1%Q else Some q.

  (** MIN(p + delta, cache_size), line 250 *)
  Definition p_up (p : Q) (d : option Q) (size : Z) : Q :=
    match d with
    | None => dbl size
    | Some d => let x := rnd (p + d)%Q in if Qle_bool (dbl size) x then dbl size else x
    end.
  (** MAX(p - delta, 0), line 259 *)
  Definition p_down (p : Q) (d : option Q) : Q :=
    match d with
    | None => 0%Q
    | Some d => let x := rnd (p - d)%Q in if Qle_bool x 0 then 0%Q else x
    end.

  (** 219-294 (ARC_find).  Without update and without an object, line 226
      reads through NULL.  The object found is one that sits in the table; its
      removal from a list it is not linked in (remove_obj_from_list,
      cacheObj.c:57-76, with both links NULL) changes no list. *)
  Definition arc_find (s : arc) (r : req) (u : bool) : res (arc * bool) :=
    let '(c, b) := cache_find_base (ar_c s) r u in
    let id := r_id r in
    match c_tbl c !! id with
    | None => if u then Ok (s, false) else Err NullDeref
    | Some o =>
        if u then
          let s := ar_set_flags (ar_set_c s c) false false (ar_vt s) in
          if decide (o_p2 o <> 0) then
            let s := ar_set_flags s false false (c_nreq c) in
            let s :=
              if decide (o_p1 o = 1) then
                let s := ar_set_flags s true false (ar_vt s) in
                let s := ar_set_p s (p_up (ar_p s) (arc_delta (ar_g2 s) (ar_g1 s)) (c_size c)) in
                ar_set_b1 s (q_del id (ar_b1 s)) (ar_g1 s - charge c o)
              else
                let s := ar_set_flags s false true (ar_vt s) in
                let s := ar_set_p s (p_down (ar_p s) (arc_delta (ar_g1 s) (ar_g2 s))) in
                ar_set_b2 s (q_del id (ar_b2 s)) (ar_g2 s - charge c o) in
            Ok (ar_set_c s (tbl_delete (ar_c s) id), false)
          else if decide (o_p1 o = 1) then
            let s := ar_set_c s (c_upd (ar_c s) id (fun o => o_set_p1 o 2)) in
            let s := ar_set_t1 s (q_del id (ar_t1 s)) (ar_s1 s - charge c o) in
            Ok (ar_set_t2 s (id :: ar_t2 s) (ar_s2 s + charge c o), true)
          else Ok (ar_set_t2 s (q_to_head id (ar_t2 s)) (ar_s2 s), true)
        else Ok (s, bool_decide (o_p2 o = 0))
    end.

  (** 312-313, 345-346, 365-366 *)
  Definition in_ghost (s : arc) : bool :=
    bool_decide (ar_vt s = c_nreq (ar_c s)) && (ar_f1 s || ar_f2 s).

  (** 307-330 (ARC_insert) *)
  Definition arc_insert (s : arc) (r : req) : res arc :=
    let! c := cache_insert_base (ar_c s) r in
    let sz := r_size r + c_md c in
    if in_ghost s then
      let s := ar_set_c s (c_upd c (r_id r) (fun o => o_set_p1 o 2)) in
      Ok (ar_set_flags (ar_set_t2 s (r_id r :: ar_t2 s) (ar_s2 s + sz)) false false (-1))
    else
      let s := ar_set_c s (c_upd c (r_id r) (fun o => o_set_p1 o 1)) in
      Ok (ar_set_t1 s (r_id r :: ar_t1 s) (ar_s1 s + sz)).

  (** 428-434, 523-529: does REPLACE take from L1? *)
  Definition replace_L1 (s : arc) : bool :=
    let cond1 := bool_decide (ar_s1 s > 0) in
    let cond2 := negb (Qle_bool (dbl (ar_s1 s)) (ar_p s)) in
    let cond3 := Qeq_bool (dbl (ar_s1 s)) (ar_p s) && ar_f2 s in
    let cond4 := bool_decide (ar_s2 s = 0) in
    (cond1 && (cond2 || cond3)) || cond4.

  (** 423-444 (_ARC_to_replace) *)
  Definition arc_to_replace (s : arc) : option Z :=
    if replace_L1 s then last (ar_t1 s) else last (ar_t2 s).

  Definition ghost_flag (c : cache) (id : Z) : cache := c_upd c id (fun o => o_set_p2 o 1).

  (** 446-463 (_ARC_evict_L1_data) *)
  Definition evict_L1_data (s : arc) : res arc :=
    match last (ar_t1 s) with
    | None => Err NullDeref
    | Some id =>
        match c_tbl (ar_c s) !! id with
        | None => Err UseAfterFree
        | Some o =>
            let! c := cache_evict_keep (ar_c s) id in
            let ch := charge c o in
            let s := ar_set_t1 s (q_del id (ar_t1 s)) (ar_s1 s - ch) in
            let s := ar_set_b1 s (id :: ar_b1 s) (ar_g1 s + ch) in
            Ok (ar_set_c s (ghost_flag c id))
        end
    end.

  (** 465-479 (_ARC_evict_L1_data_no_ghost) *)
  Definition evict_L1_data_no_ghost (s : arc) : res arc :=
    match last (ar_t1 s) with
    | None => Err NullDeref
    | Some id =>
        match c_tbl (ar_c s) !! id with
        | None => Err UseAfterFree
        | Some o =>
            let s := ar_set_t1 s (q_del id (ar_t1 s)) (ar_s1 s - charge (ar_c s) o) in
            let! c := cache_evict_base (ar_c s) id in
            Ok (ar_set_c s c)
        end
    end.

  (** 481-494 (_ARC_evict_L2_data) *)
  Definition evict_L2_data (s : arc) : res arc :=
    match last (ar_t2 s) with
    | None => Err NullDeref
    | Some id =>
        match c_tbl (ar_c s) !! id with
        | None => Err UseAfterFree
        | Some o =>
            let ch := charge (ar_c s) o in
            let s := ar_set_t2 s (q_del id (ar_t2 s)) (ar_s2 s - ch) in
            let s := ar_set_b2 s (id :: ar_b2 s) (ar_g2 s + ch) in
            let! c := cache_evict_keep (ghost_flag (ar_c s) id) id in
            Ok (ar_set_c s c)
        end
    end.

  (** 496-505 (_ARC_evict_L1_ghost) *)
  Definition evict_L1_ghost (s : arc) : res arc :=
    match last (ar_b1 s) with
    | None => Err NullDeref
    | Some id =>
        match c_tbl (ar_c s) !! id with
        | None => Err UseAfterFree
        | Some o =>
            let s := ar_set_b1 s (q_del id (ar_b1 s)) (ar_g1 s - charge (ar_c s) o) in
            Ok (ar_set_c s (tbl_delete (ar_c s) id))
        end
    end.

  (** 507-516 (_ARC_evict_L2_ghost) *)
  Definition evict_L2_ghost (s : arc) : res arc :=
    match last (ar_b2 s) with
    | None => Err NullDeref
    | Some id =>
        match c_tbl (ar_c s) !! id with
        | None => Err UseAfterFree
        | Some o =>
            let s := ar_set_b2 s (q_del id (ar_b2 s)) (ar_g2 s - charge (ar_c s) o) in
            Ok (ar_set_c s (tbl_delete (ar_c s) id))
        end
    end.

  (** 519-536 (_ARC_replace) *)
  Definition arc_replace (s : arc) : res arc :=
    if replace_L1 s then evict_L1_data s else evict_L2_data s.

  (** 545-546, 566-567 *)
  Definition L1_full (s : arc) (r : req) : bool :=
    bool_decide (ar_s1 s + ar_g1 s + (r_size r + c_md (ar_c s)) > c_size (ar_c s)).

  (** 540-558 (_ARC_to_evict_miss_on_all_queues) *)
  Definition arc_to_evict_miss (s : arc) (r : req) : option Z :=
    if L1_full s r then
      if decide (ar_g1 s > 0) then arc_to_replace s else last (ar_t1 s)
    else arc_to_replace s.

  (** 561-595 (_ARC_evict_miss_on_all_queues) *)
  Definition arc_evict_miss (s : arc) (r : req) : res arc :=
    if L1_full s r then
      if decide (ar_g1 s > 0) then let! s := evict_L1_ghost s in arc_replace s
      else evict_L1_data_no_ghost s
    else
      let! s :=
        if decide (ar_s1 s + ar_g1 s + ar_s2 s + ar_g2 s >= c_size (ar_c s) * 2 /\ ar_g2 s > 0)
        then evict_L2_ghost s else Ok s in
      arc_replace s.

  (** 342-352 (ARC_to_evict) *)
  Definition arc_to_evict (s : arc) (r : req) : res (arc * option Z) :=
    Ok (s, if in_ghost s then arc_to_replace s else arc_to_evict_miss s r).

  (** 363-372 (ARC_evict) *)
  Definition arc_evict (s : arc) (r : req) : res arc :=
    if in_ghost s then arc_replace s else arc_evict_miss s r.

  (** 387-415 (ARC_remove): a ghost is unlinked but stays in the hash table. *)
  Definition arc_remove (s : arc) (id : Z) : res (arc * bool) :=
    match c_tbl (ar_c s) !! id with
    | None => Ok (s, false)
    | Some o =>
        let ch := charge (ar_c s) o in
        if decide (o_p2 o <> 0) then
          if decide (o_p1 o = 1) then Ok (ar_set_b1 s (q_del id (ar_b1 s)) (ar_g1 s - ch), true)
          else Ok (ar_set_b2 s (q_del id (ar_b2 s)) (ar_g2 s - ch), true)
        else
          let s := if decide (o_p1 o = 1) then ar_set_t1 s (q_del id (ar_t1 s)) (ar_s1 s - ch)
                   else ar_set_t2 s (q_del id (ar_t2 s)) (ar_s2 s - ch) in
          let! c := cache_remove_obj_base (ar_c s) id in
          Ok (ar_set_c s c, true)
    end.

  Definition arc_can_insert (s : arc) (r : req) : res (arc * bool) :=
    let '(c, b) := cache_can_insert_default (ar_c s) r in Ok (ar_set_c s c, b).

  (** 182-201 (ARC_get is cache_get_base). *)
  Definition arc_ops : ops arc :=
    mkOps arc_find arc_can_insert arc_insert arc_evict arc_to_evict arc_remove
      (fun s => c_occ (ar_c s)) (fun s => c_nobj (ar_c s)) (fun s => c_size (ar_c s))
      (fun s => c_md (ar_c s)) (fun s => ar_set_c s (c_incr_nreq (ar_c s))).
End ARC.
