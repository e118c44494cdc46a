(** ARCv0: cache/eviction/ARCv0.c, ARC built from four LRU caches.  Line
    numbers refer to that file unless another file is named.  LAZY_PROMOTION
    and QUICK_DEMOTION are not defined (30-31).  The double p is a rational
    with rounding [rnd], as in ModelARC.v. *)
From stdpp Require Import gmap list numbers fin_maps.
From Coq Require Import QArith.
From Verif Require Import Base Driver ModelQueue ModelTwoQ ModelSLRU ModelARC.
Open Scope Z_scope.

(** 33-45 (ARCv0_params_t).  [z_c] is the outer cache_t, of which only the
    size, the metadata size, the request counter and the admission policy are
    used: its table stays empty.  req_local is a scratch request, not state. *)
Record arc0 : Type := mkA0 {
  z_c  : cache;
  z_t1 : qstate;     (* T1 *)
  z_b1 : qstate;     (* B1 *)
  z_t2 : qstate;     (* T2 *)
  z_b2 : qstate;     (* B2 *)
  z_p  : Q;          (* p *)
  z_f1 : bool;       (* curr_obj_in_L1_ghost *)
  z_f2 : bool;       (* curr_obj_in_L2_ghost *)
  z_vt : Z           (* vtime_last_req_in_ghost *)
}.

(** assignments to the fields *)
Definition z_set_c (s : arc0) (c : cache) : arc0 :=
  mkA0 c (z_t1 s) (z_b1 s) (z_t2 s) (z_b2 s) (z_p s) (z_f1 s) (z_f2 s) (z_vt s).
Definition z_set_t1 (s : arc0) (x : qstate) : arc0 :=
  mkA0 (z_c s) x (z_b1 s) (z_t2 s) (z_b2 s) (z_p s) (z_f1 s) (z_f2 s) (z_vt s).
Definition z_set_b1 (s : arc0) (x : qstate) : arc0 :=
  mkA0 (z_c s) (z_t1 s) x (z_t2 s) (z_b2 s) (z_p s) (z_f1 s) (z_f2 s) (z_vt s).
Definition z_set_t2 (s : arc0) (x : qstate) : arc0 :=
  mkA0 (z_c s) (z_t1 s) (z_b1 s) x (z_b2 s) (z_p s) (z_f1 s) (z_f2 s) (z_vt s).
Definition z_set_b2 (s : arc0) (x : qstate) : arc0 :=
  mkA0 (z_c s) (z_t1 s) (z_b1 s) (z_t2 s) x (z_p s) (z_f1 s) (z_f2 s) (z_vt s).
Definition z_set_p (s : arc0) (p : Q) : arc0 :=
  mkA0 (z_c s) (z_t1 s) (z_b1 s) (z_t2 s) (z_b2 s) p (z_f1 s) (z_f2 s) (z_vt s).
Definition z_set_flags (s : arc0) (f1 f2 : bool) (vt : Z) : arc0 :=
  mkA0 (z_c s) (z_t1 s) (z_b1 s) (z_t2 s) (z_b2 s) (z_p s) f1 f2 vt.

(** 92-143 (ARCv0_init): the four queues are LRU caches of the full size,
    without admission policy (cache_struct_init leaves it NULL). *)
Definition arc0_init (consider_md : bool) (cap : Z) (adm : admissioner) : arc0 :=
  let q := lru_init consider_md cap AdmNone in
  mkA0 (cache_init cap (if consider_md then 40 else 0) adm) q q q q 0%Q false false (-1).

Section ARCv0.
  Context (rnd : Q -> Q).

  (** 206-271 (ARCv0_find).  The object returned on a hit in T1 has just been
      freed; callers only compare it with NULL.  Line 258 (misc.freq = 1)
      writes to that object. *)
  Definition arc0_find (s : arc0) (r : req) (u : bool) : res (arc0 * bool) :=
    let! (_, in_t1) := lru_find (z_t1 s) r false in
    let! (_, in_t2) := lru_find (z_t2 s) r false in
    if u then
      let! (_, in_b1) := lru_find (z_b1 s) r false in
      let! (_, in_b2) := lru_find (z_b2 s) r false in
      if negb (in_t1 || in_t2 || in_b1 || in_b2) then Ok (s, false)
      else
        let s := z_set_flags s false false (z_vt s) in
        let b1_size := q_occ (z_b1 s) in
        let b2_size := q_occ (z_b2 s) in
        if (in_b1 || in_b2 : bool) then
          let s := z_set_flags s false false (c_nreq (z_c s)) in
          if in_b1 : bool then
            let s := z_set_flags s true false (z_vt s) in
            let s := z_set_p s (p_up rnd (z_p s) (arc_delta rnd b2_size b1_size) (c_size (z_c s))) in
            let! (b1, _) := q_remove (z_b1 s) (r_id r) in
            Ok (z_set_b1 s b1, in_t1 || in_t2)
          else
            let s := z_set_flags s false true (z_vt s) in
            let s := z_set_p s (p_down rnd (z_p s) (arc_delta rnd b1_size b2_size)) in
            let! (b2, _) := q_remove (z_b2 s) (r_id r) in
            Ok (z_set_b2 s b2, in_t1 || in_t2)
        else if in_t1 : bool then
          let! (t1, _) := q_remove (z_t1 s) (r_id r) in
          let! (t2, _) := sub_get lru_ops (z_t2 s) r in
          Ok (z_set_t2 (z_set_t1 s t1) t2, true)
        else
          let! (t2, _) := lru_find (z_t2 s) r true in
          Ok (z_set_t2 s t2, true)
    else Ok (s, in_t1 || in_t2).

  (** 289-290, 319-320, 339-340 *)
  Definition z_in_ghost (s : arc0) : bool :=
    bool_decide (z_vt s = c_nreq (z_c s)) && (z_f1 s || z_f2 s).

  (** 284-304 (ARCv0_insert).  Line 300 sets misc.freq = 0, which nothing in
      this build reads. *)
  Definition arc0_insert (s : arc0) (r : req) : res arc0 :=
    if z_in_ghost s then
      let! t2 := q_insert (z_t2 s) r in
      Ok (z_set_flags (z_set_t2 s t2) false false (-1))
    else
      let! t1 := q_insert (z_t1 s) r in
      Ok (z_set_t1 s t1).

  (** 413-415 = 394-395: T1 is not empty, and above its target or on target
      with the request in B2 *)
  Definition z_over (s : arc0) : bool :=
    let t1_size := q_occ (z_t1 s) in
    bool_decide (t1_size > 0) &&
    (negb (Qle_bool (dbl rnd t1_size) (z_p s)) || (Qeq_bool (dbl rnd t1_size) (z_p s) && z_f2 s)).

  (** 388-404 (_ARCv0_to_replace): without the fourth condition of 416 *)
  Definition arc0_to_replace (s : arc0) (r : req) : res (arc0 * option Z) :=
    if z_over s then let! (t1, v) := q_to_evict_tail (z_t1 s) r in Ok (z_set_t1 s t1, v)
    else let! (t2, v) := q_to_evict_tail (z_t2 s) r in Ok (z_set_t2 s t2, v).

  (** the object behind the pointer to_evict returned, 422 and 437 *)
  Definition deref (q : qstate) (v : option Z) : res (Z * cobj) :=
    match v with
    | None => Err NullDeref
    | Some v => match c_tbl (q_c q) !! v with None => Err UseAfterFree | Some o => Ok (v, o) end
    end.

  (** 407-441 (_ARCv0_replace) *)
  Definition arc0_replace (s : arc0) (r : req) : res arc0 :=
    if z_over s || bool_decide (q_occ (z_t2 s) = 0) then
      let! (t1, v) := q_to_evict_tail (z_t1 s) r in
      let! (v, o) := deref t1 v in
      let! (b1, _) := sub_get lru_ops (z_b1 s) (req_of_obj v o) in
      let! t1 := q_evict_tail t1 r in
      Ok (z_set_b1 (z_set_t1 s t1) b1)
    else
      let! (t2, v) := q_to_evict_tail (z_t2 s) r in
      let! (v, o) := deref t2 v in
      let! t2 := q_evict_tail t2 r in
      let! (b2, _) := sub_get lru_ops (z_b2 s) (req_of_obj v o) in
      Ok (z_set_b2 (z_set_t2 s t2) b2).

  (** 452-453, 475-476 *)
  Definition z_full (s : arc0) (r : req) : bool :=
    bool_decide (q_occ (z_t1 s) + q_occ (z_b1 s) + (r_size r + c_md (z_c s)) > c_size (z_c s)).

  (** 445-465 (_ARCv0_to_evict_miss_on_all_queues) *)
  Definition arc0_to_evict_miss (s : arc0) (r : req) : res (arc0 * option Z) :=
    if z_full s r then
      if decide (q_occ (z_b1 s) > 0) then arc0_to_replace s r
      else let! (t1, v) := q_to_evict_tail (z_t1 s) r in Ok (z_set_t1 s t1, v)
    else arc0_to_replace s r.

  (** 468-511 (_ARCv0_evict_miss_on_all_queues); the while loop of 503-508 is
      run for at most the number of objects in B2, plus one. *)
  Definition arc0_evict_miss (s : arc0) (r : req) : res arc0 :=
    if z_full s r then
      if decide (q_occ (z_b1 s) > 0) then
        let! b1 := q_evict_tail (z_b1 s) r in
        arc0_replace (z_set_b1 s b1) r
      else
        let! t1 := q_evict_tail (z_t1 s) r in Ok (z_set_t1 s t1)
    else
      let n := q_occ (z_t1 s) + q_occ (z_b1 s) + q_occ (z_t2 s) in
      let! b2 := while_ (S (Z.to_nat (q_nobj (z_b2 s))))
                   (fun b2 => Ok (bool_decide (n + q_occ b2 >= c_size (z_c s) * 2)))
                   (fun b2 => q_evict_tail b2 r) (z_b2 s) in
      arc0_replace (z_set_b2 s b2) r.

  (** 316-326 (ARCv0_to_evict) *)
  Definition arc0_to_evict (s : arc0) (r : req) : res (arc0 * option Z) :=
    if z_in_ghost s then arc0_to_replace s r else arc0_to_evict_miss s r.

  (** 337-346 (ARCv0_evict) *)
  Definition arc0_evict (s : arc0) (r : req) : res arc0 :=
    if z_in_ghost s then arc0_replace s r else arc0_evict_miss s r.

  (** 361-368 (ARCv0_remove): ghosts are left alone *)
  Definition arc0_remove (s : arc0) (id : Z) : res (arc0 * bool) :=
    let! (t1, a) := q_remove (z_t1 s) id in
    let! (t2, b) := q_remove (z_t2 s) id in
    Ok (z_set_t2 (z_set_t1 s t1) t2, (a || b)%bool).

  (** 104: cache.c:141-161 on the outer cache *)
  Definition arc0_can_insert (s : arc0) (r : req) : res (arc0 * bool) :=
    let '(c, b) := cache_can_insert_default (z_c s) r in Ok (z_set_c s c, b).

  (** 181-188 (ARCv0_get is cache_get_base), 370-379 (occupied bytes and
      objects of T1 and T2). *)
  Definition arc0_ops : ops arc0 :=
    mkOps arc0_find arc0_can_insert arc0_insert arc0_evict arc0_to_evict arc0_remove
      (fun s => q_occ (z_t1 s) + q_occ (z_t2 s)) (fun s => q_nobj (z_t1 s) + q_nobj (z_t2 s))
      (fun s => c_size (z_c s)) (fun s => c_md (z_c s)) (fun s => z_set_c s (c_incr_nreq (z_c s))).
End ARCv0.
