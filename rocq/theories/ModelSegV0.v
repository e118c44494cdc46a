(** The segmented caches built from an array of queue caches:
    cache/eviction/SLRUv0.c (an array of LRU caches) and
    cache/eviction/fifo/SFIFOv0.c (an array of FIFO caches).  The segments are
    the queue caches of ModelQueue.v. *)
From stdpp Require Import gmap list numbers fin_maps.
From Verif Require Import Base Driver ModelQueue ModelTwoQ ModelSLRU.
Open Scope Z_scope.

(** SLRUv0.c:19-24 (SLRUv0_params_t) with the fields of the outer cache_t that
    are used; req_local is never used in that file. *)
Record segv0 : Type := mkV0 {
  v0_c : cache;            (* the outer cache_t: size, metadata, admissioner *)
  v0_q : list qstate       (* LRUs / FIFOs *)
}.
Definition v0_set_q (s : segv0) (q : list qstate) : segv0 := mkV0 (v0_c s) q.
Definition v0_set_c (s : segv0) (c : cache) : segv0 := mkV0 c (v0_q s).

(** SLRUv0.c:62-104 (SLRUv0_init): n_seg LRU caches of cache_size / n_seg
    bytes each (n_seg = 0 divides by zero); the metadata size is that of
    LRU.c:66-70 inside and outside.  The admissioner belongs to the outer
    cache. *)
Definition slruv0_init (consider_md : bool) (cap : Z) (n_seg : nat) (adm : admissioner) : res segv0 :=
  if decide (n_seg = 0%nat) then Err DivByZero else
  Ok (mkV0 (cache_init cap (if consider_md then 16 else 0) adm)
        (replicate n_seg (lru_init consider_md (cap / Z.of_nat n_seg) AdmNone))).

(** SLRUv0.c:322-338, SFIFOv0.c:350-366: sums over the segments. *)
Definition v0_occ (s : segv0) : Z := foldr (fun q acc => q_occ q + acc) 0 (v0_q s).
Definition v0_nobj (s : segv0) : Z := foldr (fun q acc => q_nobj q + acc) 0 (v0_q s).

(** The loops over the segments with find(req, false) (SLRUv0.c:170-177,
    SFIFOv0.c:179-183): the first segment that holds the object. *)
Fixpoint v0_scan (find : qstate -> req -> bool -> res (qstate * bool)) (qs : list qstate) (r : req)
  : res (option nat) :=
  match qs with
  | [] => Ok None
  | q :: qs =>
      let! (_, b) := find q r false in
      if b : bool then Ok (Some O)
      else let! i := v0_scan find qs r in Ok (Datatypes.S <$> i)
  end.

(** The loops that stop at the first segment with a positive byte count. *)
Fixpoint v0_nonempty (qs : list qstate) : option nat :=
  match qs with
  | [] => None
  | q :: qs => if decide (q_occ q > 0) then Some O else Datatypes.S <$> v0_nonempty qs
  end.

(** SLRUv0.c:254-263, SFIFOv0.c:249-277 without USE_BELADY *)
Definition v0_to_evict (s : segv0) (r : req) : res (segv0 * option Z) :=
  match v0_nonempty (v0_q s) with
  | None => Ok (s, None)
  | Some i =>
      let! q := at_ (v0_q s) i in
      let! (_, v) := q_to_evict_tail q r in Ok (s, v)
  end.

Definition v0_evict_at (i : nat) (qs : list qstate) (r : req) : res (list qstate) :=
  let! q := at_ qs i in
  let! q := q_evict_tail q r in Ok (<[i := q]> qs).

(** SLRUv0.c:274-288 (SLRUv0_evict): the lowest segment with a positive byte
    count, segment 0 if there is none. *)
Definition slruv0_evict (s : segv0) (r : req) : res segv0 :=
  let! qs := v0_evict_at (default O (v0_nonempty (v0_q s))) (v0_q s) r in
  Ok (v0_set_q s qs).

(** SLRUv0.c:398-423 (SLRUv0_cool).  The moved object is copied into a fresh
    request.  412-416: int64 arithmetic. *)
Fixpoint slruv0_cool (fuel : nat) (md : Z) (r : req) (i : nat) (qs : list qstate) : res (list qstate) :=
  match i with
  | O => v0_evict_at O qs r
  | Datatypes.S j =>
      let! q := at_ qs i in
      let! (_, v) := q_to_evict_tail q r in
      match v with
      | None => Err NullDeref
      | Some id =>
          match c_tbl (q_c q) !! id with
          | None => Err UseAfterFree
          | Some o =>
              let saved := req_of_obj id o in
              let! qs := v0_evict_at i qs r in
              let! qs := while_ fuel
                (fun qs => let! n := at_ qs j in Ok (bool_decide (q_occ n > q_size n - r_size saved - md)))
                (slruv0_cool fuel md r j) qs in
              let! n := at_ qs j in
              let! n := q_insert n saved in
              Ok (<[j := n]> qs)
          end
      end
  end.

(** Bound for the loops of the model: no loop runs more often than there are
    objects. *)
Definition v0_fuel (qs : list qstate) : nat :=
  Datatypes.S (Z.to_nat (foldr (fun q acc => q_nobj q + acc) 0 qs)).

(** SLRUv0.c:165-207 (SLRUv0_find).  The returned pointer is only compared with
    NULL by the callers (after a promotion it points to freed memory). *)
Definition slruv0_find (s : segv0) (r : req) (u : bool) : res (segv0 * bool) :=
  let! i := v0_scan lru_find (v0_q s) r in
  match i with
  | None => Ok (s, false)
  | Some i =>
      if u then
        if decide (Datatypes.S i = length (v0_q s)) then Ok (s, true) else
        let md := c_md (v0_c s) in
        let! q := at_ (v0_q s) i in
        let! (q, _) := q_remove q (r_id r) in
        let qs := <[i := q]> (v0_q s) in
        let! d := at_ qs (Datatypes.S i) in
        let! (_, b) := lru_find d r false in
        if b : bool then Err AssertFail else
        let fuel := v0_fuel qs in
        let! qs := while_ fuel
          (fun qs => let! d := at_ qs (Datatypes.S i) in
                     Ok (bool_decide (q_occ d + r_size r + md > q_size d)))
          (slruv0_cool fuel md r (Datatypes.S i)) qs in
        let! d := at_ qs (Datatypes.S i) in
        let! d := q_insert d r in
        Ok (v0_set_q s (<[Datatypes.S i := d]> qs), true)
      else Ok (s, true)
  end.

(** The first segment with room (SLRUv0.c:227-233, SFIFOv0.c:222-230). *)
Fixpoint v0_room (qs : list qstate) (sz : Z) : option nat :=
  match qs with
  | [] => None
  | q :: qs => if decide (q_occ q + sz <= q_size q) then Some O else Datatypes.S <$> v0_room qs sz
  end.

(** SLRUv0.c:220-242 (SLRUv0_insert); the assignment to LRUs[0]->n_req (224)
    serves eviction-age tracking only and is left out. *)
Definition slruv0_insert (s : segv0) (r : req) : res segv0 :=
  let sz := r_size r + c_md (v0_c s) in
  match v0_room (v0_q s) sz with
  | Some i =>
      let! q := at_ (v0_q s) i in
      let! q := q_insert q r in
      Ok (v0_set_q s (<[i := q]> (v0_q s)))
  | None =>
      let! s := while_ (v0_fuel (v0_q s))
        (fun s => let! q := at_ (v0_q s) 0 in Ok (bool_decide (q_occ q + sz > q_size q)))
        (fun s => slruv0_evict s r) s in
      let! q := at_ (v0_q s) 0 in
      let! q := q_insert q r in
      Ok (v0_set_q s (<[0%nat := q]> (v0_q s)))
  end.

(** SLRUv0.c:303-312, SFIFOv0.c:331-340: remove from the first segment that
    holds the object. *)
Fixpoint v0_remove_from (qs : list qstate) (id : Z) : res (list qstate * bool) :=
  match qs with
  | [] => Ok ([], false)
  | q :: qs =>
      let! (q, b) := q_remove q id in
      if b : bool then Ok (q :: qs, true)
      else let! (qs, b) := v0_remove_from qs id in Ok (q :: qs, b)
  end.
Definition v0_remove (s : segv0) (id : Z) : res (segv0 * bool) :=
  let! (qs, b) := v0_remove_from (v0_q s) id in Ok (v0_set_q s qs, b).

(** SLRUv0.c:315-320, SFIFOv0.c:343-348 *)
Definition v0_can_insert (s : segv0) (r : req) : res (segv0 * bool) :=
  let '(c, b) := cache_can_insert_default (v0_c s) r in
  let s := v0_set_c s c in
  if b : bool then
    let! q := at_ (v0_q s) 0 in
    Ok (s, bool_decide (r_size r + c_md c <= q_size q))
  else Ok (s, false).

(** SLRUv0.c:139-147 (SLRUv0_get is cache_get_base). *)
Definition slruv0_ops : ops segv0 :=
  mkOps slruv0_find v0_can_insert slruv0_insert slruv0_evict v0_to_evict v0_remove
    v0_occ v0_nobj (fun s => c_size (v0_c s)) (fun s => c_md (v0_c s))
    (fun s => v0_set_c s (c_incr_nreq (v0_c s))).

(** * SFIFOv0.  The request req_local of the parameters is shared by all the
    calls of SFIFOv0_cool, so it is part of the state. *)
Record sfv0 : Type := mkF0 { f0_s : segv0; f0_loc : req }.
Definition f0_set_q (s : sfv0) (q : list qstate) : sfv0 := mkF0 (v0_set_q (f0_s s) q) (f0_loc s).
Definition f0_q (s : sfv0) : list qstate := v0_q (f0_s s).

(** SFIFOv0.c:71-117 (SFIFOv0_init): metadata is never charged (89); the
    initial content of req_local is that of new_request (all fields 0 or
    unset), never read before it is written. *)
Definition sfv0_init (cap : Z) (n_queues : nat) (adm : admissioner) : res sfv0 :=
  if decide (n_queues = 0%nat) then Err DivByZero else
  Ok (mkF0 (mkV0 (cache_init cap 0 adm)
             (replicate n_queues (fifo_init (cap / Z.of_nat n_queues) AdmNone)))
        (mkReq 0 0 0 0 0)).

(** SFIFOv0.c:426-450 (SFIFOv0_cool): the object is inserted from req_local as
    it stands after the loop. *)
Fixpoint sfv0_cool (fuel : nat) (r : req) (i : nat) (s : list qstate * req)
  : res (list qstate * req) :=
  let '(qs, loc) := s in
  match i with
  | O => let! qs := v0_evict_at O qs r in Ok (qs, loc)
  | Datatypes.S j =>
      let! q := at_ qs i in
      let! (_, v) := q_to_evict_tail q r in
      match v with
      | None => Err NullDeref
      | Some id =>
          match c_tbl (q_c q) !! id with
          | None => Err UseAfterFree
          | Some o =>
              let saved := req_of_obj id o in
              let! qs := v0_evict_at i qs r in
              let! n := at_ qs j in
              let required := q_size n - r_size saved in
              let! (qs, loc) := while_ fuel
                (fun s => let! n := at_ s.1 j in Ok (bool_decide (q_occ n > required)))
                (sfv0_cool fuel r j) (qs, saved) in
              let! n := at_ qs j in
              let! n := q_insert n loc in
              Ok (<[j := n]> qs, loc)
          end
      end
  end.

(** SFIFOv0.c:174-205 (SFIFOv0_find): update_cache is not looked at.  The
    assignments to next_access_vtime (196, 198) are left out: nothing reads it
    here without USE_BELADY, and insert copies it from the request anyway. *)
Definition sfv0_find (s : sfv0) (r : req) (_ : bool) : res (sfv0 * bool) :=
  let! i := v0_scan fifo_find (f0_q s) r in
  match i with
  | None => Ok (s, false)
  | Some i =>
      if decide (Datatypes.S i = length (f0_q s)) then Ok (s, true) else
      let! q := at_ (f0_q s) i in
      let! (q, _) := q_remove q (r_id r) in
      let qs := <[i := q]> (f0_q s) in
      let fuel := v0_fuel qs in
      let! (qs, loc) := while_ fuel
        (fun s => let! d := at_ s.1 (Datatypes.S i) in Ok (bool_decide (q_occ d + r_size r > q_size d)))
        (sfv0_cool fuel r (Datatypes.S i)) (qs, f0_loc s) in
      let! d := at_ qs (Datatypes.S i) in
      let! d := q_insert d r in
      Ok (mkF0 (v0_set_q (f0_s s) (<[Datatypes.S i := d]> qs)) loc, true)
  end.

(** SFIFOv0.c:218-237 (SFIFOv0_insert): queue 0 if no queue has room. *)
Definition sfv0_insert (s : sfv0) (r : req) : res sfv0 :=
  let i := default O (v0_room (f0_q s) (r_size r)) in
  let! q := at_ (f0_q s) i in
  let! q := q_insert q r in
  Ok (f0_set_q s (<[i := q]> (f0_q s))).

(** SFIFOv0.c:288-316 (SFIFOv0_evict) without USE_BELADY: nothing if every
    byte count is 0. *)
Definition sfv0_evict (s : sfv0) (r : req) : res sfv0 :=
  match v0_nonempty (f0_q s) with
  | None => Ok s
  | Some i => let! qs := v0_evict_at i (f0_q s) r in Ok (f0_set_q s qs)
  end.

Definition f0_lift {A} (s : sfv0) (x : res (segv0 * A)) : res (sfv0 * A) :=
  let! (s', a) := x in Ok (mkF0 s' (f0_loc s), a).

(** SFIFOv0.c:152-156 (SFIFOv0_get is cache_get_base); to_evict, remove,
    can_insert and the sums are the functions above. *)
Definition sfv0_ops : ops sfv0 :=
  mkOps sfv0_find (fun s r => f0_lift s (v0_can_insert (f0_s s) r)) sfv0_insert sfv0_evict
    (fun s r => f0_lift s (v0_to_evict (f0_s s) r)) (fun s id => f0_lift s (v0_remove (f0_s s) id))
    (fun s => v0_occ (f0_s s)) (fun s => v0_nobj (f0_s s)) (fun s => c_size (v0_c (f0_s s)))
    (fun s => c_md (v0_c (f0_s s)))
    (fun s => mkF0 (v0_set_c (f0_s s) (c_incr_nreq (v0_c (f0_s s)))) (f0_loc s)).
