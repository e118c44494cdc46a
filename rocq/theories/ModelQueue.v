(** Single-queue eviction algorithms: FIFO, LRU, MRU, Clock, Sieve.
    The queue is a list of ids, head first; [queue.prev] points towards the
    head (cacheObj.c:182-201 prepends at the head).  That the pointer code of
    cacheObj.c implements these list operations is proved in PropsDll.v.
    Files are under /repo/libCacheSim/cache/eviction. *)
From stdpp Require Import gmap list numbers fin_maps.
From Verif Require Import Base Driver.
Open Scope Z_scope.

Record qstate : Type := mkQ {
  q_c : cache;      (* cache_t *)
  q_q : list Z      (* q_head ... q_tail *)
}.

(** cacheObj.c:57-76 (remove_obj_from_list): ids are unique in a queue. *)
Definition q_del (x : Z) (q : list Z) : list Z := filter (fun y => y <> x) q.

(** cacheObj.c:130-173 (move_obj_to_head). *)
Definition q_to_head (x : Z) (q : list Z) : list Z := x :: q_del x q.

(** The shared fields and default callbacks
    (include/libCacheSim/cache.h:274-287, cache.c:141-161, cache.c:226). *)
Definition q_can_insert (s : qstate) (r : req) : res (qstate * bool) :=
  let '(c, b) := cache_can_insert_default (q_c s) r in Ok (mkQ c (q_q s), b).
Definition q_occ (s : qstate) : Z := c_occ (q_c s).
Definition q_nobj (s : qstate) : Z := c_nobj (q_c s).
Definition q_size (s : qstate) : Z := c_size (q_c s).
Definition q_md (s : qstate) : Z := c_md (q_c s).
Definition q_tick (s : qstate) : qstate := mkQ (c_incr_nreq (q_c s)) (q_q s).
Definition q_init (size md : Z) (adm : admissioner) : qstate :=
  mkQ (cache_init size md adm) [].

(** FIFO.c:203-215, LRU.c:255-266, MRU.c:198-208, Clock.c:276-285: look the id
    up, unlink it, drop it from the index. *)
Definition q_remove (s : qstate) (id : Z) : res (qstate * bool) :=
  match c_tbl (q_c s) !! id with
  | None => Ok (s, false)
  | Some _ =>
      let! c := cache_remove_obj_base (q_c s) id in
      Ok (mkQ c (q_del id (q_q s)), true)
  end.

(** FIFO.c:137-143, LRU.c:155-162, MRU.c:145-151: insert in the index, prepend
    at the head. *)
Definition q_insert (s : qstate) (r : req) : res qstate :=
  let! c := cache_insert_base (q_c s) r in
  Ok (mkQ c (r_id r :: q_q s)).

(** FIFO.c:155-158, LRU.c:174-181: the tail (NULL if empty). *)
Definition q_to_evict_tail (s : qstate) (_ : req) : res (qstate * option Z) :=
  Ok (s, last (q_q s)).

(** FIFO.c:169-188, LRU.c:191-216: unlink the tail; an empty queue makes
    [params->q_tail->queue.prev] a NULL dereference. *)
Definition q_evict_tail (s : qstate) (_ : req) : res qstate :=
  match last (q_q s) with
  | None => Err NullDeref
  | Some v =>
      let! c := cache_evict_base (q_c s) v in
      Ok (mkQ c (removelast (q_q s)))
  end.

(** FIFO.c:122-125 *)
Definition fifo_find (s : qstate) (r : req) (u : bool) : res (qstate * bool) :=
  let '(c, b) := cache_find_base (q_c s) r u in Ok (mkQ c (q_q s), b).

Definition fifo_ops : ops qstate :=
  mkOps fifo_find q_can_insert q_insert q_evict_tail q_to_evict_tail q_remove
        q_occ q_nobj q_size q_md q_tick.
(** FIFO.c:63: obj_md_size = 0. *)
Definition fifo_init (size : Z) (adm : admissioner) : qstate := q_init size 0 adm.

(** LRU.c:130-143, also MRU.c:122-132 *)
Definition lru_find (s : qstate) (r : req) (u : bool) : res (qstate * bool) :=
  let '(c, b) := cache_find_base (q_c s) r u in
  if (b && u)%bool then Ok (mkQ c (q_to_head (r_id r) (q_q s)), b)
  else Ok (mkQ c (q_q s), b).

Definition lru_ops : ops qstate :=
  mkOps lru_find q_can_insert q_insert q_evict_tail q_to_evict_tail q_remove
        q_occ q_nobj q_size q_md q_tick.
(** LRU.c:66-70: obj_md_size is 16 when consider_obj_metadata is set. *)
Definition lru_init (consider_md : bool) (size : Z) (adm : admissioner) : qstate :=
  q_init size (if consider_md then 16 else 0) adm.

(** MRU.c:163-166: the head. *)
Definition mru_to_evict (s : qstate) (_ : req) : res (qstate * option Z) :=
  Ok (s, head (q_q s)).

(** MRU.c:177-183: [q_head = q_head->next; q_head->prev = NULL] with no check
    that the queue holds a second object.  q_tail is never updated here; with
    two or more objects it stays the last one. *)
Definition mru_evict (s : qstate) (_ : req) : res qstate :=
  match q_q s with
  | [] => Err NullDeref
  | [_] => Err NullDeref
  | v :: q => let! c := cache_evict_base (q_c s) v in Ok (mkQ c q)
  end.

Definition mru_ops : ops qstate :=
  mkOps lru_find q_can_insert q_insert mru_evict mru_to_evict q_remove
        q_occ q_nobj q_size q_md q_tick.
(** MRU.c:47-70: obj_md_size is left at 0. *)
Definition mru_init (size : Z) (adm : admissioner) : qstate := q_init size 0 adm.

(** Clock.  [o_p1] is clock.freq (an int, bounded by max_freq). *)

(** Clock.c:145-159 *)
Definition clock_find (max_freq : Z) (s : qstate) (r : req) (u : bool) : res (qstate * bool) :=
  let '(c, b) := cache_find_base (q_c s) r u in
  if (b && u)%bool then
    Ok (mkQ (c_upd c (r_id r)
               (fun o => if decide (o_p1 o < max_freq) then o_set_p1 o (o_p1 o + 1) else o))
            (q_q s), b)
  else Ok (mkQ c (q_q s), b).

(** Clock.c:171-183 (obj->clock.freq = 0) *)
Definition clock_insert (s : qstate) (r : req) : res qstate :=
  let! c := cache_insert_base (q_c s) r in
  Ok (mkQ (c_upd c (r_id r) (fun o => o_set_p1 o 0)) (r_id r :: q_q s)).

(** Sum of the counters of the queued objects: the bound used for the scan
    loops below, which is proved sufficient. *)
Definition clock_bound (c : cache) (q : list Z) : nat :=
  Z.to_nat (foldr (fun x acc => match c_tbl c !! x with
                                | Some o => Z.max 0 (o_p1 o) + acc | None => acc end) 0 q).

(** Clock.c:199-210: scan from the tail towards the head, restarting from the
    tail with n_round + 1.  [rq] is the queue tail first, [cur] what is left of
    the current round. *)
Fixpoint clock_scan_pure (fuel : nat) (c : cache) (rq cur : list Z) (n_round : Z) : res Z :=
  match fuel with
  | 0%nat => Err OutOfFuel
  | S k =>
      match cur with
      | [] => match rq with
              | [] => Err NullDeref
              | _ => clock_scan_pure k c rq rq (n_round + 1)
              end
      | x :: cur' =>
          match c_tbl c !! x with
          | None => Err UseAfterFree
          | Some o =>
              if decide (o_p1 o - n_round >= 1) then clock_scan_pure k c rq cur' n_round
              else Ok x
          end
      end
  end.

(** Clock.c:195-213 *)
Definition clock_to_evict (s : qstate) (_ : req) : res (qstate * option Z) :=
  let rq := rev (q_q s) in
  match rq with
  | [] => Err NullDeref
  | _ =>
      let! v := clock_scan_pure (2 * (clock_bound (q_c s) (q_q s) + 1) + length rq)
                  (q_c s) rq rq 0 in
      Ok (s, Some v)
  end.

(** Clock.c:227-234: while the tail has a positive counter, decrement it and
    move it to the head.  Simplification: the statistics n_obj_rewritten and
    n_byte_rewritten are not kept. *)
Fixpoint clock_scan (fuel : nat) (c : cache) (q : list Z) : res (cache * list Z * Z) :=
  match last q with
  | None => Err NullDeref
  | Some v =>
      match c_tbl c !! v with
      | None => Err UseAfterFree
      | Some o =>
          if decide (o_p1 o >= 1) then
            match fuel with
            | 0%nat => Err OutOfFuel
            | S k => clock_scan k (c_upd c v (fun o => o_set_p1 o (o_p1 o - 1)))
                                (v :: removelast q)
            end
          else Ok (c, q, v)
      end
  end.

(** Clock.c:224-238 *)
Definition clock_evict (s : qstate) (_ : req) : res qstate :=
  let! (c, q, v) := clock_scan (clock_bound (q_c s) (q_q s)) (q_c s) (q_q s) in
  let! c := cache_evict_base c v in
  Ok (mkQ c (removelast q)).

Definition clock_ops (max_freq : Z) : ops qstate :=
  mkOps (clock_find max_freq) q_can_insert clock_insert clock_evict clock_to_evict q_remove
        q_occ q_nobj q_size q_md q_tick.
(** Clock.c:69: obj_md_size = 0. *)
Definition clock_init (size : Z) (adm : admissioner) : qstate := q_init size 0 adm.

(** Sieve.  [o_p1] is sieve.freq; [v_ptr] is params->pointer. *)
Record sieve_state : Type := mkSieve {
  v_c : cache;
  v_q : list Z;
  v_ptr : option Z
}.

(** queue.prev of [x]: the neighbour on the head side. *)
Fixpoint q_prev (x : Z) (q : list Z) : option Z :=
  match q with
  | a :: ((b :: _) as q') => if decide (b = x) then Some a else q_prev x q'
  | _ => None
  end.

(** Sieve.c:125-133 *)
Definition sieve_find (s : sieve_state) (r : req) (u : bool) : res (sieve_state * bool) :=
  let '(c, b) := cache_find_base (v_c s) r u in
  if (b && u)%bool then
    Ok (mkSieve (c_upd c (r_id r) (fun o => o_set_p1 o 1)) (v_q s) (v_ptr s), b)
  else Ok (mkSieve c (v_q s) (v_ptr s), b).

(** Sieve.c:146-153 *)
Definition sieve_insert (s : sieve_state) (r : req) : res sieve_state :=
  let! c := cache_insert_base (v_c s) r in
  Ok (mkSieve (c_upd c (r_id r) (fun o => o_set_p1 o 0)) (r_id r :: v_q s) (v_ptr s)).

Definition sieve_can_insert (s : sieve_state) (r : req) : res (sieve_state * bool) :=
  let '(c, b) := cache_can_insert_default (v_c s) r in Ok (mkSieve c (v_q s) (v_ptr s), b).

(** Sieve.c:175-177 and 182-184: walk towards the head while the counter is
    above [f].  [cur] lists the ids from the starting point to the head. *)
Fixpoint sieve_walk (c : cache) (cur : list Z) (f : Z) : res (option Z) :=
  match cur with
  | [] => Ok None
  | x :: cur' =>
      match c_tbl c !! x with
      | None => Err UseAfterFree
      | Some o => if decide (o_p1 o > f) then sieve_walk c cur' f else Ok (Some x)
      end
  end.

(** ids from [x] towards the head, [x] included; [] if [x] is not queued. *)
Fixpoint from_id (x : Z) (rq : list Z) : list Z :=
  match rq with
  | [] => []
  | y :: rq' => if decide (y = x) then rq else from_id x rq'
  end.

(** Sieve.c:165-190 (Sieve_to_evict_with_freq).  A pointer to an object that is
    no longer queued would be a dangling pointer. *)
Definition sieve_to_evict_with_freq (s : sieve_state) (f : Z) : res (option Z) :=
  let rq := rev (v_q s) in
  let! start := match v_ptr s with
                | None => Ok rq
                | Some p => if decide (p ∈ rq) then Ok (from_id p rq) else Err UseAfterFree
                end in
  let! v := sieve_walk (v_c s) start f in
  match v with
  | Some x => Ok (Some x)
  | None => sieve_walk (v_c s) rq f
  end.

(** Sieve.c:192-207 (Sieve_to_evict): raise the threshold until a victim is
    found. *)
Fixpoint sieve_to_evict_loop (fuel : nat) (s : sieve_state) (f : Z) : res Z :=
  let! v := sieve_to_evict_with_freq s f in
  match v with
  | Some x => Ok x
  | None => match fuel with
            | 0%nat => Err OutOfFuel
            | S k => sieve_to_evict_loop k s (f + 1)
            end
  end.

Definition sieve_to_evict (s : sieve_state) (_ : req) : res (sieve_state * option Z) :=
  let! v := sieve_to_evict_loop (clock_bound (v_c s) (v_q s) + 1) s 0 in
  Ok (s, Some v).

(** Sieve.c:224-227: decrement while positive, wrapping from the head to the
    tail. *)
Fixpoint sieve_scan (fuel : nat) (c : cache) (q : list Z) (obj : Z) : res (cache * Z) :=
  match c_tbl c !! obj with
  | None => Err UseAfterFree
  | Some o =>
      if decide (o_p1 o > 0) then
        match fuel with
        | 0%nat => Err OutOfFuel
        | S k =>
            let c' := c_upd c obj (fun o => o_set_p1 o (o_p1 o - 1)) in
            match q_prev obj q with
            | Some p => sieve_scan k c' q p
            | None => match last q with
                      | None => Err NullDeref
                      | Some t => sieve_scan k c' q t
                      end
            end
        end
      else Ok (c, obj)
  end.

(** Sieve.c:218-232 *)
Definition sieve_evict (s : sieve_state) (_ : req) : res sieve_state :=
  let! obj := match v_ptr s with
              | Some p => Ok p
              | None => match last (v_q s) with Some t => Ok t | None => Err NullDeref end
              end in
  let! (c, v) := sieve_scan (clock_bound (v_c s) (v_q s)) (v_c s) (v_q s) obj in
  let ptr := q_prev v (v_q s) in
  let! c := cache_evict_base c v in
  Ok (mkSieve c (q_del v (v_q s)) ptr).

(** Sieve.c:234-242, 257-266 *)
Definition sieve_remove (s : sieve_state) (id : Z) : res (sieve_state * bool) :=
  match c_tbl (v_c s) !! id with
  | None => Ok (s, false)
  | Some _ =>
      let ptr := if decide (v_ptr s = Some id) then q_prev id (v_q s) else v_ptr s in
      let! c := cache_remove_obj_base (v_c s) id in
      Ok (mkSieve c (q_del id (v_q s)) ptr, true)
  end.

Definition sieve_ops : ops sieve_state :=
  mkOps sieve_find sieve_can_insert sieve_insert sieve_evict sieve_to_evict sieve_remove
        (fun s => c_occ (v_c s)) (fun s => c_nobj (v_c s)) (fun s => c_size (v_c s))
        (fun s => c_md (v_c s)) (fun s => mkSieve (c_incr_nreq (v_c s)) (v_q s) (v_ptr s)).
(** Sieve.c:58-69 (obj_md_size 1 with consider_obj_metadata). *)
Definition sieve_init (consider_md : bool) (size : Z) (adm : admissioner) : sieve_state :=
  mkSieve (cache_init size (if consider_md then 1 else 0) adm) [] None.
