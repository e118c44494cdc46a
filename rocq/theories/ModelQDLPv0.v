(** QDLPv0 (cache/eviction/priv/QDLPv0.c): a small FIFO in front of a Clock with
    a hand, and a ghost queue of objects that left the FIFO without a hit.  All
    three kinds of objects live in one hash table. *)
From stdpp Require Import gmap list numbers fin_maps.
From Verif Require Import Base Driver ModelQueue ModelSLRU.
Open Scope Z_scope.

(** params->clock_pointer: NULL, an object of the Clock, or an object that was
    freed. *)
Inductive hand : Type := HNull | HAt (id : Z) | HFreed.

(** cache/eviction/priv/QDLPv0.c:43-67 (QDLPv0_params_t).  The queues are lists of
    ids, head first.  [o_p1] is QDLP.cache_id (1 FIFO, 2 Clock, 3 ghost), [o_p2]
    QDLP.freq.  Simplifications: n_fifo_obj and n_fifo_ghost_obj, which are never
    read, QDLP.visited, never read, and the int32_t range of QDLP.freq are left out. *)
Record qdl : Type := mkQdl {
  ql_c : cache;
  ql_f : list Z;
  ql_k : list Z;
  ql_g : list Z;
  ql_fb : Z;              (* n_fifo_byte *)
  ql_kn : Z;              (* n_clock_obj *)
  ql_kb : Z;              (* n_clock_byte *)
  ql_gb : Z;              (* n_fifo_ghost_byte *)
  ql_fs : Z;              (* fifo_size *)
  ql_ks : Z;              (* clock_size *)
  ql_gs : Z;              (* fifo_ghost_size *)
  ql_hand : hand;
  ql_vt : Z               (* vtime_last_check_is_ghost *)
}.

(** the record with other parts replaced *)
Definition ql_with (s : qdl) (c : cache) : qdl :=
  mkQdl c (ql_f s) (ql_k s) (ql_g s) (ql_fb s) (ql_kn s) (ql_kb s) (ql_gb s) (ql_fs s) (ql_ks s) (ql_gs s)
    (ql_hand s) (ql_vt s).
Definition ql_fifo (s : qdl) (f : list Z) (fb : Z) : qdl :=
  mkQdl (ql_c s) f (ql_k s) (ql_g s) fb (ql_kn s) (ql_kb s) (ql_gb s) (ql_fs s) (ql_ks s) (ql_gs s)
    (ql_hand s) (ql_vt s).
Definition ql_clock (s : qdl) (k : list Z) (kn kb : Z) (h : hand) : qdl :=
  mkQdl (ql_c s) (ql_f s) k (ql_g s) (ql_fb s) kn kb (ql_gb s) (ql_fs s) (ql_ks s) (ql_gs s)
    h (ql_vt s).
Definition ql_ghost (s : qdl) (g : list Z) (gb : Z) : qdl :=
  mkQdl (ql_c s) (ql_f s) (ql_k s) g (ql_fb s) (ql_kn s) (ql_kb s) gb (ql_fs s) (ql_ks s) (ql_gs s)
    (ql_hand s) (ql_vt s).
Definition ql_seen (s : qdl) (vt : Z) : qdl :=
  mkQdl (ql_c s) (ql_f s) (ql_k s) (ql_g s) (ql_fb s) (ql_kn s) (ql_kb s) (ql_gb s) (ql_fs s) (ql_ks s) (ql_gs s)
    (ql_hand s) vt.

(** QDLPv0.c:104-159 (QDLPv0_init): [md] is 1 when object metadata is counted,
    else 0; [fs] is cache_size * fifo_ratio (a double, truncated), here any
    integer. *)
Definition qdl_init (size md fs : Z) (a : admissioner) : qdl :=
  mkQdl (cache_init size md a) [] [] [] 0 0 0 0 fs (size - fs) (size - fs) HNull (-1).

(** obj->obj_size + cache->obj_md_size, uint32_t arithmetic *)
Definition ql_bytes (c : cache) (o : cobj) : Z := u32 (o_size o + c_md c).
(** dereferencing a queued object *)
Definition ql_obj (c : cache) (id : Z) : res cobj :=
  match c_tbl c !! id with Some o => Ok o | None => Err UseAfterFree end.
(** setting QDLP.cache_id and QDLP.freq *)
Definition ql_put (c : cache) (id cid fr : Z) : cache := c_upd c id (fun o => o_set_p2 (o_set_p1 o cid) fr).
(** cache/cacheObj.c:57-76 (remove_obj_from_list) *)
Definition unlink (id : Z) (l : list Z) : list Z := filter (fun x => x <> id) l.
(** dataStructure/hashtable/chainedHashTableV2.c (hashtable_delete): the object
    leaves the table, the counters of the cache stay. *)
Definition tbl_delete (c : cache) (id : Z) : cache :=
  mkCache (c_size c) (c_md c) (c_nreq c) (c_nobj c) (c_occ c) (delete id (c_tbl c)) (c_adm c).

(** QDLPv0.c:416-441 (QDLPv0_remove_obj).  The hand is not looked at: if it stood
    on the object it is left pointing to freed memory. *)
Definition qdl_remove_obj (s : qdl) (id : Z) : res qdl :=
  let! o := ql_obj (ql_c s) id in
  let w := ql_bytes (ql_c s) o in
  if decide (o_p1 o = 1) then
    let! c := cache_remove_obj_base (ql_c s) id in
    Ok (ql_with (ql_fifo s (unlink id (ql_f s)) (ql_fb s - w)) c)
  else if decide (o_p1 o = 2) then
    let! c := cache_remove_obj_base (ql_c s) id in
    let h := match ql_hand s with HAt x => if decide (x = id) then HFreed else HAt x | h => h end in
    Ok (ql_with (ql_clock s (unlink id (ql_k s)) (ql_kn s - 1) (ql_kb s - w) h) c)
  else if decide (o_p1 o = 3) then
    Ok (ql_with (ql_ghost s (unlink id (ql_g s)) (ql_gb s - w)) (tbl_delete (ql_c s) id))
  else Ok s.

(** QDLPv0.c:216-265 (QDLPv0_find).  lazy_promotion is always true (line 127):
    lines 229-241 are dead. *)
Definition qdl_find (s : qdl) (r : req) (upd : bool) : res (qdl * bool) :=
  let '(c, found) := cache_find_base (ql_c s) r upd in
  let s := ql_with s c in
  if found : bool then
    let! o := ql_obj c (r_id r) in
    let hit := bool_decide (o_p1 o <> 3) in
    if upd then
      if decide (o_p1 o = 1) then
        Ok (ql_with s (c_upd c (r_id r) (fun o => o_set_p2 o (o_p2 o + 1))), hit)
      else if decide (o_p1 o = 2) then
        if decide (o_p2 o < 1) then
          Ok (ql_with s (c_upd c (r_id r) (fun o => o_set_p2 o (o_p2 o + 1))), hit)
        else Ok (s, hit)
      else if decide (o_p1 o = 3) then
        let! s := qdl_remove_obj (ql_seen s (c_nreq c)) (r_id r) in
        Ok (s, hit)
      else Err AssertFail
    else Ok (s, hit)
  else Ok (s, false).

(** QDLPv0.c:277-303 (QDLPv0_insert) *)
Definition qdl_insert (s : qdl) (r : req) : res qdl :=
  let! c := cache_insert_base (ql_c s) r in
  let! o := ql_obj c (r_id r) in
  let w := ql_bytes c o in
  if decide (c_nreq c = ql_vt s) then
    Ok (ql_with (ql_clock s (r_id r :: ql_k s) (ql_kn s + 1) (ql_kb s + w) (ql_hand s)) (ql_put c (r_id r) 2 0))
  else
    Ok (ql_with (ql_fifo s (r_id r :: ql_f s) (ql_fb s + w)) (ql_put c (r_id r) 1 0)).

(** QDLPv0.c:315-324 (QDLPv0_to_evict) *)
Definition qdl_to_evict (s : qdl) (_ : req) : res (qdl * option Z) :=
  match last (ql_f s) with
  | Some x => Ok (s, Some x)
  | None => Err AssertFail
  end.

(** QDLPv0.c:345-354: walk towards the head, clearing one hit per object, and go
    on from the tail.  [rq] is the Clock tail first, [cur] what is left from the
    pointer on.  The result is the object without hits and its queue.prev. *)
Fixpoint qdl_scan (fuel : nat) (c : cache) (rq cur : list Z) (n_loop : Z) : res (cache * Z * hand) :=
  match fuel with
  | O => Err OutOfFuel
  | S n =>
      match cur with
      | [] => Err NullDeref
      | x :: cur' =>
          let! o := ql_obj c x in
          if decide (o_p2 o > 0) then
            let c := c_upd c x (fun o => o_set_p2 o (o_p2 o - 1)) in
            match cur' with
            | [] => if decide (n_loop + 1 < 1000) then qdl_scan n c rq rq (n_loop + 1) else Err AssertFail
            | _ => qdl_scan n c rq cur' n_loop
            end
          else Ok (c, x, match cur' with [] => HNull | y :: _ => HAt y end)
      end
  end.

(** QDLPv0.c:335-361 (QDLPv0_clock_evict).  The fuel covers two rounds, which
    is proved enough. *)
Definition qdl_clock_evict (s : qdl) : res qdl :=
  let rq := rev (ql_k s) in
  let! cur := match ql_hand s with
              | HNull => Ok rq
              | HAt x => Ok (from_id x rq)
              | HFreed => Err UseAfterFree
              end in
  let! (c, x, h) := qdl_scan (S (2 * length rq)) (ql_c s) rq cur 0 in
  let! o := ql_obj c x in
  let! c' := cache_evict_base c x in
  Ok (ql_with (ql_clock s (unlink x (ql_k s)) (ql_kn s - 1) (ql_kb s - ql_bytes c o) h) c').

(** cache/cache.c:297-316 (cache_evict_base) with remove_from_hashtable = false:
    only the counters change. *)
Definition evict_base_keep (c : cache) (o : cobj) : cache :=
  mkCache (c_size c) (c_md c) (c_nreq c) (c_nobj c - 1) (c_occ c - ql_bytes c o) (c_tbl c) (c_adm c).

(** QDLPv0.c:372-414 (QDLPv0_evict) *)
Definition qdl_evict (s : qdl) (_ : req) : res qdl :=
  if decide (ql_fb s > ql_fs s \/ ql_kn s = 0) then
    match last (ql_f s) with
    | None => Err NullDeref
    | Some x =>
        let! o := ql_obj (ql_c s) x in
        let w := ql_bytes (ql_c s) o in
        let s := ql_fifo s (unlink x (ql_f s)) (ql_fb s - w) in
        if decide (o_p2 o > 0) then
          let s := ql_with (ql_clock s (x :: ql_k s) (ql_kn s + 1) (ql_kb s + w) (ql_hand s)) (ql_put (ql_c s) x 2 0) in
          while_ (S (length (ql_k s))) (fun s => Ok (bool_decide (ql_kb s > ql_ks s))) qdl_clock_evict s
        else
          let c := c_upd (evict_base_keep (ql_c s) o) x (fun o => o_set_p1 o 3) in
          let s := ql_with (ql_ghost s (x :: ql_g s) (ql_gb s + w)) c in
          while_ (S (length (ql_g s))) (fun s => Ok (bool_decide (ql_gb s > ql_gs s)))
            (fun s => match last (ql_g s) with None => Err NullDeref | Some y => qdl_remove_obj s y end) s
    end
  else qdl_clock_evict s.

(** QDLPv0.c:456-464 (QDLPv0_remove) *)
Definition qdl_remove (s : qdl) (id : Z) : res (qdl * bool) :=
  match c_tbl (ql_c s) !! id with
  | None => Ok (s, false)
  | Some _ => let! s := qdl_remove_obj s id in Ok (s, true)
  end.

(** cache/cache.c:141-161 through cache_struct_init, and n_req += 1
    (cache.c:226) *)
Definition qdl_can_insert (s : qdl) (r : req) : res (qdl * bool) :=
  let '(c, ok) := cache_can_insert_default (ql_c s) r in Ok (ql_with s c, ok).
Definition qdl_tick (s : qdl) : qdl := ql_with s (c_incr_nreq (ql_c s)).

Definition qdl_ops : ops qdl :=
  mkOps qdl_find qdl_can_insert qdl_insert qdl_evict qdl_to_evict qdl_remove
    (fun s => c_occ (ql_c s)) (fun s => c_nobj (ql_c s)) (fun s => c_size (ql_c s)) (fun s => c_md (ql_c s)) qdl_tick.
