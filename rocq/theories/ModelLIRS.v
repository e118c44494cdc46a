(** cache/eviction/LIRS.c: the stack S and the queue Q are LRU caches, a third
    one (LRU_nh) lists the non-resident objects of S.  Line numbers refer to
    LIRS.c.  Objects of S and Q carry [o_p1], LIRS.is_LIR, and [o_p2],
    LIRS.in_cache (include/libCacheSim/cacheObj.h:46-49), 0 or 1.

    Lines 412-413, 419-420, 424, 433-435 and 540 read an object just after the
    call that freed it.  [stale] says what such a read returns: the old
    contents (glibc's free overwrites the first 16 bytes of a chunk only,
    obj_size and LIRS are behind them), or, strictly, no value at all. *)
From stdpp Require Import gmap list numbers fin_maps.
From Verif Require Import Base Driver ModelQueue ModelTwoQ ModelSLRU.
Open Scope Z_scope.

(** 18-28 (LIRS_params_t); [li_c] has the used fields of the outer cache_t,
    whose hash table stays empty.  nonresident, which only debug output reads,
    is left out. *)
Record lirs : Type := mkLI {
  li_c : cache;
  li_s : qstate;     (* LRU_s *)
  li_q : qstate;     (* LRU_q *)
  li_nh : qstate;    (* LRU_nh *)
  li_hl : Z;         (* hirs_limit *)
  li_ll : Z;         (* lirs_limit *)
  li_hc : Z;         (* hirs_count *)
  li_lc : Z          (* lirs_count *)
}.

Definition li_set_c (s : lirs) (x : cache) : lirs :=
  mkLI x (li_s s) (li_q s) (li_nh s) (li_hl s) (li_ll s) (li_hc s) (li_lc s).
Definition li_set_s (s : lirs) (x : qstate) : lirs :=
  mkLI (li_c s) x (li_q s) (li_nh s) (li_hl s) (li_ll s) (li_hc s) (li_lc s).
Definition li_set_q (s : lirs) (x : qstate) : lirs :=
  mkLI (li_c s) (li_s s) x (li_nh s) (li_hl s) (li_ll s) (li_hc s) (li_lc s).
Definition li_set_nh (s : lirs) (x : qstate) : lirs :=
  mkLI (li_c s) (li_s s) (li_q s) x (li_hl s) (li_ll s) (li_hc s) (li_lc s).
(** The counters hirs_count and lirs_count are uint64_t. *)
Definition li_add_h (s : lirs) (d : Z) : lirs :=
  mkLI (li_c s) (li_s s) (li_q s) (li_nh s) (li_hl s) (li_ll s) (u64 (li_hc s + d)) (li_lc s).
Definition li_add_l (s : lirs) (d : Z) : lirs :=
  mkLI (li_c s) (li_s s) (li_q s) (li_nh s) (li_hl s) (li_ll s) (li_hc s) (u64 (li_lc s + d)).
(** cache->occupied_byte += b; cache->n_obj += n *)
Definition li_account (s : lirs) (b n : Z) : lirs :=
  let c := li_c s in
  li_set_c s (mkCache (c_size c) (c_md c) (c_nreq c) (c_nobj c + n) (c_occ c + b) (c_tbl c) (c_adm c)).

(** A read through a pointer to an object of queue [q]: the object may have
    been freed since the pointer was taken. *)
Definition deref (q : qstate) (id : Z) : res cobj :=
  match c_tbl (q_c q) !! id with None => Err UseAfterFree | Some o => Ok o end.
(** A write through such a pointer. *)
Definition poke (q : qstate) (id : Z) (f : cobj -> cobj) : qstate := mkQ (c_upd (q_c q) id f) (q_q q).
(** is_LIR = l; in_cache = r *)
Definition flags (l r : Z) (o : cobj) : cobj := o_set_p2 (o_set_p1 o l) r.
Definition is_lir (o : cobj) : bool := negb (Z.eqb (o_p1 o) 0).
Definition in_cache (o : cobj) : bool := negb (Z.eqb (o_p2 o) 0).

(** The request given to inner evict calls is NULL and not read. *)
Definition no_req : req := mkReq 0 0 0 0 0.

(** LRU_nh->remove (475, 522) *)
Definition li_nh_remove (s : lirs) (id : Z) : res lirs :=
  let! (nh, _) := q_remove (li_nh s) id in Ok (li_set_nh s nh).

(** 508-531 (LIRS_prune) *)
Definition li_prune (s : lirs) : res lirs :=
  while_ (S (length (q_q (li_s s))))
    (fun s =>
       match last (q_q (li_s s)) with
       | None => Ok false          (* q_tail = q_head = NULL *)
       | Some t =>
           if decide (head (q_q (li_s s)) = Some t) then Ok false
           else let! o := deref (li_s s) t in Ok (negb (is_lir o))
       end)
    (fun s =>
       match last (q_q (li_s s)) with
       | None => Err NullDeref
       | Some t =>
           let! o := deref (li_s s) t in
           let! s := if in_cache o then Ok s else li_nh_remove s t in
           let! q := q_evict_tail (li_s s) no_req in
           Ok (li_set_s s q)
       end) s.

(** 621-648 (evictHIR) *)
Definition li_evict_hir (s : lirs) : res lirs :=
  match last (q_q (li_q s)) with
  | None => Err NullDeref
  | Some v =>
      let! o := deref (li_q s) v in
      let r := req_of_obj v o in
      let s := li_add_h s (- o_size o) in
      let! q := q_evict_tail (li_q s) no_req in
      let s := li_set_q s q in
      let! s :=
        match c_tbl (q_c (li_s s)) !! v with
        | None => Ok s
        | Some _ =>
            let s := li_set_s s (poke (li_s s) v (fun o => o_set_p2 o 0)) in
            let! nh := q_insert (li_nh s) r in
            Ok (li_set_nh s nh)
        end in
      Ok (li_account s (- (r_size r + c_md (li_c s))) (-1))
  end.

(** 587-619 (evictLIR) *)
Definition li_evict_lir (s : lirs) : res lirs :=
  match last (q_q (li_s s)) with
  | None => Err NullDeref
  | Some v =>
      let! o := deref (li_s s) v in
      let r := req_of_obj v o in
      let s := li_add_l s (- o_size o) in
      let! q := q_evict_tail (li_s s) no_req in
      let s := li_account (li_set_s s q) (- (r_size r + c_md (li_c s))) (-1) in
      let! s :=
        if decide (r_size r <= li_hl s) then
          let! s := while_ (S (length (q_q (li_q s))))
                      (fun s => Ok (bool_decide (li_hc s + r_size r > li_hl s))) li_evict_hir s in
          let! q := q_insert (li_q s) r in
          let s := li_add_h (li_set_q s (poke q v (flags 0 1))) (r_size r) in
          Ok (li_account s (r_size r + c_md (li_c s)) 1)
        else Ok s in
      li_prune s
  end.

(** The loops 471-473, 544-546 and 575-577: [q] is the queue holding the object
    whose size is read in the condition. *)
Definition li_make_room (q : lirs -> qstate) (id : Z) (s : lirs) : res lirs :=
  while_ (S (length (q_q (li_s s))))
    (fun s => let! o := deref (q s) id in Ok (bool_decide (li_lc s + o_size o > li_ll s)))
    li_evict_lir s.

Section lirs.
  Context (stale : bool).

  (** A read of an object that the directly preceding call freed; [o] are its
      contents before that call. *)
  Definition freed (o : cobj) : res cobj := if stale then Ok o else Err UseAfterFree.

  (** 533-554 (hit_RD_HIRinS); [inq]: cache_obj_q is not NULL. *)
  Definition li_hit_s (s : lirs) (id : Z) (inq : bool) : res lirs :=
    let! s :=
      if inq then
        let! o := deref (li_q s) id in
        let s := li_add_h s (- o_size o) in
        let! (q, _) := q_remove (li_q s) id in
        let! o := freed o in
        Ok (li_account (li_set_q s q) (- o_size o) (-1))
      else Ok s in
    let! s := li_make_room li_s id s in
    let s := li_set_s s (poke (li_s s) id (fun o => o_set_p1 o 1)) in
    let! o := deref (li_s s) id in
    Ok (li_account (li_add_l s (o_size o)) (o_size o) 1).

  (** 566-585 (hit_RD_HIRinQ) *)
  Definition li_hit_q (s : lirs) (id : Z) : res lirs :=
    let! o := deref (li_q s) id in
    let r := req_of_obj id o in
    let! s := li_make_room li_q id s in
    let! q := q_insert (li_s s) r in
    Ok (li_set_s s (poke q id (flags 0 1))).

  (** 201-239 (LIRS_find) *)
  Definition li_find (s : lirs) (r : req) (u : bool) : res (lirs * bool) :=
    let! (qs, bs) := lru_find (li_s s) r u in
    let s := li_set_s s qs in
    let! (qq, bq) := lru_find (li_q s) r u in
    let s := li_set_q s qq in
    if bs : bool then
      let! o := deref (li_s s) (r_id r) in
      if is_lir o then let! s := li_prune s in Ok (s, true)
      else if in_cache o then let! s := li_hit_s s (r_id r) bq in Ok (s, true)
      else Ok (s, false)
    else if bq : bool then
      let! o := deref (li_q s) (r_id r) in
      if in_cache o then let! s := li_hit_q s (r_id r) in Ok (s, true)
      else Err AssertFail
    else Ok (s, false).

  (** Insert into a queue and set the flags of the new object (272-278,
      290-292, 298-304, 311-317). *)
  Definition li_push (l : Z) (q : qstate) (r : req) : res qstate :=
    let! q := q_insert q r in Ok (poke q (r_id r) (flags l 1)).

  (** 276-282, 298-307, 311-320: a new HIR object, in S and in Q *)
  Definition li_new_hir (s : lirs) (r : req) : res lirs :=
    let! qs := li_push 0 (li_s s) r in
    let! qq := li_push 0 (li_q s) r in
    let! o := deref qs (r_id r) in
    let s := li_add_h (li_set_q (li_set_s s qs) qq) (o_size o) in
    Ok (li_account s (o_size o + c_md (li_c s)) 1).

  (** 252-325 (LIRS_insert) *)
  Definition li_insert (s : lirs) (r : req) : res lirs :=
    match c_tbl (q_c (li_s s)) !! r_id r, c_tbl (q_c (li_q s)) !! r_id r with
    | Some o, _ =>
        if (negb (is_lir o) && negb (in_cache o))%bool then
          let s := li_set_s s (poke (li_s s) (r_id r) (flags 1 1)) in
          Ok (li_account (li_add_l s (o_size o)) (o_size o + c_md (li_c s)) 1)
        else Ok s
    | None, Some o => if in_cache o then Ok s else li_new_hir s r
    | None, None =>
        if decide (li_lc s + r_size r <= li_ll s) then
          let! qs := li_push 1 (li_s s) r in
          let! o := deref qs (r_id r) in
          let s := li_add_l (li_set_s s qs) (o_size o) in
          Ok (li_account s (o_size o + c_md (li_c s)) 1)
        else li_new_hir s r
    end.

  (** 337-340: assert(false) *)
  Definition li_to_evict (s : lirs) (_ : req) : res (lirs * option Z) := Err AssertFail.

  (** the loops 360-362 and 371-373 *)
  Definition li_drain (s : lirs) : res lirs :=
    while_ (S (length (q_q (li_q s)))) (fun s => Ok (bool_decide (li_hc s >= li_hl s))) li_evict_hir s.

  (** 350-386 (LIRS_evict) *)
  Definition li_evict (s : lirs) (r : req) : res lirs :=
    match c_tbl (q_c (li_s s)) !! r_id r, c_tbl (q_c (li_q s)) !! r_id r with
    | Some o, _ =>
        if (negb (is_lir o) && negb (in_cache o))%bool then
          let! s := li_drain s in li_evict_lir s
        else Ok s
    | None, Some o => if in_cache o then Ok s else li_drain s
    | None, None =>
        if decide (li_lc s + r_size r > li_ll s /\ li_hc s + r_size r > li_hl s) then li_evict_hir s
        else Ok s
    end.

  (** 402-447 (LIRS_remove) *)
  Definition li_remove (s : lirs) (id : Z) : res (lirs * bool) :=
    match c_tbl (q_c (li_s s)) !! id, c_tbl (q_c (li_q s)) !! id with
    | Some os, oq =>
        let! (qs, _) := q_remove (li_s s) id in
        let s := li_set_s s qs in
        let! o := freed os in
        if is_lir os then
          let! s := li_prune (li_account (li_add_l s (- o_size o)) (- o_size o) (-1)) in
          Ok (s, true)
        else
          let s := if in_cache os then li_account (li_add_h s (- o_size o)) (- o_size o) (-1) else s in
          match oq with
          | None => Ok (s, true)
          | Some _ => let! (qq, _) := q_remove (li_q s) id in Ok (li_set_q s qq, true)
          end
    | None, Some oq =>
        let! (qq, _) := q_remove (li_q s) id in
        let s := li_set_q s qq in
        let! o := freed oq in
        if in_cache o then Ok (li_account (li_add_h s (- o_size o)) (- o_size o) (-1), true)
        else Err AssertFail
    | None, None => Ok (s, false)
    end.

  (** 459-506 (LIRS_can_insert); abort() is the last line. *)
  Definition li_can_insert (s : lirs) (r : req) : res (lirs * bool) :=
    let '(c, ok) := cache_can_insert_default (li_c s) r in
    let s := li_set_c s c in
    if negb ok then Ok (s, false)
    else
      match c_tbl (q_c (li_s s)) !! r_id r, c_tbl (q_c (li_q s)) !! r_id r with
      | Some o, _ =>
          if (negb (is_lir o) && negb (in_cache o))%bool then
            let! s := li_make_room li_s (r_id r) s in
            let! s := li_nh_remove s (r_id r) in
            Ok (s, true)
          else Err AssertFail
      | None, Some _ => Err AssertFail
      | None, None =>
          if decide (r_size r > li_ll s \/ r_size r > li_hl s) then Ok (s, false)
          else if decide (li_lc s + r_size r > li_ll s /\ li_hc s + r_size r > li_hl s) then
            let! s := while_ (S (length (q_q (li_q s))))
                        (fun s => Ok (bool_decide (li_hc s + r_size r > li_hl s))) li_evict_hir s in
            Ok (s, true)
          else Ok (s, true)
      end.

  (** 650-663 (limitStack) *)
  Definition li_limit_stack (s : lirs) : res lirs :=
    while_ (S (length (q_q (li_nh s))))
      (fun s => Ok (bool_decide (c_occ (q_c (li_s s)) > 2 * c_size (li_c s) /\ q_q (li_nh s) <> [])))
      (fun s =>
         match last (q_q (li_nh s)) with
         | None => Err NullDeref
         | Some v =>
             let! (qs, _) := q_remove (li_s s) v in
             let! nh := q_evict_tail (li_nh s) no_req in
             Ok (li_set_nh (li_set_s s qs) nh)
         end) s.

  Definition li_ops : ops lirs :=
    mkOps li_find li_can_insert li_insert li_evict li_to_evict li_remove
      (fun s => c_occ (li_c s)) (fun s => c_nobj (li_c s)) (fun s => c_size (li_c s)) (fun s => c_md (li_c s))
      (fun s => li_set_c s (c_incr_nreq (li_c s))).

  (** 152-183 (LIRS_get) *)
  Definition li_get (fuel : nat) (s : lirs) (r : req) : res (lirs * bool) :=
    let! (s, b) := cache_get_base li_ops fuel s r in
    let! s := li_limit_stack s in
    Ok (s, b).

  (** [step] and [run] of Driver.v with LIRS_get for cache->get. *)
  Definition li_step (fuel : nat) (s : lirs) (c : call) : res (lirs * obs) :=
    match c with
    | CGet r => let! (s, b) := li_get fuel s r in Ok (s, OBool b)
    | _ => step li_ops fuel s c
    end.

  Fixpoint li_run (fuel : nat) (s : lirs) (cs : list call) : res (lirs * list obs) :=
    match cs with
    | [] => Ok (s, [])
    | c :: cs =>
        let! (s, o) := li_step fuel s c in
        let! (s, os) := li_run fuel s cs in
        Ok (s, o :: os)
    end.
End lirs.

(** 73-116 (LIRS_init).  [h] is MAX(1, (uint64_t)(0.01 * cache_size)), a
    floating-point product; [md] is 16 with consider_obj_metadata and 0
    otherwise, for the outer cache and for the three LRU caches. *)
Definition li_init (size h md : Z) (adm : admissioner) : lirs :=
  mkLI (cache_init size md adm) (q_init (size - h) md AdmNone) (q_init h md AdmNone) (q_init size md AdmNone)
    h (u64 (size - h)) 0 0.
