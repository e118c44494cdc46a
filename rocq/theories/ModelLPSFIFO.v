(** LP_SFIFO: cache/eviction/fifo/LP_SFIFO.c, a segmented FIFO that promotes
    lazily (CLI name lp-sfifo).  Line numbers refer to LP_SFIFO.c.  The state is
    the record [segv0] of ModelSegV0.v: the outer cache_t and an array of FIFO
    caches; [o_p1] of an object is SFIFO.freq.  req_local is written before each
    use within one function, so it is a local value here. *)
From stdpp Require Import gmap list numbers fin_maps.
From Verif Require Import Base Driver ModelQueue ModelTwoQ ModelSLRU ModelSegV0.
Open Scope Z_scope.

(** 63-101 (LP_SFIFO_init), 380-403: [n_seg] is the value of n-seg after parsing,
    [sizes] the array per_seg_max_size that the last seg-size parameter allocated
    (4 equal parts unless given; its floating point quotients are not modelled).
    The loop of 95-98 reads n_seg entries of that array. *)
Fixpoint lps_segs (n_seg : nat) (sizes : list Z) : res (list qstate) :=
  match n_seg with
  | O => Ok []
  | Datatypes.S n =>
      match sizes with
      | [] => Err OutOfBounds
      | z :: sizes => let! qs := lps_segs n sizes in Ok (fifo_init z AdmNone :: qs)
      end
  end.
Definition lps_init (cap : Z) (n_seg : nat) (sizes : list Z) (adm : admissioner) : res segv0 :=
  let! qs := lps_segs n_seg sizes in Ok (mkV0 (cache_init cap 0 adm) qs).

(** A write to SFIFO.freq (an int32_t) of the object [id] of the queue [q]. *)
Definition lps_set (q : qstate) (id fr : Z) : qstate := mkQ (c_upd (q_c q) id (fun o => o_set_p1 o fr)) (q_q q).

(** 172-178 *)
Definition lps_bump (i : nat) (q : qstate) (id : Z) : res qstate :=
  match c_tbl (q_c q) !! id with
  | None => Err UseAfterFree
  | Some o =>
      if decide (i = O) then
        Ok (if decide (o_p1 o = 0) then lps_set q id 1 else q)
      else if decide (o_p1 o + 1 >= 2 ^ 31) then Err IntOverflow
      else Ok (lps_set q id (o_p1 o + 1))
  end.

(** 164-185 (LP_SFIFO_find): update_cache is not looked at *)
Definition lps_find (s : segv0) (r : req) (_ : bool) : res (segv0 * bool) :=
  let! i := v0_scan fifo_find (v0_q s) r in
  match i with
  | None => Ok (s, false)
  | Some i =>
      let! q := at_ (v0_q s) i in
      let! q := lps_bump i q (r_id r) in
      Ok (v0_set_q s (<[i := q]> (v0_q s)), true)
  end.

(** 302-308: the tail of [i] to the head of [j], keeping freq *)
Definition lps_move (i j : nat) (r : req) (qs : list qstate) : res (list qstate) :=
  let! q := at_ qs i in
  let! (_, v) := q_to_evict_tail q r in
  match v with
  | None => Err NullDeref
  | Some id =>
      match c_tbl (q_c q) !! id with
      | None => Err UseAfterFree
      | Some o =>
          let! qs := v0_evict_at i qs r in
          let! n := at_ qs j in
          let! n := q_insert n (req_of_obj id o) in
          Ok (<[j := lps_set n id (o_p1 o)]> qs)
      end
  end.

(** the conditions of 280-281, 300-301 and 310-311; the size of each FIFO is its
    entry of per_seg_max_size (96-97) *)
Definition lps_over (i : nat) (qs : list qstate) : res bool :=
  let! q := at_ qs i in Ok (bool_decide (q_occ q > q_size q)).

(** 288-314 (LP_SFIFO_demote) *)
Fixpoint lps_demote (cap : Z) (r : req) (i : nat) (qs : list qstate) : res (list qstate) :=
  match i with
  | O => if decide (foldr (fun q acc => q_occ q + acc) 0 qs <= cap) then Ok qs else Err AssertFail
  | Datatypes.S j =>
      let! qs := while_ (v0_fuel qs) (lps_over i) (lps_move i j r) qs in
      let! b := lps_over j qs in
      if b : bool then lps_demote cap r j qs else Ok qs
  end.

(** 258-286 (LP_SFIFO_evict) *)
Definition lps_evict (s : segv0) (r : req) : res segv0 :=
  let! q := at_ (v0_q s) 0 in
  if decide (q_occ q > 0) then
    let! (_, v) := q_to_evict_tail q r in
    match v with
    | None => Err NullDeref
    | Some id =>
        match c_tbl (q_c q) !! id with
        | None => Err UseAfterFree
        | Some o =>
            let! qs := v0_evict_at 0 (v0_q s) r in
            if decide (o_p1 o > 0) then
              let i := Z.to_nat (if decide (o_p1 o >= Z.of_nat (length qs)) then Z.of_nat (length qs) - 1 else o_p1 o) in
              let! f := at_ qs i in
              let! f := q_insert f (req_of_obj id o) in
              let qs := <[i := lps_set f id 0]> qs in
              let! b := lps_over i qs in
              let! qs := if b : bool then lps_demote (c_size (v0_c s)) r i qs else Ok qs in
              Ok (v0_set_q s qs)
            else Ok (v0_set_q s qs)
        end
    end
  else Err AssertFail.

(** 198-227 (LP_SFIFO_insert): the loop of 214-217 looks at the occupied_byte
    field of the outer cache, which nothing changes *)
Definition lps_insert (s : segv0) (r : req) : res segv0 :=
  let! (s, i) :=
    match v0_room (v0_q s) (r_size r + c_md (v0_c s)) with
    | Some i => Ok (s, i)
    | None =>
        let! s := while_ (v0_fuel (v0_q s))
          (fun s => Ok (bool_decide (c_occ (v0_c s) + r_size r + c_md (v0_c s) > c_size (v0_c s))))
          (fun s => lps_evict s r) s in
        Ok (s, O)
    end in
  let! q := at_ (v0_q s) i in
  let! q := q_insert q r in
  Ok (v0_set_q s (<[i := lps_set q (r_id r) 0]> (v0_q s))).

(** 139-147 (get is cache_get_base), 239-247 (LP_SFIFO_to_evict), 329-339
    (LP_SFIFO_remove), 422-427 (LP_SFIFO_can_insert), 429-436
    (LP_SFIFO_get_occupied_byte) are the functions of SFIFOv0.c; 438-445
    (LP_SFIFO_get_n_obj) adds up the bytes, not the objects; 78 (obj_md_size is
    0) *)
Definition lps_ops : ops segv0 :=
  mkOps lps_find v0_can_insert lps_insert lps_evict v0_to_evict v0_remove
    v0_occ v0_occ (fun s => c_size (v0_c s)) (fun s => c_md (v0_c s))
    (fun s => v0_set_c s (c_incr_nreq (v0_c s))).
