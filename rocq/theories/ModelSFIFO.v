(** Segmented FIFO: cache/eviction/fifo/SFIFO.c.  Line numbers refer to that
    file unless another file is named.  The parameters (SFIFO_params_t, 22-32)
    have the shape of those of SLRU.c, so the state is the record [slru] of
    ModelSLRU.v: [sl_q] holds fifo_heads/fifo_tails (head first), [sl_nb] is
    fifo_n_bytes, [sl_no] is fifo_n_objs, [o_p1] of an object is SFIFO.fifo_id;
    [sl_max] holds n_seg copies of per_seg_max_size.  SFIFO.freq and
    SFIFO.last_access_vtime are written but never read, and are left out. *)
From stdpp Require Import gmap list numbers fin_maps.
From Verif Require Import Base Driver ModelQueue ModelSLRU.
Open Scope Z_scope.

(** 120-165 (SFIFO_init); n_seg is 4 unless the parameter n-seg is given (143,
    388-392).  n_seg = 0 divides by zero at 149. *)
Definition sf_init (consider_md : bool) (cap : Z) (n_seg : nat) (adm : admissioner) : res slru :=
  if decide (n_seg = 0%nat) then Err DivByZero else
  Ok (mkSL (cache_init cap (if consider_md then 16 else 0) adm)
        (replicate n_seg []) (replicate n_seg 0) (replicate n_seg 0)
        (replicate n_seg (cap / Z.of_nat n_seg))).

(** 287-295 (SFIFO_to_evict): the tail of the first segment whose byte counter
    is positive, NULL if its queue is empty. *)
Fixpoint sf_to_evict_from (qs : list (list Z)) (nb : list Z) : res (option Z) :=
  match nb with
  | [] => Ok None
  | b :: nb =>
      match qs with
      | [] => Err OutOfBounds
      | q :: qs => if decide (b > 0) then Ok (last q) else sf_to_evict_from qs nb
      end
  end.
Definition sf_to_evict (s : slru) (_ : req) : res (slru * option Z) :=
  let! v := sf_to_evict_from (sl_q s) (sl_nb s) in Ok (s, v).

(** 310-316: the first segment whose tail is not NULL. *)
Fixpoint first_tail (qs : list (list Z)) : option (nat * Z) :=
  match qs with
  | [] => None
  | q :: qs =>
      match last q with
      | Some id => Some (O, id)
      | None => (fun x => (Datatypes.S x.1, x.2)) <$> first_tail qs
      end
  end.

(** 306-327 (SFIFO_evict): with every queue empty, nth_seg stays -1 and
    fifo_tails[-1] is read. *)
Definition sf_evict (s : slru) (_ : req) : res slru :=
  match first_tail (sl_q s) with
  | None => Err OutOfBounds
  | Some (i, id) =>
      match c_tbl (sl_c s) !! id with
      | None => Err UseAfterFree
      | Some o =>
          let s := sl_count s i (- (o_size o + c_md (sl_c s))) (-1) in
          let! q := at_ (sl_q s) i in
          let s := sl_set_q s i (q_del id q) in
          let! c := cache_evict_base (sl_c s) id in
          Ok (sl_set_c s c)
      end
  end.

(** 425-447 (SFIFO_cool): the byte counters move by obj_size only, without the
    metadata. *)
Fixpoint sf_cool (fuel : nat) (r : req) (i : nat) (s : slru) : res slru :=
  match i with
  | O => sf_evict s r
  | Datatypes.S j =>
      let! q := at_ (sl_q s) i in
      match last q with
      | None => Err NullDeref
      | Some id =>
          match c_tbl (sl_c s) !! id with
          | None => Err UseAfterFree
          | Some o =>
              let s := sl_set_q s i (q_del id q) in
              let! q' := at_ (sl_q s) j in
              let s := sl_set_q s j (id :: q') in
              let s := sl_set_c s (c_upd (sl_c s) id (fun o => o_set_p1 o (Z.of_nat j))) in
              let s := sl_count s i (- o_size o) (-1) in
              let s := sl_count s j (o_size o) 1 in
              while_ fuel (seg_over j) (sf_cool fuel r j) s
          end
      end
  end.

(** 472-490 (SFIFO_promote_to_next_seg): an object of the top segment stays
    where it is. *)
Definition sf_promote (s : slru) (id : Z) (o : cobj) : res slru :=
  if decide (o_p1 o = Z.of_nat (length (sl_max s)) - 1) then Ok s else
  let i := Z.to_nat (o_p1 o) in
  let sz := o_size o + c_md (sl_c s) in
  let! q := at_ (sl_q s) i in
  let s := sl_set_q s i (q_del id q) in
  let s := sl_count s i (- sz) (-1) in
  let s := sl_set_c s (c_upd (sl_c s) id (fun o => o_set_p1 o (o_p1 o + 1))) in
  let! q := at_ (sl_q s) (Datatypes.S i) in
  let s := sl_set_q s (Datatypes.S i) (id :: q) in
  Ok (sl_count s (Datatypes.S i) sz 1).

(** 209-227 (SFIFO_find) *)
Definition sf_find (s : slru) (r : req) (u : bool) : res (slru * bool) :=
  match c_tbl (sl_c s) !! r_id r with
  | None => Ok (s, false)
  | Some o =>
      if u then
        let! s := sf_promote s (r_id r) o in
        let fuel := sl_fuel s in
        let! s := while_ fuel
                    (fun s => let! i := seg_of (r_id r) s in seg_over i s)
                    (fun s => let! i := seg_of (r_id r) s in sf_cool fuel r i s) s in
        Ok (s, true)
      else Ok (s, true)
  end.

(** 240-275 (SFIFO_insert); 245-252 is [first_room] of ModelSLRU.v with the
    same limit for every segment. *)
Definition sf_insert (s : slru) (r : req) : res slru :=
  let sz := r_size r + c_md (sl_c s) in
  let! (s, i) :=
    match first_room (sl_nb s) (sl_max s) sz with
    | Some i => Ok (s, i)
    | None =>
        let! s := while_ (sl_fuel s)
                    (fun s => Ok (bool_decide (c_occ (sl_c s) + r_size r + c_md (sl_c s)
                                               > c_size (sl_c s))))
                    (fun s => sf_evict s r) s in
        Ok (s, 0%nat)
    end in
  let! c := cache_insert_base (sl_c s) r in
  let s := sl_set_c s c in
  let s := sl_set_c s (c_upd (sl_c s) (r_id r) (fun o => o_set_p1 o (Z.of_nat i))) in
  let! q := at_ (sl_q s) i in
  let s := sl_set_q s i (r_id r :: q) in
  Ok (sl_count s i sz 1).

(** 342-357 (SFIFO_remove): neither fifo_n_bytes nor fifo_n_objs is updated. *)
Definition sf_remove (s : slru) (id : Z) : res (slru * bool) :=
  match c_tbl (sl_c s) !! id with
  | None => Ok (s, false)
  | Some o =>
      let! c := cache_remove_obj_base (sl_c s) id in
      let i := Z.to_nat (o_p1 o) in
      let! q := at_ (sl_q s) i in
      Ok (sl_set_c (sl_set_q s i (q_del id q)) c, true)
  end.

(** 411-416 (SFIFO_can_insert) *)
Definition sf_can_insert (s : slru) (r : req) : res (slru * bool) :=
  let '(c, b) := cache_can_insert_default (sl_c s) r in
  let s := sl_set_c s c in
  if b : bool then
    let! m := at_ (sl_max s) 0 in
    Ok (s, bool_decide (r_size r + c_md c <= m))
  else Ok (s, false).

(** 186-192 (SFIFO_get is cache_get_base). *)
Definition sf_ops : ops slru :=
  mkOps sf_find sf_can_insert sf_insert sf_evict sf_to_evict sf_remove
    (fun s => c_occ (sl_c s)) (fun s => c_nobj (sl_c s)) (fun s => c_size (sl_c s))
    (fun s => c_md (sl_c s)) (fun s => sl_set_c s (c_incr_nreq (sl_c s))).
