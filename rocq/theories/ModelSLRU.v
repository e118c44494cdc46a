(** Segmented LRU: cache/eviction/SLRU.c.  Line numbers refer to that file
    unless another file is named. *)
From stdpp Require Import gmap list numbers fin_maps.
From Verif Require Import Base Driver ModelQueue.
Open Scope Z_scope.

(** 21-32 (SLRU_params_t).  The i-th queue lru_heads[i] ... lru_tails[i] is a
    list of ids, head first; [o_p1] of an object is SLRU.lru_id. *)
Record slru : Type := mkSL {
  sl_c   : cache;
  sl_q   : list (list Z);   (* lru_heads, lru_tails *)
  sl_nb  : list Z;          (* lru_n_bytes *)
  sl_no  : list Z;          (* lru_n_objs *)
  sl_max : list Z           (* lru_max_n_bytes *)
}.

Definition sl_set_c (s : slru) (c : cache) : slru :=
  mkSL c (sl_q s) (sl_nb s) (sl_no s) (sl_max s).
Definition sl_set_q (s : slru) (i : nat) (l : list Z) : slru :=
  mkSL (sl_c s) (<[i := l]> (sl_q s)) (sl_nb s) (sl_no s) (sl_max s).
(** lru_n_bytes[i] += d; lru_n_objs[i] += e *)
Definition sl_count (s : slru) (i : nat) (d e : Z) : slru :=
  mkSL (sl_c s) (sl_q s) (alter (Z.add d) i (sl_nb s)) (alter (Z.add e) i (sl_no s)) (sl_max s).

(** Array reads; an index outside the array is an error. *)
Definition at_ {A} (l : list A) (i : nat) : res A :=
  match l !! i with Some x => Ok x | None => Err OutOfBounds end.

(** 103-191 (SLRU_init).  [maxs] is lru_max_n_bytes after the parameters have
    been parsed (132-139, 440-455): cache_size / n_seg for each segment, or
    the given shares of cache_size, whose floating-point products are
    parameters here. *)
Definition slru_init (consider_md : bool) (cap : Z) (maxs : list Z) (adm : admissioner) : slru :=
  mkSL (cache_init cap (if consider_md then 16 else 0) adm)
       (replicate (length maxs) []) (replicate (length maxs) 0) (replicate (length maxs) 0) maxs.

(** 132-139: the default segment sizes. *)
Definition slru_default_max (n_seg : nat) (cap : Z) : list Z :=
  replicate n_seg (cap / Z.of_nat n_seg).

(** 334-347 (SLRU_to_evict): the loop over the segments from [i] on; the tail
    of the first segment whose byte counter is positive (NULL if its queue is
    empty). *)
Fixpoint slru_to_evict_from (qs : list (list Z)) (nb : list Z) : res (option Z) :=
  match nb with
  | [] => Ok None
  | b :: nb =>
      match qs with
      | [] => Err OutOfBounds
      | q :: qs => if decide (b > 0) then Ok (last q) else slru_to_evict_from qs nb
      end
  end.

Definition slru_to_evict (s : slru) (_ : req) : res (slru * option Z) :=
  let! v := slru_to_evict_from (sl_q s) (sl_nb s) in Ok (s, v).

(** 358-369 (SLRU_evict).  The object is unlinked wherever it stands in the
    queue named by its own lru_id. *)
Definition slru_evict (s : slru) (r : req) : res slru :=
  let! (s, v) := slru_to_evict s r in
  match v with
  | None => Err NullDeref
  | Some id =>
      match c_tbl (sl_c s) !! id with
      | None => Err UseAfterFree
      | Some o =>
          let i := Z.to_nat (o_p1 o) in
          let! q := at_ (sl_q s) i in
          let s := sl_count s i (- (o_size o + c_md (sl_c s))) (-1) in
          let s := sl_set_q s i (q_del id q) in
          let! c := cache_evict_base (sl_c s) id in
          Ok (sl_set_c s c)
      end
  end.

(** A C while loop; [fuel] bounds the model's iterations. *)
Fixpoint while_ {S} (fuel : nat) (cond : S -> res bool) (body : S -> res S) (s : S) : res S :=
  let! b := cond s in
  if b : bool then
    match fuel with
    | 0%nat => Err OutOfFuel
    | Datatypes.S n => let! s' := body s in while_ n cond body s'
    end
  else Ok s.

(** the condition of the loops in 264-265 and 506 *)
Definition seg_over (i : nat) (s : slru) : res bool :=
  let! b := at_ (sl_nb s) i in
  let! m := at_ (sl_max s) i in
  Ok (bool_decide (b > m)).

(** 487-509 (SLRU_cool): the byte counters move by obj_size only, without the
    metadata. *)
Fixpoint slru_cool (fuel : nat) (r : req) (i : nat) (s : slru) : res slru :=
  match i with
  | O => slru_evict s r
  | Datatypes.S j =>
      let! q := at_ (sl_q s) i in
      match last q with
      | None => Err NullDeref
      | Some id =>
          match c_tbl (sl_c s) !! id with
          | None => Err UseAfterFree
          | Some o =>
              let s := sl_set_q s i (q_del id q) in
              let! q' := at_ (sl_q s) j in
              let s := sl_set_q s j (id :: q') in
              let s := sl_set_c s (c_upd (sl_c s) id (fun o => o_set_p1 o (Z.of_nat j))) in
              let s := sl_count s i (- o_size o) (-1) in
              let s := sl_count s j (o_size o) 1 in
              while_ fuel (seg_over j) (slru_cool fuel r j) s
          end
      end
  end.

(** 515-530 (SLRU_promote_to_next_seg) *)
Definition slru_promote (s : slru) (id : Z) (o : cobj) : res slru :=
  let i := Z.to_nat (o_p1 o) in
  let sz := o_size o + c_md (sl_c s) in
  let! q := at_ (sl_q s) i in
  let s := sl_set_q s i (q_del id q) in
  let s := sl_count s i (- sz) (-1) in
  let s := sl_set_c s (c_upd (sl_c s) id (fun o => o_set_p1 o (o_p1 o + 1))) in
  let! q := at_ (sl_q s) (Datatypes.S i) in
  let s := sl_set_q s (Datatypes.S i) (id :: q) in
  Ok (sl_count s (Datatypes.S i) sz 1).

(** The segment that holds [id] now (obj->SLRU.lru_id); reading it after the
    object has been evicted is a use after free. *)
Definition seg_of (id : Z) (s : slru) : res nat :=
  match c_tbl (sl_c s) !! id with
  | None => Err UseAfterFree
  | Some o => Ok (Z.to_nat (o_p1 o))
  end.

(** Bound for the loops of the model: no loop runs more often than there are
    objects. *)
Definition sl_fuel (s : slru) : nat := Datatypes.S (Z.to_nat (c_nobj (sl_c s))).

(** 240-273 (SLRU_find).  It calls hashtable_find directly, so that misc.freq
    and the like are not touched. *)
Definition slru_find (s : slru) (r : req) (u : bool) : res (slru * bool) :=
  match c_tbl (sl_c s) !! r_id r with
  | None => Ok (s, false)
  | Some o =>
      if u then
        if decide (o_p1 o = Z.of_nat (length (sl_max s)) - 1) then
          let i := Z.to_nat (o_p1 o) in
          let! q := at_ (sl_q s) i in
          Ok (sl_set_q s i (q_to_head (r_id r) q), true)
        else
          let! s := slru_promote s (r_id r) o in
          let fuel := sl_fuel s in
          let! s := while_ fuel
                      (fun s => let! i := seg_of (r_id r) s in seg_over i s)
                      (fun s => let! i := seg_of (r_id r) s in slru_cool fuel r i s) s in
          Ok (s, true)
      else Ok (s, true)
  end.

(** 291-298: the first segment with room. *)
Fixpoint first_room (nb mx : list Z) (sz : Z) : option nat :=
  match nb, mx with
  | b :: nb, m :: mx => if decide (b + sz <= m) then Some 0%nat
                        else Datatypes.S <$> first_room nb mx sz
  | _, _ => None
  end.

(** 286-322 (SLRU_insert) *)
Definition slru_insert (s : slru) (r : req) : res slru :=
  let sz := r_size r + c_md (sl_c s) in
  let! (s, i) :=
    match first_room (sl_nb s) (sl_max s) sz with
    | Some i => Ok (s, i)
    | None =>
        let! s := while_ (sl_fuel s)
                    (fun s => Ok (bool_decide (c_occ (sl_c s) + r_size r + c_md (sl_c s)
                                               > c_size (sl_c s))))
                    (fun s => slru_evict s r) s in
        Ok (s, 0%nat)
    end in
  let! c := cache_insert_base (sl_c s) r in
  let s := sl_set_c s c in
  let! q := at_ (sl_q s) i in
  let s := sl_set_q s i (r_id r :: q) in
  let s := sl_set_c s (c_upd (sl_c s) (r_id r) (fun o => o_set_p1 o (Z.of_nat i))) in
  Ok (sl_count s i sz 1).

(** 384-397 (SLRU_remove): neither lru_n_bytes nor lru_n_objs is updated. *)
Definition slru_remove (s : slru) (id : Z) : res (slru * bool) :=
  match c_tbl (sl_c s) !! id with
  | None => Ok (s, false)
  | Some o =>
      let i := Z.to_nat (o_p1 o) in
      let! q := at_ (sl_q s) i in
      let s := sl_set_q s i (q_del id q) in
      let! c := cache_remove_obj_base (sl_c s) id in
      Ok (sl_set_c s c, true)
  end.

(** 473-478 (SLRU_can_insert) *)
Definition slru_can_insert (s : slru) (r : req) : res (slru * bool) :=
  let '(c, b) := cache_can_insert_default (sl_c s) r in
  let s := sl_set_c s c in
  if b : bool then
    let! m := at_ (sl_max s) 0 in
    Ok (s, bool_decide (r_size r + c_md c <= m))
  else Ok (s, false).

(** 227-234 (SLRU_get is cache_get_base). *)
Definition slru_ops : ops slru :=
  mkOps slru_find slru_can_insert slru_insert slru_evict slru_to_evict slru_remove
    (fun s => c_occ (sl_c s)) (fun s => c_nobj (sl_c s)) (fun s => c_size (sl_c s))
    (fun s => c_md (sl_c s)) (fun s => sl_set_c s (c_incr_nreq (sl_c s))).
