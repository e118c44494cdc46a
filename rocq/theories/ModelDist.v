(** profiler/dist.c and profiler/profilerLRU.c.
    The trace is the list of requested ids (the reader is modelled elsewhere).
    A GLib hash table is a finite map; a stored timestamp 0 is the pointer NULL,
    which g_hash_table_lookup also returns for a missing key. *)
From stdpp Require Import gmap list numbers.
From Verif Require Import Base ModelSplay.
Open Scope Z_scope.

Definition i32 (z : Z) : Z := (z + 2 ^ 31) mod 2 ^ 32 - 2 ^ 31.

(** dist.c:36,75: gp == NULL for a missing key and for a stored 0 *)
Definition ts_lookup (T : gmap Z Z) (x : Z) : option Z :=
  match T !! x with
  | Some z => if decide (z = 0) then None else Some z
  | None => None
  end.

Inductive dist_type := STACK_DIST | FUTURE_STACK_DIST | DIST_SINCE_LAST | DIST_SINCE_FIRST.

(** dist.c:33-57 (get_access_dist_add_req); ERROR() aborts for the other types *)
Definition access_add (ty : dist_type) (x ts : Z) (T : gmap Z Z) : res (Z * gmap Z Z) :=
  let ret := match ts_lookup T x with None => -1 | Some old => ts - old end in
  match ty with
  | DIST_SINCE_LAST => Ok (ret, <[x := ts]> T)
  | DIST_SINCE_FIRST => Ok (ret, T)
  | _ => Err AssertFail
  end.

(** dist.c:72-104 (get_stack_dist_add_req); result: distance, *last_access_ts, new state *)
Definition stack_add (x ts : Z) (st : gmap Z Z * tree) : res (Z * Z * (gmap Z Z * tree)) :=
  let '(T, t) := st in
  match ts_lookup T x with
  | None =>
      let! t := sp_insert ts t in
      Ok (-1, -1, (<[x := ts]> T, t))
  | Some old =>
      let! t := splay old t in
      match t with
      | Leaf => Err NullDeref
      | Node _ _ _ tr =>
          let! t' := sp_delete old t in
          let! t' := sp_insert ts t' in
          Ok (nv tr, old, (<[x := ts]> T, t'))
      end
  end.

(** an int32_t array; [None] is an uninitialised cell *)
Definition arr_write (a : list (option Z)) (i : Z) (v : Z) : res (list (option Z)) :=
  if decide (0 <= i < Z.of_nat (length a)) then Ok (<[Z.to_nat i := Some (i32 v)]> a)
  else Err OutOfBounds.

(** dist.c:132-152 *)
Fixpoint stack_loop (ty : dist_type) (ids : list Z) (ts : Z) (st : gmap Z Z * tree)
  (a : list (option Z)) : res (list (option Z)) :=
  match ids with
  | [] => Ok a
  | x :: ids =>
      let! r := stack_add x ts st in
      let '(d, last, st) := r in
      if decide (2 ^ 32 - 1 < d) then Err AssertFail else
      let! a :=
        match ty with
        | STACK_DIST => arr_write a ts d
        | FUTURE_STACK_DIST => if decide (last <> -1) then arr_write a last d else Ok a
        | _ => Err AssertFail
        end in
      stack_loop ty ids (ts + 1) st a
  end.
(** dist.c:111-160 (get_stack_dist) *)
Definition get_stack_dist (ty : dist_type) (ids : list Z) : res (list (option Z)) :=
  let a := replicate (length ids) (match ty with FUTURE_STACK_DIST => Some (-1) | _ => None end) in
  stack_loop ty ids 0 (∅, Leaf) a.

(** dist.c:173-185 *)
Fixpoint access_loop (ty : dist_type) (ids : list Z) (ts : Z) (T : gmap Z Z)
  (a : list (option Z)) : res (list (option Z)) :=
  match ids with
  | [] => Ok a
  | x :: ids =>
      let! r := access_add ty x ts T in
      let '(d, T) := r in
      if decide (2 ^ 32 - 1 < d) then Err AssertFail else
      let! a := arr_write a ts d in
      access_loop ty ids (ts + 1) T a
  end.
(** dist.c:162-193 (get_access_dist) *)
Definition get_access_dist (ty : dist_type) (ids : list Z) : res (list (option Z)) :=
  access_loop ty ids 0 ∅ (replicate (length ids) None).

(** hit_count_array[i] += 1 on a guint64 array *)
Definition cnt_incr (a : list Z) (i : Z) : res (list Z) :=
  if decide (0 <= i < Z.of_nat (length a)) then Ok (alter (fun v => (v + 1) mod 2 ^ 64) (Z.to_nat i) a)
  else Err OutOfBounds.

(** profilerLRU.c:68-82 *)
Fixpoint hit_loop (size : Z) (ids : list Z) (ts : Z) (st : gmap Z Z * tree) (a : list Z) : res (list Z) :=
  match ids with
  | [] => Ok a
  | x :: ids =>
      let! r := stack_add x ts st in
      let '(d, _, st) := r in
      let! a :=
        if decide (d = -1) then Ok a
        else if decide (d + 1 <= size) then cnt_incr a (d + 1) else Ok a in
      hit_loop size ids (ts + 1) st a
  end.
(** profilerLRU.c:86-88: running sums; [acc] is the previous cell *)
Fixpoint accumulate (acc : Z) (a : list Z) : list Z :=
  match a with
  | [] => []
  | v :: a => let s := (v + acc) mod 2 ^ 64 in s :: accumulate s a
  end.
(** profilerLRU.c:57-96 (_get_lru_hit_cnt) for size >= 0 *)
Definition lru_hit_cnt (size : Z) (ids : list Z) : res (list Z) :=
  let! a := hit_loop size ids 0 (∅, Leaf) (replicate (Z.to_nat (size + 1)) 0) in
  Ok (match a with [] => [] | v :: a => v :: accumulate v a end).
(** profilerLRU.c:40-47 (_get_lru_miss_cnt) and the assertion of line 31 of
    get_lru_obj_miss_ratio; its division by n_req in doubles is not modelled *)
Definition lru_miss_cnt (size : Z) (ids : list Z) : res (list Z) :=
  let! a := lru_hit_cnt size ids in
  let n := Z.of_nat (length ids) in
  let m := map (fun h => (n - h) mod 2 ^ 64) a in
  match m with
  | [] => Err OutOfBounds
  | v :: _ => if decide (v = n) then Ok m else Err AssertFail
  end.
