(** dataStructure/pqueue.c: the binary heap used by Belady and Size.
    Nodes (pq_node_t, pqueue.h:76-80) are named by their obj_id; [pq_pri] holds
    the priorities of the nodes that are allocated, so a read of a freed node
    is visible.  Priorities are doubles in C that only ever hold integers
    converted from int64_t: see [dbl]. *)
From stdpp Require Import gmap list numbers fin_maps.
From Verif Require Import Base Driver.
Open Scope Z_scope.

Record pq : Type := mkPq {
  pq_d   : gmap nat Z;   (* d[]: slots 1 .. size-1 are in use; later slots are stale *)
  pq_sz  : nat;          (* size (one more than the number of elements) *)
  pq_pri : gmap Z Z;     (* node->pri.pri *)
  pq_pos : gmap Z nat    (* node->pos *)
}.

(** pqueue.c:58-82 (pqueue_init).  Simplification: the array grows without
    bound (155-168: realloc never fails). *)
Definition pq_empty : pq := mkPq ∅ 1 ∅ ∅.

(** q->d[i] = x; q->setpos(x, i) *)
Definition pq_put (q : pq) (i : nat) (x : Z) : pq :=
  mkPq (<[i := x]> (pq_d q)) (pq_sz q) (pq_pri q) (<[x := i]> (pq_pos q)).

Definition pq_at (q : pq) (i : nat) : res Z :=
  match pq_d q !! i with Some x => Ok x | None => Err UseAfterFree end.
Definition pq_getpri (q : pq) (x : Z) : res Z :=
  match pq_pri q !! x with Some p => Ok p | None => Err UseAfterFree end.
Definition pq_getpos (q : pq) (x : Z) : res nat :=
  match pq_pos q !! x with Some p => Ok p | None => Err UseAfterFree end.

(** pqueue.c:99-116 (bubble_up).  parent(i) = i >> 1 (pqueue.c:46);
    cmp_pri(next, curr) = next < curr (pqueue.h:196-198). *)
Fixpoint bubble_loop (fuel : nat) (q : pq) (mp : Z) (i : nat) : res (pq * nat) :=
  if decide (1 < i)%nat then
    let! y := pq_at q (i / 2) in
    let! py := pq_getpri q y in
    if decide (py < mp) then
      match fuel with
      | 0%nat => Err OutOfFuel
      | S k => bubble_loop k (pq_put q i y) mp (i / 2)%nat
      end
    else Ok (q, i)
  else Ok (q, i).

Definition bubble_up (q : pq) (i : nat) : res pq :=
  let! mv := pq_at q i in
  let! mp := pq_getpri q mv in
  let! (q, i) := bubble_loop i q mp i in
  Ok (pq_put q i mv).

(** pqueue.c:119-132 (maxchild), left(i) = i << 1 (pqueue.c:44); 0 for no
    child. *)
Definition maxchild (q : pq) (i : nat) : res nat :=
  let c := (2 * i)%nat in
  if decide (pq_sz q <= c)%nat then Ok 0%nat
  else if decide (c + 1 < pq_sz q)%nat then
    let! x := pq_at q c in
    let! px := pq_getpri q x in
    let! y := pq_at q (c + 1) in
    let! py := pq_getpri q y in
    if decide (px < py) then Ok (c + 1)%nat else Ok c
  else Ok c.

(** pqueue.c:135-152 (percolate_down) *)
Fixpoint percolate_loop (fuel : nat) (q : pq) (mp : Z) (i : nat) : res (pq * nat) :=
  let! c := maxchild q i in
  if decide (c = 0%nat) then Ok (q, i)
  else
    let! y := pq_at q c in
    let! py := pq_getpri q y in
    if decide (mp < py) then
      match fuel with
      | 0%nat => Err OutOfFuel
      | S k => percolate_loop k (pq_put q i y) mp c
      end
    else Ok (q, i).

Definition percolate_down (q : pq) (i : nat) : res pq :=
  let! mv := pq_at q i in
  let! mp := pq_getpri q mv in
  let! (q, i) := percolate_loop (pq_sz q) q mp i in
  Ok (pq_put q i mv).

(** pqueue.c:155-179 (pqueue_insert) of a freshly allocated node [x] with
    priority [p] (Belady.c:186-189). *)
Definition pq_insert (q : pq) (x p : Z) : res pq :=
  let q := mkPq (<[pq_sz q := x]> (pq_d q)) (pq_sz q + 1) (<[x := p]> (pq_pri q)) (pq_pos q) in
  bubble_up q (pq_sz q - 1).

(** pqueue.c:182-196 (pqueue_change_priority) *)
Definition pq_change (q : pq) (x p : Z) : res pq :=
  let! old := pq_getpri q x in
  let q := mkPq (pq_d q) (pq_sz q) (<[x := p]> (pq_pri q)) (pq_pos q) in
  let! i := pq_getpos q x in
  if decide (old < p) then bubble_up q i else percolate_down q i.

(** Freeing a node (Belady.c:241, 253). *)
Definition pq_free (q : pq) (x : Z) : pq :=
  mkPq (pq_d q) (pq_sz q) (delete x (pq_pri q)) (delete x (pq_pos q)).

(** pqueue.c:199-210 (pqueue_remove) *)
Definition pq_remove (q : pq) (x : Z) : res pq :=
  let! i := pq_getpos q x in
  let! l := pq_at q (pq_sz q - 1) in
  let q := mkPq (<[i := l]> (pq_d q)) (pq_sz q - 1) (pq_pri q) (pq_pos q) in
  let! px := pq_getpri q x in
  let! pl := pq_getpri q l in
  if decide (px < pl) then bubble_up q i else percolate_down q i.

(** pqueue.c:213-226 (pqueue_pop) *)
Definition pq_pop (q : pq) : res (pq * option Z) :=
  if decide (pq_sz q = 1%nat) then Ok (q, None)
  else
    let! h := pq_at q 1 in
    let! l := pq_at q (pq_sz q - 1) in
    let q := mkPq (<[1%nat := l]> (pq_d q)) (pq_sz q - 1) (pq_pri q) (pq_pos q) in
    let! q := percolate_down q 1 in
    Ok (q, Some h).

(** pqueue.c:229-237 (pqueue_peek) *)
Definition pq_peek (q : pq) : res (option Z) :=
  if decide (pq_sz q = 1%nat) then Ok None else let! h := pq_at q 1 in Ok (Some h).

(** Conversion int64_t -> double, round to nearest, ties to even: exact up to
    2^53, then multiples of a power of two.  The result is an integer. *)
Definition dbl (x : Z) : Z :=
  let k := Z.log2 (Z.abs x) - 52 in
  if decide (k <= 0) then x
  else
    let m := 2 ^ k in
    let q := x / m in
    let r := x mod m in
    if decide (2 * r < m) then q * m
    else if decide (2 * r > m) then (q + 1) * m
    else if decide (Z.even q = true) then q * m else (q + 1) * m.

(** A cache whose victim is the top of a heap: Belady.c and Size.c. *)
Record hstate : Type := mkH { h_c : cache; h_q : pq }.

(** Belady.c:139-165 with [key] = next_access_vtime, Size.c:134-149 with [key]
    = obj_size (default build: EVICT_IMMEDIATELY_IF_NO_FUTURE_ACCESS off). *)
Definition heap_find (key : req -> Z) (s : hstate) (r : req) (u : bool) : res (hstate * bool) :=
  let '(c, b) := cache_find_base (h_c s) r u in
  if (b && u)%bool then
    let! q := pq_change (h_q s) (r_id r) (dbl (key r)) in Ok (mkH c q, b)
  else Ok (mkH c (h_q s), b).

(** Belady.c:177-204, Size.c:161-173.  [bad]: the ERROR of Belady.c:180-182
    (next access -1), which aborts the program (include/libCacheSim/logging.h:68-72). *)
Definition heap_insert (key : req -> Z) (bad : req -> bool) (s : hstate) (r : req) : res hstate :=
  if bad r then Err AssertFail else
  let! c := cache_insert_base (h_c s) r in
  let! q := pq_insert (h_q s) (r_id r) (dbl (key r)) in
  Ok (mkH c q).

(** Belady.c:216-221, Size.c:185-190: an empty heap is a NULL dereference. *)
Definition heap_to_evict (s : hstate) (_ : req) : res (hstate * option Z) :=
  let! n := pq_peek (h_q s) in
  match n with
  | None => Err NullDeref
  | Some x => Ok (s, match c_tbl (h_c s) !! x with Some _ => Some x | None => None end)
  end.

(** Belady.c:231-244, Size.c:200-213 *)
Definition heap_evict (s : hstate) (_ : req) : res hstate :=
  let! (q, n) := pq_pop (h_q s) in
  match n with
  | None => Err NullDeref
  | Some x =>
      match c_tbl (h_c s) !! x with
      | None => Err NullDeref
      | Some _ => let! c := cache_evict_base (h_c s) x in Ok (mkH c (pq_free q x))
      end
  end.

(** Belady.c:246-281, Size.c:215-250 *)
Definition heap_remove (s : hstate) (id : Z) : res (hstate * bool) :=
  match c_tbl (h_c s) !! id with
  | None => Ok (s, false)
  | Some _ =>
      let! q := pq_remove (h_q s) id in
      let! c := cache_remove_obj_base (h_c s) id in
      Ok (mkH c (pq_free q id), true)
  end.

Definition heap_can_insert (s : hstate) (r : req) : res (hstate * bool) :=
  let '(c, b) := cache_can_insert_default (h_c s) r in Ok (mkH c (h_q s), b).

Definition heap_ops (key : req -> Z) (bad : req -> bool) : ops hstate :=
  mkOps (heap_find key) heap_can_insert (heap_insert key bad) heap_evict heap_to_evict heap_remove
        (fun s => c_occ (h_c s)) (fun s => c_nobj (h_c s)) (fun s => c_size (h_c s))
        (fun s => c_md (h_c s)) (fun s => mkH (c_incr_nreq (h_c s)) (h_q s)).

(** Belady.c:56-74, Size.c:56-72: obj_md_size is left at 0. *)
Definition heap_init (size : Z) (adm : admissioner) : hstate :=
  mkH (cache_init size 0 adm) pq_empty.
Definition belady_ops : ops hstate := heap_ops r_next (fun r => bool_decide (r_next r = -1)).
Definition size_ops : ops hstate := heap_ops r_size (fun _ => false).
