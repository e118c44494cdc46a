(** cache/cacheObj.c: the intrusive doubly linked list of cache objects.
    The heap maps the address of an allocated cache_obj_t to its queue.prev and
    queue.next (include/libCacheSim/cacheObj.h:143-146); NULL is [None].
    [head] and [tail] are passed by address in C and never NULL in the code
    modelled elsewhere, so the tests [head != NULL], [tail != NULL] hold. *)
From stdpp Require Import gmap list numbers.
From Verif Require Import Base.
Open Scope Z_scope.

Record qnode : Type := mkQn { qn_prev : option Z; qn_next : option Z }.
Record dlist : Type := mkDl { dl_heap : gmap Z qnode; dl_head : option Z; dl_tail : option Z }.

(** x->queue.prev, x->queue.next *)
Definition rd_prev (d : dlist) (x : option Z) : res (option Z) :=
  match x with
  | None => Err NullDeref
  | Some x => match dl_heap d !! x with Some n => Ok (qn_prev n) | None => Err UseAfterFree end
  end.
Definition rd_next (d : dlist) (x : option Z) : res (option Z) :=
  match x with
  | None => Err NullDeref
  | Some x => match dl_heap d !! x with Some n => Ok (qn_next n) | None => Err UseAfterFree end
  end.
(** x->queue.prev = v, x->queue.next = v *)
Definition wr_prev (d : dlist) (x v : option Z) : res dlist :=
  match x with
  | None => Err NullDeref
  | Some x => match dl_heap d !! x with
              | Some n => Ok (mkDl (<[x := mkQn v (qn_next n)]> (dl_heap d)) (dl_head d) (dl_tail d))
              | None => Err UseAfterFree
              end
  end.
Definition wr_next (d : dlist) (x v : option Z) : res dlist :=
  match x with
  | None => Err NullDeref
  | Some x => match dl_heap d !! x with
              | Some n => Ok (mkDl (<[x := mkQn (qn_prev n) v]> (dl_heap d)) (dl_head d) (dl_tail d))
              | None => Err UseAfterFree
              end
  end.
(** *head = v, *tail = v *)
Definition set_head (d : dlist) (v : option Z) : dlist := mkDl (dl_heap d) v (dl_tail d).
Definition set_tail (d : dlist) (v : option Z) : dlist := mkDl (dl_heap d) (dl_head d) v.

(** cacheObj.c:57-76 (remove_obj_from_list) *)
Definition remove_obj_from_list (d : dlist) (x : Z) : res dlist :=
  let! d :=
    if decide (Some x = dl_head d) then
      let! n := rd_next d (Some x) in
      let d := set_head d n in
      if decide (n <> None) then wr_prev d n None else Ok d
    else Ok d in
  let! d :=
    if decide (Some x = dl_tail d) then
      let! p := rd_prev d (Some x) in
      let d := set_tail d p in
      if decide (p <> None) then wr_next d p None else Ok d
    else Ok d in
  let! p := rd_prev d (Some x) in
  let! d := if decide (p <> None) then let! n := rd_next d (Some x) in wr_next d p n else Ok d in
  let! n := rd_next d (Some x) in
  let! d := if decide (n <> None) then let! p := rd_prev d (Some x) in wr_prev d n p else Ok d in
  let! d := wr_prev d (Some x) None in
  wr_next d (Some x) None.

(** cacheObj.c:84-122 (move_obj_to_tail); the three assertions are kept. *)
Definition move_obj_to_tail (d : dlist) (x : Z) : res dlist :=
  if decide (dl_head d = dl_tail d) then
    if decide (Some x = dl_head d) then
      let! n := rd_next d (Some x) in
      let! p := rd_prev d (Some x) in
      if decide (n = None /\ p = None) then Ok d else Err AssertFail
    else Err AssertFail
  else if decide (Some x = dl_head d) then
    let! n := rd_next d (Some x) in
    let d := set_head d n in
    let! d := wr_prev d n None in
    let! d := wr_next d (dl_tail d) (Some x) in
    let! d := wr_next d (Some x) None in
    let! d := wr_prev d (Some x) (dl_tail d) in
    Ok (set_tail d (Some x))
  else if decide (Some x = dl_tail d) then Ok d
  else
    let! p := rd_prev d (Some x) in
    let! n := rd_next d (Some x) in
    let! d := wr_next d p n in
    let! n := rd_next d (Some x) in
    let! p := rd_prev d (Some x) in
    let! d := wr_prev d n p in
    let! d := wr_next d (dl_tail d) (Some x) in
    let! d := wr_next d (Some x) None in
    let! d := wr_prev d (Some x) (dl_tail d) in
    Ok (set_tail d (Some x)).

(** cacheObj.c:130-173 (move_obj_to_head); DEBUG_ASSERT compiles to nothing. *)
Definition move_obj_to_head (d : dlist) (x : Z) : res dlist :=
  if decide (dl_head d = dl_tail d) then Ok d
  else if decide (Some x = dl_head d) then Ok d
  else if decide (Some x = dl_tail d) then
    let! p := rd_prev d (Some x) in
    let! n := rd_next d (Some x) in
    let! d := wr_next d p n in
    let! p := rd_prev d (Some x) in
    let d := set_tail d p in
    let! d := wr_prev d (dl_head d) (Some x) in
    let! d := wr_prev d (Some x) None in
    let! d := wr_next d (Some x) (dl_head d) in
    Ok (set_head d (Some x))
  else
    let! p := rd_prev d (Some x) in
    let! n := rd_next d (Some x) in
    let! d := wr_next d p n in
    let! n := rd_next d (Some x) in
    let! p := rd_prev d (Some x) in
    let! d := wr_prev d n p in
    let! d := wr_prev d (dl_head d) (Some x) in
    let! d := wr_prev d (Some x) None in
    let! d := wr_next d (Some x) (dl_head d) in
    Ok (set_head d (Some x)).

(** cacheObj.c:182-201 (prepend_obj_to_head) *)
Definition prepend_obj_to_head (d : dlist) (x : Z) : res dlist :=
  let! d := wr_prev d (Some x) None in
  let! d := wr_next d (Some x) (dl_head d) in
  let d := if decide (dl_tail d = None) then set_tail d (Some x) else d in
  let! d := if decide (dl_head d <> None) then wr_prev d (dl_head d) (Some x) else Ok d in
  Ok (set_head d (Some x)).

(** cacheObj.c:210-229 (append_obj_to_tail) *)
Definition append_obj_to_tail (d : dlist) (x : Z) : res dlist :=
  let! d := wr_next d (Some x) None in
  let! d := wr_prev d (Some x) (dl_tail d) in
  let d := if decide (dl_head d = None) then set_head d (Some x) else d in
  let! d := if decide (dl_tail d <> None) then wr_next d (dl_tail d) (Some x) else Ok d in
  Ok (set_tail d (Some x)).
