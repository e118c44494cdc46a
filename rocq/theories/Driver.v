(** The operation table of a cache (the C vtable), the shared [get] of
    cache/cache.c, and arbitrary client programs over the public API. *)
From stdpp Require Import gmap list numbers fin_maps.
From Verif Require Import Base.
Open Scope Z_scope.

(** include/libCacheSim/cache.h:93-162: the function pointers of cache_t, plus
    the fields that the shared code reads directly. *)
Record ops (S : Type) : Type := mkOps {
  op_find       : S -> req -> bool -> res (S * bool);
  op_can_insert : S -> req -> res (S * bool);
  op_insert     : S -> req -> res S;
  op_evict      : S -> req -> res S;
  op_to_evict   : S -> req -> res (S * option Z);
  op_remove     : S -> Z -> res (S * bool);
  op_occupied   : S -> Z;     (* get_occupied_byte *)
  op_nobj       : S -> Z;     (* get_n_obj *)
  op_size       : S -> Z;     (* cache_size *)
  op_md         : S -> Z;     (* obj_md_size *)
  op_tick       : S -> S      (* n_req += 1 *)
}.
Arguments op_find {S}. Arguments op_can_insert {S}. Arguments op_insert {S}.
Arguments op_evict {S}. Arguments op_to_evict {S}. Arguments op_remove {S}.
Arguments op_occupied {S}. Arguments op_nobj {S}. Arguments op_size {S}.
Arguments op_md {S}. Arguments op_tick {S}. Arguments mkOps {S}.

(** cache/cache.c:241-245: the eviction loop of cache_get_base.  The C loop
    has no bound; here it runs on [fuel] and reports [OutOfFuel]. *)
Fixpoint evict_loop {S} (O : ops S) (fuel : nat) (s : S) (r : req) : res S :=
  if decide (op_occupied O s + r_size r + op_md O s > op_size O s) then
    match fuel with
    | 0%nat => Err OutOfFuel
    | Datatypes.S n => let! s' := op_evict O s r in evict_loop O n s' r
    end
  else Ok s.

(** cache/cache.c:225-254 (cache_get_base), no prefetcher. *)
Definition cache_get_base {S} (O : ops S) (fuel : nat) (s : S) (r : req) : res (S * bool) :=
  let s := op_tick O s in
  let! (s, hit) := op_find O s r true in
  if hit : bool then Ok (s, true)
  else
    let! (s, ok) := op_can_insert O s r in
    if ok : bool then
      let! s := evict_loop O fuel s r in
      let! s := op_insert O s r in
      Ok (s, false)
    else Ok (s, false).

(** Calls a client can make on a cache (include/libCacheSim/cache.h, the
    public function pointers get / find / insert / remove / evict /
    to_evict). *)
Inductive call : Type :=
| CGet (r : req)
| CFind (r : req) (upd : bool)
| CInsert (r : req)
| CRemove (id : Z)
| CEvict (r : req)
| CToEvict (r : req).

(** What the client sees. *)
Inductive obs : Type :=
| OBool (b : bool)
| OVictim (v : option Z)
| OUnit.

(** One client call.  The client respects the documented contract: it does
    not ask an empty cache to evict, and calls insert directly only for an
    absent object that fits ("this function assumes the cache has enough
    space", cache.c:256-265). *)
Definition step {S} (O : ops S) (fuel : nat) (s : S) (c : call) : res (S * obs) :=
  match c with
  | CGet r => let! (s, b) := cache_get_base O fuel s r in Ok (s, OBool b)
  | CFind r u => let! (s, b) := op_find O s r u in Ok (s, OBool b)
  | CInsert r =>
      let! (_, b) := op_find O s r false in
      if b : bool then Ok (s, OUnit)
      else if decide (op_occupied O s + r_size r + op_md O s > op_size O s)
      then Ok (s, OUnit)
      else let! s := op_insert O s r in Ok (s, OUnit)
  | CRemove id => let! (s, b) := op_remove O s id in Ok (s, OBool b)
  | CEvict r =>
      if decide (op_nobj O s <= 0) then Ok (s, OUnit)
      else let! s := op_evict O s r in Ok (s, OUnit)
  | CToEvict r =>
      if decide (op_nobj O s <= 0) then Ok (s, OVictim None)
      else let! (s, v) := op_to_evict O s r in Ok (s, OVictim v)
  end.

(** A client program: an arbitrary finite sequence of calls. *)
Fixpoint run {S} (O : ops S) (fuel : nat) (s : S) (cs : list call) : res (S * list obs) :=
  match cs with
  | [] => Ok (s, [])
  | c :: cs =>
      let! (s, o) := step O fuel s c in
      let! (s, os) := run O fuel s cs in
      Ok (s, o :: os)
  end.

(** The request sizes for which the uint32_t arithmetic of cache_obj_t does
    not wrap: cacheObj.h:140, cache.c:330. *)
Definition req_ok (md : Z) (r : req) : Prop :=
  0 <= r_size r /\ r_size r + md < 2 ^ 32.

(** [P]: the requests a client may ask to be cached. *)
Definition call_ok (P : req -> Prop) (c : call) : Prop :=
  match c with
  | CGet r | CInsert r => P r
  | _ => True
  end.
