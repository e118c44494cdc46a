(** Outcomes, requests, cached objects, admission policies and the code of
    libCacheSim/cache/cache.c that every eviction algorithm shares.
    All line numbers refer to files under /repo/libCacheSim. *)
From stdpp Require Import gmap list numbers fin_maps.
Open Scope Z_scope.

(** Outcome of a modelled C function.  [Err] stands for a behaviour that is
    not a normal return. *)
Inductive err : Type :=
| NullDeref     (* a NULL pointer is dereferenced *)
| UseAfterFree  (* a freed object is accessed *)
| AssertFail    (* assert / ASSERT_* / exit(1) / abort() *)
| DupInsert     (* an id is inserted in an index that already holds it *)
| OutOfBounds   (* an array is accessed outside its bounds *)
| OutOfFuel     (* loop bound of the model exhausted; excluded by theorems *)
| NonTerm       (* the C loop provably never exits *)
| IntOverflow   (* a signed integer overflows, undefined in C *)
| DivByZero     (* integer division or modulo by zero *)
| Uninit.       (* an uninitialised pointer is used *)

Inductive res (A : Type) : Type :=
| Ok (a : A)
| Err (e : err).
Arguments Ok {A} a.
Arguments Err {A} e.

Definition rbind {A B : Type} (x : res A) (f : A -> res B) : res B :=
  match x with Ok a => f a | Err e => Err e end.

Notation "'let!' p := x 'in' k" :=
  (rbind x (fun p => k))
  (at level 200, p as pattern, x at level 100, k at level 200,
   format "'[' 'let!'  p  :=  x  'in' ']' '/' k").

(** include/libCacheSim/request.h:21-65 (request_t).  Only the fields read by
    the modelled code are kept. *)
Record req : Type := mkReq {
  r_id   : Z;   (* obj_id_t obj_id *)
  r_size : Z;   (* int64_t obj_size *)
  r_time : Z;   (* int64_t clock_time *)
  r_next : Z;   (* int64_t next_access_vtime *)
  r_ttl  : Z    (* int32_t ttl *)
}.

Definition u32 (x : Z) : Z := x mod 2 ^ 32.
Definition u64 (x : Z) : Z := x mod 2 ^ 64.
(** conversion to a signed 32-bit int (two's complement). *)
Definition i32 (x : Z) : Z := (x + 2 ^ 31) mod 2 ^ 32 - 2 ^ 31.

(** include/libCacheSim/cacheObj.h:130-180 (cache_obj_t).  [o_p1], [o_p2],
    [o_p3] are the words of the per-algorithm union (156-180); each algorithm
    says in its own file how it uses them.  [o_freq] is misc.freq, an int32_t
    in C: the model does not wrap it (wrapping needs 2^31 hits on one object).
    The queue links are modelled by the queues themselves. *)
Record cobj : Type := mkObj {
  o_size : Z;
  o_freq : Z;
  o_next : Z;
  o_exp  : Z;
  o_p1   : Z;
  o_p2   : Z;
  o_p3   : Z
}.

Definition o_set_size (o : cobj) (x : Z) : cobj :=
  mkObj x (o_freq o) (o_next o) (o_exp o) (o_p1 o) (o_p2 o) (o_p3 o).
Definition o_set_freq (o : cobj) (x : Z) : cobj :=
  mkObj (o_size o) x (o_next o) (o_exp o) (o_p1 o) (o_p2 o) (o_p3 o).
Definition o_set_next (o : cobj) (x : Z) : cobj :=
  mkObj (o_size o) (o_freq o) x (o_exp o) (o_p1 o) (o_p2 o) (o_p3 o).
Definition o_set_exp (o : cobj) (x : Z) : cobj :=
  mkObj (o_size o) (o_freq o) (o_next o) x (o_p1 o) (o_p2 o) (o_p3 o).
Definition o_set_p1 (o : cobj) (x : Z) : cobj :=
  mkObj (o_size o) (o_freq o) (o_next o) (o_exp o) x (o_p2 o) (o_p3 o).
Definition o_set_p2 (o : cobj) (x : Z) : cobj :=
  mkObj (o_size o) (o_freq o) (o_next o) (o_exp o) (o_p1 o) x (o_p3 o).
Definition o_set_p3 (o : cobj) (x : Z) : cobj :=
  mkObj (o_size o) (o_freq o) (o_next o) (o_exp o) (o_p1 o) (o_p2 o) x.

(** utils/include/mymath.h:27-30 (next_rand), uint64_t wrap-around.
    Simplification: the seed is thread-global in C; here it is threaded by
    the component that draws. *)
Definition next_rand (seed : Z) : Z :=
  u64 (6364136223846793005 * seed + 1442695040888963407).

(** Admission policies (cache/admission).
    [AdmNone]: cache->admissioner == NULL.
    [AdmBloom]: bloomfilter.c, the GHashTable seen_times.
    [AdmSize]: size.c, size_threshold.
    [AdmProb]: prob.c, rand_seed and admission_probability_int. *)
Inductive admissioner : Type :=
| AdmNone
| AdmBloom (seen : gmap Z Z)
| AdmSize (threshold : Z)
| AdmProb (seed p : Z).

(** cache/admission/bloomfilter.c:18-31, size.c:16-23, prob.c:19-26.
    The per-id counter of bloomfilter.c is an int kept in a pointer, so that
    the value 0 reads as NULL, "not seen".  Simplification: the overflow of
    the counter after 2^31 - 1 requests for one object, undefined in C, wraps
    around here. *)
Definition admit (a : admissioner) (r : req) : admissioner * bool :=
  match a with
  | AdmNone => (AdmNone, true)
  | AdmBloom seen =>
      let n := default 0 (seen !! r_id r) in
      if decide (n = 0) then (AdmBloom (<[r_id r := 1]> seen), false)
      else (AdmBloom (<[r_id r := i32 (n + 1)]> seen), true)
  | AdmSize t => (AdmSize t, bool_decide (r_size r < t))
  | AdmProb seed p =>
      let seed' := next_rand seed in
      (AdmProb seed' p, bool_decide (seed' mod 10000000 < p))
  end.

(** include/libCacheSim/cache.h:93-162 (cache_t): the fields every algorithm
    shares.  [c_tbl] is the hash table: the model of chainedHashTableV2.c as a
    finite map is justified in PropsHash.v. *)
Record cache : Type := mkCache {
  c_size : Z;              (* cache_size *)
  c_md   : Z;              (* obj_md_size (int32_t) *)
  c_nreq : Z;              (* n_req *)
  c_nobj : Z;              (* n_obj *)
  c_occ  : Z;              (* occupied_byte *)
  c_tbl  : gmap Z cobj;    (* hashtable *)
  c_adm  : admissioner     (* admissioner *)
}.

Definition c_set_tbl (c : cache) (t : gmap Z cobj) : cache :=
  mkCache (c_size c) (c_md c) (c_nreq c) (c_nobj c) (c_occ c) t (c_adm c).
Definition c_set_adm (c : cache) (a : admissioner) : cache :=
  mkCache (c_size c) (c_md c) (c_nreq c) (c_nobj c) (c_occ c) (c_tbl c) a.
Definition c_incr_nreq (c : cache) : cache :=
  mkCache (c_size c) (c_md c) (c_nreq c + 1) (c_nobj c) (c_occ c) (c_tbl c) (c_adm c).

(** Update one object of the index in place (a write through a cache_obj_t
    pointer obtained from the index). *)
Definition c_upd (c : cache) (id : Z) (f : cobj -> cobj) : cache :=
  c_set_tbl c (alter f id (c_tbl c)).

(** cache/cache.c:23-65 (cache_struct_init): a fresh cache. *)
Definition cache_init (size md : Z) (a : admissioner) : cache :=
  mkCache size md 0 0 0 ∅ a.

(** cache/cache.c:141-161 (cache_can_insert_default). *)
Definition cache_can_insert_default (c : cache) (r : req) : cache * bool :=
  let '(a, ok) := admit (c_adm c) r in
  let c' := c_set_adm c a in
  if ok then
    if decide (r_size r + c_md c > c_size c) then (c', false) else (c', true)
  else (c', false).

(** cache/cache.c:175-204 (cache_find_base), default build: SUPPORT_TTL off,
    no prefetcher. *)
Definition cache_find_base (c : cache) (r : req) (upd : bool) : cache * bool :=
  match c_tbl c !! r_id r with
  | None => (c, false)
  | Some o =>
      if upd then
        (c_upd c (r_id r) (fun o => o_set_freq (o_set_next o (r_next r)) (o_freq o + 1)), true)
      else (c, true)
  end.

(** cache/cacheObj.c:28-37 (copy_request_to_cache_obj) with the fresh object
    zeroed by create_cache_obj_from_request; obj_size is a uint32_t
    (include/libCacheSim/cacheObj.h:140). *)
Definition obj_of_req (r : req) : cobj :=
  mkObj (u32 (r_size r)) 0 (r_next r) 0 0 0 0.

(** cache/cache.c:266-287 (cache_insert_base), default build. *)
Definition cache_insert_base (c : cache) (r : req) : res cache :=
  match c_tbl c !! r_id r with
  | Some _ => Err DupInsert
  | None =>
      let o := obj_of_req r in
      Ok (mkCache (c_size c) (c_md c) (c_nreq c) (c_nobj c + 1)
            (c_occ c + (o_size o + c_md c)) (<[r_id r := o]> (c_tbl c)) (c_adm c))
  end.

(** cache/cache.c:327-335 (cache_remove_obj_base, remove_from_hashtable =
    true).  [obj->obj_size + cache->obj_md_size] is computed in uint32_t. *)
Definition cache_remove_obj_base (c : cache) (id : Z) : res cache :=
  match c_tbl c !! id with
  | None => Err UseAfterFree
  | Some o =>
      Ok (mkCache (c_size c) (c_md c) (c_nreq c) (c_nobj c - 1)
            (c_occ c - u32 (o_size o + c_md c)) (delete id (c_tbl c)) (c_adm c))
  end.

(** cache/cache.c:297-316 (cache_evict_base), no prefetcher, no eviction-age
    tracking. *)
Definition cache_evict_base (c : cache) (id : Z) : res cache :=
  cache_remove_obj_base c id.
