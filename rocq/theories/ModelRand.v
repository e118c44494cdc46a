(** Eviction algorithms that sample the hash table: Random, RandomTwo,
    RandomLRU, Hyperbolic.  Files are under /repo/libCacheSim/cache/eviction. *)
From stdpp Require Import gmap list numbers fin_maps.
From Verif Require Import Base Driver.
Open Scope Z_scope.

(** [rn_seed] is the state of the generator behind next_rand.  [rn_cand] and
    [rn_gen] are cache->to_evict_candidate and to_evict_candidate_gen_vtime
    (cache.c:41-42), used by Hyperbolic only. *)
Record rstate : Type := mkRn {
  rn_c    : cache;
  rn_seed : Z;
  rn_cand : option Z;
  rn_gen  : Z
}.

Definition rn_set_c (s : rstate) (c : cache) : rstate :=
  mkRn c (rn_seed s) (rn_cand s) (rn_gen s).
Definition rn_set_seed (s : rstate) (x : Z) : rstate :=
  mkRn (rn_c s) x (rn_cand s) (rn_gen s).
Definition rn_set_cand (s : rstate) (v : option Z) (g : Z) : rstate :=
  mkRn (rn_c s) (rn_seed s) v g.

(** The default callbacks (cache.c:141-161, cache.h:274-287, cache.c:226). *)
Definition rn_can_insert (s : rstate) (r : req) : res (rstate * bool) :=
  let '(c, b) := cache_can_insert_default (rn_c s) r in Ok (rn_set_c s c, b).
Definition rn_occ (s : rstate) : Z := c_occ (rn_c s).
Definition rn_nobj (s : rstate) : Z := c_nobj (rn_c s).
Definition rn_size (s : rstate) : Z := c_size (rn_c s).
Definition rn_md (s : rstate) : Z := c_md (rn_c s).
Definition rn_tick (s : rstate) : rstate := rn_set_c s (c_incr_nreq (rn_c s)).
Definition rn_init (size md : Z) (adm : admissioner) (seed : Z) : rstate :=
  mkRn (cache_init size md adm) seed None (-1).

(** Random.c:171-179, RandomTwo.c:190-198, RandomLRU.c:224-232,
    Hyperbolic.c:232-241. *)
Definition rn_remove (s : rstate) (id : Z) : res (rstate * bool) :=
  match c_tbl (rn_c s) !! id with
  | None => Ok (s, false)
  | Some _ => let! c := cache_remove_obj_base (rn_c s) id in Ok (rn_set_c s c, true)
  end.

Section draw.
  (** What hashtable_rand_obj (chainedHashTableV2.c:297-302) returns for a
      generator state and a table: an id and the next generator state.  The
      code is modelled by [ht_rand_obj] in ModelHash.v; here it is an arbitrary
      function, and the theorems ask only that it returns an object of the
      table (C45_rand_obj_total).  What the code draws also depends on the order
      of objects within the buckets; reading the generator state as the number
      of draws made so far, every run of the code is the run for some [draw]. *)
  Context (draw : Z -> gmap Z cobj -> Z * Z).

  (** The loop of hashtable_rand_obj has no exit when the table is empty. *)
  Definition rand_obj (s : rstate) : res (Z * rstate) :=
    if decide (c_tbl (rn_c s) = ∅) then Err NonTerm
    else let '(id, seed) := draw (rn_seed s) (c_tbl (rn_c s)) in Ok (id, rn_set_seed s seed).

  (** A read through the sampled pointer. *)
  Definition rn_obj (s : rstate) (id : Z) : res cobj :=
    match c_tbl (rn_c s) !! id with None => Err UseAfterFree | Some o => Ok o end.

  (** ** Random *)

  (** Random.c:111-114 *)
  Definition random_find (s : rstate) (r : req) (u : bool) : res (rstate * bool) :=
    let '(c, b) := cache_find_base (rn_c s) r u in Ok (rn_set_c s c, b).
  (** Random.c:126-128 *)
  Definition random_insert (s : rstate) (r : req) : res rstate :=
    let! c := cache_insert_base (rn_c s) r in Ok (rn_set_c s c).
  (** Random.c:140-142 *)
  Definition random_to_evict (s : rstate) (_ : req) : res (rstate * option Z) :=
    let! (id, s) := rand_obj s in Ok (s, Some id).
  (** Random.c:152-156 *)
  Definition random_evict (s : rstate) (_ : req) : res rstate :=
    let! (id, s) := rand_obj s in
    let! c := cache_evict_base (rn_c s) id in Ok (rn_set_c s c).

  Definition random_ops : ops rstate :=
    mkOps random_find rn_can_insert random_insert random_evict random_to_evict rn_remove
          rn_occ rn_nobj rn_size rn_md rn_tick.

  (** ** RandomTwo; [o_p1] is Random.last_access_vtime *)

  (** RandomTwo.c:112-120, RandomLRU.c:127-134 *)
  Definition rvt_find (s : rstate) (r : req) (u : bool) : res (rstate * bool) :=
    let '(c, b) := cache_find_base (rn_c s) r u in
    if (b && u)%bool
    then Ok (rn_set_c s (c_upd c (r_id r) (fun o => o_set_p1 o (c_nreq c))), b)
    else Ok (rn_set_c s c, b).
  (** RandomTwo.c:132-137, RandomLRU.c:146-151 *)
  Definition rvt_insert (s : rstate) (r : req) : res rstate :=
    let! c := cache_insert_base (rn_c s) r in
    Ok (rn_set_c s (c_upd c (r_id r) (fun o => o_set_p1 o (c_nreq c)))).

  (** RandomTwo.c:149-158, 166-175: the choice between the two samples *)
  Definition two_pick (s : rstate) : res (Z * rstate) :=
    let! (a, s) := rand_obj s in
    let! (b, s) := rand_obj s in
    let! oa := rn_obj s a in
    let! ob := rn_obj s b in
    if decide (o_p1 oa < o_p1 ob) then Ok (a, s) else Ok (b, s).
  Definition two_to_evict (s : rstate) (_ : req) : res (rstate * option Z) :=
    let! (v, s) := two_pick s in Ok (s, Some v).
  Definition two_evict (s : rstate) (_ : req) : res rstate :=
    let! (v, s) := two_pick s in
    let! c := cache_evict_base (rn_c s) v in Ok (rn_set_c s c).

  Definition two_ops : ops rstate :=
    mkOps rvt_find rn_can_insert rvt_insert two_evict two_to_evict rn_remove
          rn_occ rn_nobj rn_size rn_md rn_tick.

  (** ** RandomLRU *)

  (** RandomLRU.c:202-206: [n] samples. *)
  Fixpoint rand_objs (n : nat) (s : rstate) : res (list Z * rstate) :=
    match n with
    | O => Ok ([], s)
    | S k =>
        let! (id, s) := rand_obj s in
        let! (l, s) := rand_objs k s in
        Ok (id :: l, s)
    end.

  (** RandomLRU.c:207-208: qsort by last_access_vtime, then element 0.
      Simplification: qsort leaves open which of several objects with the same
      time comes first; the model takes the first sampled one. *)
  Fixpoint oldest (s : rstate) (best : Z) (l : list Z) : res Z :=
    match l with
    | [] => let! _ := rn_obj s best in Ok best
    | x :: l =>
        let! ob := rn_obj s best in
        let! ox := rn_obj s x in
        oldest s (if decide (o_p1 ox < o_p1 ob) then x else best) l
    end.

  (** RandomLRU.c:201-209, N = 64 *)
  Definition rlru_evict (s : rstate) (_ : req) : res rstate :=
    let! (l, s) := rand_objs 64 s in
    match l with
    | [] => Err OutOfBounds
    | x :: l =>
        let! v := oldest s x l in
        let! c := cache_evict_base (rn_c s) v in Ok (rn_set_c s c)
    end.
  (** RandomLRU.c:163-178 *)
  Definition rlru_to_evict (s : rstate) (_ : req) : res (rstate * option Z) := Err AssertFail.

  Definition rlru_ops : ops rstate :=
    mkOps rvt_find rn_can_insert rvt_insert rlru_evict rlru_to_evict rn_remove
          rn_occ rn_nobj rn_size rn_md rn_tick.

  (** ** Hyperbolic; [o_p1] is hyperbolic.freq, [o_p2] vtime_enter_cache.
      [n_sample] is a parameter (default 64, Hyperbolic.c:60).
      [score freq age] stands for the double 1.0e8 * freq / age, and [smax] for
      1.0e16; doubles other than NaN are linearly ordered, so they are
      represented by their rank, an integer (freq >= 1 excludes NaN). *)
  Context (score : Z -> Z -> Z) (smax : Z) (n_sample : nat).

  (** Hyperbolic.c:128-137 *)
  Definition hyp_find (s : rstate) (r : req) (u : bool) : res (rstate * bool) :=
    let '(c, b) := cache_find_base (rn_c s) r u in
    if (b && u)%bool
    then Ok (rn_set_c s (c_upd c (r_id r) (fun o => o_set_p1 o (o_p1 o + 1))), b)
    else Ok (rn_set_c s c, b).
  (** Hyperbolic.c:149-155 *)
  Definition hyp_insert (s : rstate) (r : req) : res rstate :=
    let! c := cache_insert_base (rn_c s) r in
    Ok (rn_set_c s (c_upd c (r_id r) (fun o => o_set_p2 (o_set_p1 o 1) (c_nreq c)))).

  (** Hyperbolic.c:171-180 *)
  Fixpoint hyp_loop (n : nat) (s : rstate) (best : option Z) (bs : Z) : res (option Z * rstate) :=
    match n with
    | O => Ok (best, s)
    | S k =>
        let! (x, s) := rand_obj s in
        let! o := rn_obj s x in
        let sc := score (o_p1 o) (c_nreq (rn_c s) - o_p2 o) in
        if decide (bs > sc) then hyp_loop k s (Some x) sc else hyp_loop k s best bs
    end.
  (** Hyperbolic.c:167-186 *)
  Definition hyp_to_evict (s : rstate) (_ : req) : res (rstate * option Z) :=
    let! (v, s) := hyp_loop n_sample s None smax in
    Ok (rn_set_cand s v (c_nreq (rn_c s)), v).
  (** Hyperbolic.c:197-213; cache_evict_base of a NULL object crashes. *)
  Definition hyp_evict (s : rstate) (r : req) : res rstate :=
    let! (v, s) :=
      if decide (rn_gen s = c_nreq (rn_c s)) then Ok (rn_cand s, s)
      else let! (s, v) := hyp_to_evict s r in Ok (v, s) in
    let s := rn_set_cand s (rn_cand s) (-1) in
    match v with
    | None => Err NullDeref
    | Some v => let! c := cache_evict_base (rn_c s) v in Ok (rn_set_c s c)
    end.

  Definition hyp_ops : ops rstate :=
    mkOps hyp_find rn_can_insert hyp_insert hyp_evict hyp_to_evict rn_remove
          rn_occ rn_nobj rn_size rn_md rn_tick.
End draw.

(** Random, RandomTwo and RandomLRU leave obj_md_size at 0 (cache_struct_init). *)
Definition random_init (size : Z) (adm : admissioner) (seed : Z) : rstate := rn_init size 0 adm seed.
(** Hyperbolic.c:67-72 *)
Definition hyp_init (consider_md : bool) (size : Z) (adm : admissioner) (seed : Z) : rstate :=
  rn_init size (if consider_md then 16 else 0) adm seed.
