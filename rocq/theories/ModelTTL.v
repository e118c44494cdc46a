(** The build with SUPPORT_TTL=1 (CMakeLists.txt:26, 65-69).  It changes
    cache_find_base and cache_insert_base, which every algorithm calls; the
    rest of an algorithm is untouched, so the model wraps the operations of the
    default build.  The new field exp_time of cache_obj_t (cacheObj.h:145-147)
    is kept beside the objects, in a map from ids; entries of ids that are not
    in the hash table are never read. *)
From stdpp Require Import gmap list numbers fin_maps.
From Verif Require Import Base Driver.
Open Scope Z_scope.

Record ttl (S : Type) : Type := mkTTL {
  t_s   : S;
  t_exp : gmap Z Z;      (* exp_time, uint32_t *)
  t_def : Z              (* cache->default_ttl *)
}.
Arguments mkTTL {S}. Arguments t_s {S}. Arguments t_exp {S}. Arguments t_def {S}.

(** cacheObj.c:30-35 and cache.c:272-276: the sum is computed in int64_t and
    stored in a uint32_t. *)
Definition exp_of (def : Z) (r : req) : Z :=
  if decide (r_ttl r <> 0) then u32 (r_time r + r_ttl r)
  else if decide (def <> 0) then u32 (i32 def + r_time r)
  else 0.

(** cache.c:188: uint32_t against int64_t, compared as int64_t. *)
Definition expired (exps : gmap Z Z) (r : req) : bool :=
  match exps !! r_id r with
  | None => false
  | Some e => bool_decide (e <> 0 /\ e < r_time r)
  end.

Section TTL.
  Context {S : Type} (O : ops S).
  (** hashtable_find *)
  Context (has : S -> Z -> bool).

  (** cache.c:175-204 inside the algorithm's find.  For an expired object:
      with update, the object is removed (190-192), the local pointer set to
      NULL (194), and then written through (197-200); without update, find
      reports NULL.  Every algorithm returns at once when cache_find_base
      returns NULL. *)
  Definition ttl_find (t : ttl S) (r : req) (u : bool) : res (ttl S * bool) :=
    if (has (t_s t) (r_id r) && expired (t_exp t) r)%bool then
      if u then let! _ := op_remove O (t_s t) (r_id r) in Err NullDeref
      else Ok (t, false)
    else
      let! (s, b) := op_find O (t_s t) r u in
      Ok (mkTTL s (t_exp t) (t_def t), b).

  (** cache.c:266-287: the new object gets its expiry time. *)
  Definition ttl_insert (t : ttl S) (r : req) : res (ttl S) :=
    let! s := op_insert O (t_s t) r in
    Ok (mkTTL s (<[r_id r := exp_of (t_def t) r]> (t_exp t)) (t_def t)).

  Definition ttl_ops : ops (ttl S) :=
    mkOps ttl_find
      (fun t r => let! (s, b) := op_can_insert O (t_s t) r in Ok (mkTTL s (t_exp t) (t_def t), b))
      ttl_insert
      (fun t r => let! s := op_evict O (t_s t) r in Ok (mkTTL s (t_exp t) (t_def t)))
      (fun t r => let! (s, v) := op_to_evict O (t_s t) r in Ok (mkTTL s (t_exp t) (t_def t), v))
      (fun t id => let! (s, b) := op_remove O (t_s t) id in Ok (mkTTL s (t_exp t) (t_def t), b))
      (fun t => op_occupied O (t_s t)) (fun t => op_nobj O (t_s t))
      (fun t => op_size O (t_s t)) (fun t => op_md O (t_s t))
      (fun t => mkTTL (op_tick O (t_s t)) (t_exp t) (t_def t)).

  Definition ttl_init (s : S) (def : Z) : ttl S := mkTTL s ∅ def.
End TTL.
