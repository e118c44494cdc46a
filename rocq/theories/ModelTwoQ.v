(** 2Q: cache/eviction/TwoQ.c, on top of the FIFO and LRU caches of
    ModelQueue.v.  Line numbers refer to TwoQ.c unless another file is named. *)
From stdpp Require Import gmap list numbers fin_maps.
From Verif Require Import Base Driver ModelQueue.
Open Scope Z_scope.

(** cache/cacheObj.c:15-21 (copy_cache_obj_to_request): the request that
    stands for a cached object in the composite caches.  Simplification: the
    time and ttl fields of that local request are not set by the C code and
    not read in the default build; they are 0 here. *)
Definition req_of_obj (id : Z) (o : cobj) : req := mkReq id (o_size o) 0 (o_next o) 0.

(** TwoQ.c:22-42 (TwoQ_params_t) together with the fields of the outer cache_t
    that are used. *)
Record twoq : Type := mkTQ {
  t_in    : qstate;   (* Ain, a FIFO *)
  t_out   : qstate;   (* Aout, a FIFO of ghosts *)
  t_am    : qstate;   (* Am, an LRU *)
  t_ghost : bool;     (* hit_on_ghost *)
  t_size  : Z;        (* cache_size *)
  t_nreq  : Z         (* n_req *)
}.

(** 69-113 (TwoQ_init).  [ain] and [aout] are the sizes
    (int64_t) cache_size * Ain_size_ratio and cache_size * Aout_size_ratio:
    the floating-point products are parameters here.  [consider_md] is
    ccache_params.consider_obj_metadata, which only the LRU looks at. *)
Definition twoq_init (consider_md : bool) (cap ain aout : Z) : twoq :=
  mkTQ (fifo_init ain AdmNone) (fifo_init aout AdmNone)
       (lru_init consider_md (cap - ain) AdmNone) false cap 0.

Definition t_set_in (s : twoq) (x : qstate) : twoq :=
  mkTQ x (t_out s) (t_am s) (t_ghost s) (t_size s) (t_nreq s).
Definition t_set_out (s : twoq) (x : qstate) : twoq :=
  mkTQ (t_in s) x (t_am s) (t_ghost s) (t_size s) (t_nreq s).
Definition t_set_am (s : twoq) (x : qstate) : twoq :=
  mkTQ (t_in s) (t_out s) x (t_ghost s) (t_size s) (t_nreq s).
Definition t_set_ghost (s : twoq) (b : bool) : twoq :=
  mkTQ (t_in s) (t_out s) (t_am s) b (t_size s) (t_nreq s).

(** A get on a sub-cache: params->X->get(params->X, req) is cache_get_base with
    the loop of that cache; the bound of the model's loop is its object count. *)
Definition sub_get (O : ops qstate) (s : qstate) (r : req) : res (qstate * bool) :=
  cache_get_base O (Z.to_nat (op_nobj O s)) s r.

(** 173-205 (TwoQ_find) *)
Definition twoq_find (s : twoq) (r : req) (u : bool) : res (twoq * bool) :=
  if u then
    let s := t_set_ghost s false in
    let! (i, b) := fifo_find (t_in s) r false in
    let s := t_set_in s i in
    if b : bool then Ok (s, true)
    else
      let! (o, g) := q_remove (t_out s) (r_id r) in
      let s := t_set_out s o in
      let s := if g : bool then t_set_ghost s true else s in
      let! (m, b) := lru_find (t_am s) r true in
      Ok (t_set_am s m, b)
  else
    let! (i, b) := fifo_find (t_in s) r false in
    let s := t_set_in s i in
    if b : bool then Ok (s, true)
    else
      let! (m, b) := lru_find (t_am s) r false in
      Ok (t_set_am s m, b).

(** 218-231 (TwoQ_insert) *)
Definition twoq_insert (s : twoq) (r : req) : res twoq :=
  if t_ghost s then
    let s := t_set_ghost s false in
    let! (m, _) := sub_get lru_ops (t_am s) r in
    Ok (t_set_am s m)
  else
    let! i := q_insert (t_in s) r in
    Ok (t_set_in s i).

(** 257-277 (TwoQ_evict): the victim of Ain becomes a ghost in Aout. *)
Definition twoq_evict (s : twoq) (r : req) : res twoq :=
  if decide (q_occ (t_in s) > q_size (t_in s)) then
    let! (i, v) := q_to_evict_tail (t_in s) r in
    match v with
    | None => Err NullDeref
    | Some v =>
        match c_tbl (q_c i) !! v with
        | None => Err UseAfterFree
        | Some o =>
            let! (g, _) := sub_get fifo_ops (t_out s) (req_of_obj v o) in
            let! i := q_evict_tail i r in
            Ok (t_set_in (t_set_out s g) i)
        end
    end
  else
    let! m := q_evict_tail (t_am s) r in
    Ok (t_set_am s m).

(** 243-246 (TwoQ_to_evict) is assert(false). *)
Definition twoq_to_evict (s : twoq) (_ : req) : res (twoq * option Z) := Err AssertFail.

(** 292-300 (TwoQ_remove): the first of Ain, Aout, Am that holds the id. *)
Definition twoq_remove (s : twoq) (id : Z) : res (twoq * bool) :=
  let! (i, b) := q_remove (t_in s) id in
  let s := t_set_in s i in
  if b : bool then Ok (s, true)
  else
    let! (o, b) := q_remove (t_out s) id in
    let s := t_set_out s o in
    if b : bool then Ok (s, true)
    else
      let! (m, b) := q_remove (t_am s) id in
      Ok (t_set_am s m, b).

(** 314-318 (TwoQ_can_insert): the admission policy is not consulted. *)
Definition twoq_can_insert (s : twoq) (r : req) : res (twoq * bool) :=
  Ok (s, bool_decide (r_size r <= q_size (t_in s))).

(** 302-312 (TwoQ_get_occupied_byte, TwoQ_get_n_obj), 80 (obj_md_size = 0),
    149-156 (TwoQ_get is cache_get_base). *)
Definition twoq_ops : ops twoq :=
  mkOps twoq_find twoq_can_insert twoq_insert twoq_evict twoq_to_evict twoq_remove
    (fun s => q_occ (t_in s) + q_occ (t_am s))
    (fun s => q_nobj (t_in s) + q_nobj (t_am s))
    t_size (fun _ => 0)
    (fun s => mkTQ (t_in s) (t_out s) (t_am s) (t_ghost s) (t_size s) (t_nreq s + 1)).
