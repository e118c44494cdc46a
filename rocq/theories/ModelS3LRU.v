(** S3LRU: cache/eviction/other/S3LRU.c, around its main cache (LRU or Clock).
    Line numbers refer to S3LRU.c.  In spite of its name the small queue is a
    FIFO (119). *)
From stdpp Require Import gmap list numbers fin_maps.
From Verif Require Import Base Driver ModelQueue ModelTwoQ ModelS3FIFO.
Open Scope Z_scope.

(** 354-356: [ghost->get], the ghost being an LRU (123). *)
Definition lghost_get (g : option qstate) (r : req) : res (option qstate) :=
  match g with
  | None => Ok None
  | Some q => let! (q, _) := sub_get lru_ops q r in Ok (Some q)
  end.

Section S3LRU.
  (** The main cache (130-139), with its own operations. *)
  Context {M : Type} (O : ops M).

  (** 30-43 (S3LRU_params_t) with the used fields of the outer cache_t. [l_msz]
      is main_cache->cache_size, which never changes. *)
  Record l3 : Type := mkL3 {
    l_fifo : qstate;           (* params->LRU *)
    l_gq   : option qstate;    (* LRU_ghost, NULL when its size is 0 *)
    l_main : M;
    l_hg   : bool;             (* hit_on_ghost *)
    l_thr  : Z;                (* move_to_main_threshold *)
    l_pr   : bool;             (* promote_on_hit *)
    l_size : Z;
    l_msz  : Z;
    l_nreq : Z
  }.

  (** 80-154 (S3LRU_init).  [fsz] and [gsz] are the sizes computed from the ratios
      with floating-point products (110-114); [main0] is the main cache created
      with size cap - fsz.  [gmd] is the obj_md_size of the ghost (16 with
      consider_obj_metadata, else 0). *)
  Definition l3_init (cap fsz gsz gmd thr : Z) (pr : bool) (main0 : M) : l3 :=
    mkL3 (fifo_init fsz AdmNone)
         (if decide (gsz > 0) then Some (q_init gsz gmd AdmNone) else None)
         main0 false thr pr cap (cap - fsz) 0.

  Definition l3_set_fifo (s : l3) (x : qstate) : l3 :=
    mkL3 x (l_gq s) (l_main s) (l_hg s) (l_thr s) (l_pr s) (l_size s) (l_msz s) (l_nreq s).
  Definition l3_set_gq (s : l3) (x : option qstate) : l3 :=
    mkL3 (l_fifo s) x (l_main s) (l_hg s) (l_thr s) (l_pr s) (l_size s) (l_msz s) (l_nreq s).
  Definition l3_set_main (s : l3) (x : M) : l3 :=
    mkL3 (l_fifo s) (l_gq s) x (l_hg s) (l_thr s) (l_pr s) (l_size s) (l_msz s) (l_nreq s).
  Definition l3_set_hg (s : l3) (b : bool) : l3 :=
    mkL3 (l_fifo s) (l_gq s) (l_main s) b (l_thr s) (l_pr s) (l_size s) (l_msz s) (l_nreq s).

  (** 218-267 (S3LRU_find).  [o_p1] is S3FIFO.freq.  The counter of an object of
      the main cache (263) is never read and is left out; it lies behind
      clock.freq in the union (include/libCacheSim/cacheObj.h), so that it does
      not disturb a Clock.  After 249-250 the returned pointer is dangling; only
      that it is not NULL is used by cache_get_base. *)
  Definition l3_find (s : l3) (r : req) (u : bool) : res (l3 * bool) :=
    if u then
      let s := l3_set_hg s false in
      let! (f, b) := fifo_find (l_fifo s) r true in
      if b : bool then
        let f := q_upd f (r_id r) (fun o => o_set_p1 o (o_p1 o + 1)) in
        match c_tbl (q_c f) !! r_id r with
        | None => Err UseAfterFree
        | Some o =>
            if (l_pr s && bool_decide (o_p1 o >= l_thr s))%bool then
              let! (f, _) := q_remove f (r_id r) in
              let! m := op_insert O (l_main s) r in
              Ok (l3_set_main (l3_set_fifo s f) m, true)
            else Ok (l3_set_fifo s f, true)
        end
      else
        let s := l3_set_fifo s f in
        let! (g, gh) := ghost_remove (l_gq s) (r_id r) in
        let s := l3_set_gq s g in
        let s := if gh : bool then l3_set_hg s true else s in
        let! (m, b) := op_find O (l_main s) r true in
        Ok (l3_set_main s m, b)
    else
      let! (f, b) := fifo_find (l_fifo s) r false in
      let s := l3_set_fifo s f in
      if b : bool then Ok (s, true)
      else
        let! (m, b) := op_find O (l_main s) r false in
        Ok (l3_set_main s m, b).

  (** 280-309 (S3LRU_insert): a remembered object goes to the main cache, without
      a check of its size (287). *)
  Definition l3_insert (s : l3) (r : req) : res l3 :=
    if l_hg s then
      let s := l3_set_hg s false in
      let! m := op_insert O (l_main s) r in
      Ok (l3_set_main s m)
    else if decide (r_size r > q_size (l_fifo s)) then Ok s
    else
      let! f := q_insert (l_fifo s) r in
      Ok (l3_set_fifo s (q_upd f (r_id r) (fun o => o_set_p1 o 0))).

  (** 321-324 is assert(false). *)
  Definition l3_to_evict (s : l3) (_ : req) : res (l3 * option Z) := Err AssertFail.

  (** 326-361 (S3LRU_evict_LRU).  The bound on the loop is the number of objects
      of the small queue. *)
  Fixpoint l3_fifo_loop (fuel : nat) (pr : bool) (thr : Z) (f : qstate) (g : option qstate) (m : M)
      : res (qstate * option qstate * M) :=
    if decide (q_occ f > 0) then
      match fuel with
      | 0%nat => Err OutOfFuel
      | S k =>
          match last (q_q f) with
          | None => Err NullDeref
          | Some v =>
              match c_tbl (q_c f) !! v with
              | None => Err UseAfterFree
              | Some o =>
                  if (negb pr && bool_decide (o_p1 o >= thr))%bool then
                    let! m := op_insert O m (req_of_obj v o) in
                    let! (f, removed) := q_remove f v in
                    if removed : bool then l3_fifo_loop k pr thr f g m else Err AssertFail
                  else
                    let! g := lghost_get g (req_of_obj v o) in
                    let! (f, removed) := q_remove f v in
                    if removed : bool then Ok (f, g, m) else Err AssertFail
              end
          end
      end
    else Ok (f, g, m).

  (** 392-406 (S3LRU_evict); S3LRU_evict_main (363-381) is never called. *)
  Definition l3_evict (s : l3) (r : req) : res l3 :=
    if decide (op_occupied O (l_main s) > l_msz s \/ q_occ (l_fifo s) = 0) then
      let! m := op_evict O (l_main s) r in Ok (l3_set_main s m)
    else
      let! (f, g, m) := l3_fifo_loop (length (q_q (l_fifo s))) (l_pr s) (l_thr s) (l_fifo s) (l_gq s) (l_main s) in
      Ok (l3_set_main (l3_set_gq (l3_set_fifo s f) g) m).

  (** 421-430 (S3LRU_remove) *)
  Definition l3_remove (s : l3) (id : Z) : res (l3 * bool) :=
    let! (f, b) := q_remove (l_fifo s) id in
    let s := l3_set_fifo s f in
    if b : bool then Ok (s, true)
    else
      let! (g, b) := ghost_remove (l_gq s) id in
      let s := l3_set_gq s g in
      if b : bool then Ok (s, true)
      else
        let! (m, b) := op_remove O (l_main s) id in
        Ok (l3_set_main s m, b).

  (** 444-448 (S3LRU_can_insert): the admission policy is not consulted. *)
  Definition l3_can_insert (s : l3) (r : req) : res (l3 * bool) :=
    Ok (s, bool_decide (r_size r <= q_size (l_fifo s))).

  (** 432-442, 96, 192-201 (S3LRU_get is cache_get_base). *)
  Definition l3_ops : ops l3 :=
    mkOps l3_find l3_can_insert l3_insert l3_evict l3_to_evict l3_remove
      (fun s => q_occ (l_fifo s) + op_occupied O (l_main s))
      (fun s => q_nobj (l_fifo s) + op_nobj O (l_main s))
      l_size (fun _ => 0)
      (fun s => mkL3 (l_fifo s) (l_gq s) (l_main s) (l_hg s) (l_thr s) (l_pr s) (l_size s) (l_msz s) (l_nreq s + 1)).
End S3LRU.
Arguments l3 : clear implicits.
