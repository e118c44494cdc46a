(** QDLP (quick demotion, lazy promotion): cache/eviction/QDLP.c, around any
    main cache.  Line numbers refer to QDLP.c.  Simplification:
    consider_obj_metadata is off, so that obj_md_size is 0 everywhere. *)
From stdpp Require Import gmap list numbers fin_maps.
From Verif Require Import Base Driver ModelQueue ModelTwoQ ModelS3FIFO.
Open Scope Z_scope.

Section QDLP.
  (** The main cache (120-154), with its own operations. *)
  Context {M : Type} (O : ops M).

  (** 21-41 (QDLP_params_t) with the used fields of the outer cache_t.  The
      counters n_obj_admit_to_fifo ... n_byte_move_to_main are never read and are
      left out. *)
  Record qd : Type := mkQd {
    d_fifo : qstate;
    d_gq   : option qstate;   (* fifo_ghost, NULL when its size is 0 *)
    d_main : M;
    d_hg   : bool;            (* hit_on_ghost *)
    d_thr  : Z;               (* move_to_main_threshold *)
    d_size : Z;
    d_nreq : Z
  }.

  (** 75-169 (QDLP_init).  [fsz] and [gsz] are the sizes computed from the ratios
      with floating-point products (104-108); [main0] is the main cache created
      with size cap - fsz. *)
  Definition qd_init (cap fsz gsz thr : Z) (main0 : M) : qd :=
    mkQd (fifo_init fsz AdmNone)
         (if decide (gsz > 0) then Some (fifo_init gsz AdmNone) else None)
         main0 false thr cap 0.

  Definition qd_set_fifo (s : qd) (x : qstate) : qd :=
    mkQd x (d_gq s) (d_main s) (d_hg s) (d_thr s) (d_size s) (d_nreq s).
  Definition qd_set_gq (s : qd) (x : option qstate) : qd :=
    mkQd (d_fifo s) x (d_main s) (d_hg s) (d_thr s) (d_size s) (d_nreq s).
  Definition qd_set_main (s : qd) (x : M) : qd :=
    mkQd (d_fifo s) (d_gq s) x (d_hg s) (d_thr s) (d_size s) (d_nreq s).
  Definition qd_set_hg (s : qd) (b : bool) : qd :=
    mkQd (d_fifo s) (d_gq s) (d_main s) b (d_thr s) (d_size s) (d_nreq s).

  (** params->main_cache->get(params->main_cache, req) *)
  Definition main_get (m : M) (r : req) : res (M * bool) :=
    cache_get_base O (Z.to_nat (op_nobj O m)) m r.

  (** 233-266 (QDLP_find) *)
  Definition qd_find (s : qd) (r : req) (u : bool) : res (qd * bool) :=
    if u then
      let s := qd_set_hg s false in
      let! (f, b) := fifo_find (d_fifo s) r true in
      let s := qd_set_fifo s f in
      if b : bool then Ok (s, true)
      else
        let! (g, gh) := ghost_remove (d_gq s) (r_id r) in
        let s := qd_set_gq s g in
        let s := if gh : bool then qd_set_hg s true else s in
        let! (m, b) := op_find O (d_main s) r true in
        Ok (qd_set_main s m, b)
    else
      let! (f, b) := fifo_find (d_fifo s) r false in
      let s := qd_set_fifo s f in
      if b : bool then Ok (s, true)
      else
        let! (m, b) := op_find O (d_main s) r false in
        Ok (qd_set_main s m, b).

  (** 279-307 (QDLP_insert).  The assertion of 304 reads through the pointer
      found at 289, which is NULL when the main cache refused the object; its
      condition (a new object has misc.freq 0) is left out. *)
  Definition qd_insert (s : qd) (r : req) : res qd :=
    if d_hg s then
      let s := qd_set_hg s false in
      let! (m, _) := main_get (d_main s) r in
      let! (m, b) := op_find O m r false in
      if b : bool then Ok (qd_set_main s m) else Err NullDeref
    else if decide (r_size r >= q_size (d_fifo s)) then Ok s
    else
      let! f := q_insert (d_fifo s) r in
      Ok (qd_set_fifo s f).

  (** 319-322 is assert(false). *)
  Definition qd_to_evict (s : qd) (_ : req) : res (qd * option Z) := Err AssertFail.

  (** 333-381 (QDLP_evict) *)
  Definition qd_evict (s : qd) (r : req) : res qd :=
    if decide (q_occ (d_fifo s) = 0) then
      if decide (op_occupied O (d_main s) <= d_size s) then
        let! m := op_evict O (d_main s) r in Ok (qd_set_main s m)
      else Err AssertFail
    else
      match last (q_q (d_fifo s)) with
      | None => Err AssertFail
      | Some v =>
          match c_tbl (q_c (d_fifo s)) !! v with
          | None => Err UseAfterFree
          | Some o =>
              let! s := (if decide (o_freq o >= d_thr s) then
                           let! (m, _) := main_get (d_main s) (req_of_obj v o) in Ok (qd_set_main s m)
                         else
                           let! g := ghost_get (d_gq s) (req_of_obj v o) in Ok (qd_set_gq s g)) in
              let! f := q_evict_tail (d_fifo s) r in
              Ok (qd_set_fifo s f)
          end
      end.

  (** 396-405 (QDLP_remove) *)
  Definition qd_remove (s : qd) (id : Z) : res (qd * bool) :=
    let! (f, b) := q_remove (d_fifo s) id in
    let s := qd_set_fifo s f in
    if b : bool then Ok (s, true)
    else
      let! (g, b) := ghost_remove (d_gq s) id in
      let s := qd_set_gq s g in
      if b : bool then Ok (s, true)
      else
        let! (m, b) := op_remove O (d_main s) id in
        Ok (qd_set_main s m, b).

  (** 419-423 (QDLP_can_insert): the admission policy is not consulted. *)
  Definition qd_can_insert (s : qd) (r : req) : res (qd * bool) :=
    Ok (s, bool_decide (r_size r <= q_size (d_fifo s))).

  (** 407-417, 91, 207-216 (QDLP_get is cache_get_base). *)
  Definition qd_ops : ops qd :=
    mkOps qd_find qd_can_insert qd_insert qd_evict qd_to_evict qd_remove
      (fun s => q_occ (d_fifo s) + op_occupied O (d_main s))
      (fun s => q_nobj (d_fifo s) + op_nobj O (d_main s))
      d_size (fun _ => 0)
      (fun s => mkQd (d_fifo s) (d_gq s) (d_main s) (d_hg s) (d_thr s) (d_size s) (d_nreq s + 1)).
End QDLP.
Arguments qd : clear implicits.
