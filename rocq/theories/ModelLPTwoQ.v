(** LP_TwoQ: cache/eviction/fifo/LP_TwoQ.c, 2Q around a Clock (CLI name lp-twoq).
    Line numbers refer to LP_TwoQ.c.  The model is over the operations [O] of the
    main cache Am; LP_TwoQ itself has a Clock of frequency up to 1 there
    (114-116). *)
From stdpp Require Import gmap list numbers fin_maps.
From Verif Require Import Base Driver ModelQueue ModelTwoQ.
Open Scope Z_scope.

(** 22-36 (LP_TwoQ_params_t) with the used fields of the outer cache_t. *)
Record lptq (M : Type) : Type := mkLT {
  lt_in    : qstate;   (* Ain, a FIFO *)
  lt_out   : qstate;   (* Aout, a FIFO of ghosts *)
  lt_am    : M;
  lt_ghost : bool;     (* hit_on_ghost *)
  lt_size  : Z;
  lt_nreq  : Z
}.
Arguments mkLT {M}. Arguments lt_in {M}. Arguments lt_out {M}. Arguments lt_am {M}.
Arguments lt_ghost {M}. Arguments lt_size {M}. Arguments lt_nreq {M}.

(** 75-121 (LP_TwoQ_init).  [ain] and [aout] are the floating point products of
    103-104; [main0] is the main cache created with size cap - ain. *)
Definition lptq_init {M} (cap ain aout : Z) (main0 : M) : lptq M :=
  mkLT (fifo_init ain AdmNone) (fifo_init aout AdmNone) main0 false cap 0.

Section LPTwoQ.
  Context {M : Type} (O : ops M).
  Notation st := (lptq M).

  (** 181-213 (LP_TwoQ_find): Ain is looked up without update in both cases *)
  Definition lptq_find (s : st) (r : req) (u : bool) : res (st * bool) :=
    let! (i, b) := fifo_find (lt_in s) r false in
    if u then
      if b : bool then Ok (mkLT i (lt_out s) (lt_am s) false (lt_size s) (lt_nreq s), true)
      else
        let! (o, g) := q_remove (lt_out s) (r_id r) in
        let! (m, b) := op_find O (lt_am s) r true in
        Ok (mkLT i o m g (lt_size s) (lt_nreq s), b)
    else
      if b : bool then Ok (mkLT i (lt_out s) (lt_am s) (lt_ghost s) (lt_size s) (lt_nreq s), true)
      else
        let! (m, b) := op_find O (lt_am s) r false in
        Ok (mkLT i (lt_out s) m (lt_ghost s) (lt_size s) (lt_nreq s), b).

  (** 226-239 (LP_TwoQ_insert); Am->get makes room in Am alone *)
  Definition lptq_insert (s : st) (r : req) : res st :=
    if lt_ghost s then
      let! (m, _) := cache_get_base O (Z.to_nat (op_nobj O (lt_am s))) (lt_am s) r in
      Ok (mkLT (lt_in s) (lt_out s) m false (lt_size s) (lt_nreq s))
    else
      let! i := q_insert (lt_in s) r in
      Ok (mkLT i (lt_out s) (lt_am s) (lt_ghost s) (lt_size s) (lt_nreq s)).

  (** 251-254 is assert(false) *)
  Definition lptq_to_evict (s : st) (_ : req) : res (st * option Z) := Err AssertFail.

  (** 265-290 (LP_TwoQ_evict) *)
  Definition lptq_evict (s : st) (r : req) : res st :=
    if decide (q_occ (lt_in s) > q_size (lt_in s)) then
      let! (i, v) := q_to_evict_tail (lt_in s) r in
      match v with
      | None => Err AssertFail
      | Some v =>
          match c_tbl (q_c i) !! v with
          | None => Err UseAfterFree
          | Some o =>
              let! (g, _) := sub_get fifo_ops (lt_out s) (req_of_obj v o) in
              let! i := q_evict_tail i r in
              Ok (mkLT i g (lt_am s) (lt_ghost s) (lt_size s) (lt_nreq s))
          end
      end
    else
      let! m := op_evict O (lt_am s) r in
      Ok (mkLT (lt_in s) (lt_out s) m (lt_ghost s) (lt_size s) (lt_nreq s)).

  (** 305-313 (LP_TwoQ_remove): [||] stops at the first that held the id *)
  Definition lptq_remove (s : st) (id : Z) : res (st * bool) :=
    let! (i, b) := q_remove (lt_in s) id in
    if b : bool then Ok (mkLT i (lt_out s) (lt_am s) (lt_ghost s) (lt_size s) (lt_nreq s), true)
    else
      let! (o, b) := q_remove (lt_out s) id in
      if b : bool then Ok (mkLT i o (lt_am s) (lt_ghost s) (lt_size s) (lt_nreq s), true)
      else
        let! (m, b) := op_remove O (lt_am s) id in
        Ok (mkLT i o m (lt_ghost s) (lt_size s) (lt_nreq s), b).

  (** 327-331 (LP_TwoQ_can_insert): the admission policy is not consulted *)
  Definition lptq_can_insert (s : st) (r : req) : res (st * bool) :=
    Ok (s, bool_decide (r_size r <= q_size (lt_in s))).

  (** 315-325, 90 (obj_md_size = 0), 157-164 (get is cache_get_base) *)
  Definition lptq_ops : ops st :=
    mkOps lptq_find lptq_can_insert lptq_insert lptq_evict lptq_to_evict lptq_remove
      (fun s => q_occ (lt_in s) + op_occupied O (lt_am s))
      (fun s => q_nobj (lt_in s) + op_nobj O (lt_am s))
      lt_size (fun _ => 0)
      (fun s => mkLT (lt_in s) (lt_out s) (lt_am s) (lt_ghost s) (lt_size s) (lt_nreq s + 1)).
End LPTwoQ.
