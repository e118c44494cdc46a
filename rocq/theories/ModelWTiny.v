(** W-TinyLFU: cache/eviction/WTinyLFU.c, around any main cache.  Line numbers
    refer to WTinyLFU.c.  Simplifications: consider_obj_metadata is off, so that
    obj_md_size is 0 everywhere (line 101 reads it through a pointer that malloc
    left uninitialised); n_admit_bytes is never read and is left out. *)
From stdpp Require Import gmap list numbers fin_maps.
From Verif Require Import Base Driver ModelQueue ModelTwoQ ModelFilter.
Open Scope Z_scope.

Section WTiny.
  (** The main cache (119-145), with its own operations; the two hash values of
      the counting filter. *)
  Context {M : Type} (O : ops M) (h1 h2 : Z -> Z).

  (** 30-41 (WTinyLFU_params_t) with the used fields of the outer cache_t. *)
  Record wt : Type := mkWt {
    w_lru  : qstate;      (* LRU, the window *)
    w_main : M;           (* main_cache *)
    w_cbf  : cbf;         (* CBF *)
    w_cnt  : Z;           (* request_counter *)
    w_max  : Z;           (* max_request_num *)
    w_size : Z;
    w_adm  : admissioner;
    w_nreq : Z
  }.

  (** 80-180 (WTinyLFU_init).  [wsz] is the window size computed with a
      floating-point product (114); [main0] is the main cache created with size
      cap - wsz; [cbf0] is the filter after minimalIncrementCBF_init (162). *)
  Definition wt_init (cap wsz : Z) (main0 : M) (cbf0 : cbf) (adm : admissioner) : wt :=
    mkWt (lru_init false wsz AdmNone) main0 cbf0 0 (32 * op_size O main0) cap adm 0.

  (** 96-105: with consider_obj_metadata the field main_cache of the freshly
      malloc'ed parameters is used before it is set. *)
  Definition wt_create (consider_md : bool) (cap wsz : Z) (main0 : M) (cbf0 : cbf) (adm : admissioner) : res wt :=
    if consider_md then Err Uninit else Ok (wt_init cap wsz main0 cbf0 adm).

  Definition wt_set_lru (s : wt) (x : qstate) : wt :=
    mkWt x (w_main s) (w_cbf s) (w_cnt s) (w_max s) (w_size s) (w_adm s) (w_nreq s).
  Definition wt_set_main (s : wt) (x : M) : wt :=
    mkWt (w_lru s) x (w_cbf s) (w_cnt s) (w_max s) (w_size s) (w_adm s) (w_nreq s).
  Definition wt_set_cbf (s : wt) (x : cbf) : wt :=
    mkWt (w_lru s) (w_main s) x (w_cnt s) (w_max s) (w_size s) (w_adm s) (w_nreq s).
  Definition wt_set_cnt (s : wt) (x : Z) : wt :=
    mkWt (w_lru s) (w_main s) (w_cbf s) x (w_max s) (w_size s) (w_adm s) (w_nreq s).
  Definition wt_set_adm (s : wt) (x : admissioner) : wt :=
    mkWt (w_lru s) (w_main s) (w_cbf s) (w_cnt s) (w_max s) (w_size s) x (w_nreq s).

  (** 208-236 (WTinyLFU_find) *)
  Definition wt_find (s : wt) (r : req) (u : bool) : res (wt * bool) :=
    let! (w, bw) := lru_find (w_lru s) r u in
    let s := wt_set_lru s w in
    let! (m, bm) := op_find O (w_main s) r u in
    let s := wt_set_main s m in
    if (u && bm)%bool then
      let! (k, _) := cbf_add h1 h2 (w_cbf s) (r_id r) in
      let s := wt_set_cbf s k in
      let n := w_cnt s + 1 in
      if decide (n >= w_max s) then
        Ok (wt_set_cbf (wt_set_cnt s 0) (cbf_decay (w_cbf s)).1, (bw || bm)%bool)
      else Ok (wt_set_cnt s n, (bw || bm)%bool)
    else Ok (s, (bw || bm)%bool).

  (** 238-251 (WTinyLFU_insert) *)
  Definition wt_insert (s : wt) (r : req) : res wt :=
    let! w := q_insert (w_lru s) r in
    let! (k, _) := cbf_add h1 h2 (w_cbf s) (r_id r) in
    Ok (wt_set_cbf (wt_set_lru s w) k).

  (** 253-257 *)
  Definition wt_to_evict (s : wt) (_ : req) : res (wt * option Z) := Ok (s, None).

  (** 265-332, the loop of WTinyLFU_evict; [n] bounds its iterations. *)
  Fixpoint wt_loop (n : nat) (s : wt) (r : req) : res wt :=
    if decide (q_occ (w_lru s) > 0) then
      match n with
      | 0%nat => Err OutOfFuel
      | Datatypes.S n =>
          let! (w, wv) := q_to_evict_tail (w_lru s) r in
          match wv with
          | None => Err NullDeref
          | Some v =>
              match c_tbl (q_c w) !! v with
              | None => Err UseAfterFree
              | Some o =>
                  let rq := req_of_obj v o in
                  if decide (op_occupied O (w_main s) + r_size rq <= op_size O (w_main s)) then
                    let! m := op_insert O (w_main s) rq in
                    let! (w, _) := q_remove w v in
                    let! (k, _) := cbf_add h1 h2 (w_cbf s) v in
                    wt_loop n (wt_set_cbf (wt_set_main (wt_set_lru s w) m) k) r
                  else
                    let! (m, mv) := op_to_evict O (w_main s) r in
                    match mv with
                    | None => Err NullDeref
                    | Some u =>
                        let! (_, ev) := cbf_estimate h1 h2 (w_cbf s) v in
                        let! (_, eu) := cbf_estimate h1 h2 (w_cbf s) u in
                        if decide (ev > eu) then
                          let! m := op_evict O m r in
                          let! (w, _) := q_remove w v in
                          let! m := op_insert O m rq in
                          let! (k, _) := cbf_add h1 h2 (w_cbf s) v in
                          wt_loop n (wt_set_cbf (wt_set_main (wt_set_lru s w) m) k) r
                        else
                          let! w := q_evict_tail w r in
                          let! (k, _) := cbf_add h1 h2 (w_cbf s) v in
                          Ok (wt_set_cbf (wt_set_main (wt_set_lru s w) m) k)
                    end
              end
          end
      end
    else
      let! m := op_evict O (w_main s) r in
      Ok (wt_set_main s m).

  (** 259-333 (WTinyLFU_evict).  Every iteration but the last takes one object
      out of the window; that the bound is enough is proved. *)
  Definition wt_evict (s : wt) (r : req) : res wt :=
    wt_loop (Z.to_nat (q_nobj (w_lru s))) s r.

  (** 335-344 (WTinyLFU_remove) *)
  Definition wt_remove (s : wt) (id : Z) : res (wt * bool) :=
    let! (w, b) := q_remove (w_lru s) id in
    let s := wt_set_lru s w in
    if b : bool then Ok (s, true)
    else
      let! (m, b) := op_remove O (w_main s) id in
      Ok (wt_set_main s m, b).

  (** 381-388 (WTinyLFU_can_insert), with cache_can_insert_default
      (cache/cache.c:141-161) on the outer cache. *)
  Definition wt_can_insert (s : wt) (r : req) : res (wt * bool) :=
    let '(a, ok) := admit (w_adm s) r in
    let s := wt_set_adm s a in
    if (ok && bool_decide (r_size r <= w_size s) && bool_decide (r_size r <= q_size (w_lru s)))%bool then
      let! (m, b) := op_can_insert O (w_main s) r in
      Ok (wt_set_main s m, b)
    else Ok (s, false).

  (** 390-407, 199-206 (WTinyLFU_get is cache_get_base). *)
  Definition wt_ops : ops wt :=
    mkOps wt_find wt_can_insert wt_insert wt_evict wt_to_evict wt_remove
      (fun s => q_occ (w_lru s) + op_occupied O (w_main s))
      (fun s => q_nobj (w_lru s) + op_nobj O (w_main s))
      w_size (fun _ => 0)
      (fun s => mkWt (w_lru s) (w_main s) (w_cbf s) (w_cnt s) (w_max s) (w_size s) (w_adm s) (w_nreq s + 1)).
End WTiny.
Arguments wt : clear implicits.
