(** cache/eviction/LeCaRv0.c: LeCaR built from four caches, an LRU and an LFU that
    hold the same objects and two LRU ghost lists.  Line numbers refer to
    LeCaRv0.c.

    As in ModelLeCaR.v the weights are abstract: [upd e t w] is update_weight
    (326-336) called for the LRU ([e = true]) or LFU expert after a ghost hit at
    age [t]; [pick w n] is the outcome of [r < params->w_lru] for the n-th random
    number (236-237, 269-270).  The statistics n_hit_lru_history and
    n_hit_lfu_history (348, 354), which nothing reads, are left out, and so is
    [cache->n_obj += 1] (219): get_n_obj is replaced (91). *)
From stdpp Require Import gmap list numbers fin_maps.
From Verif Require Import Base Driver ModelQueue ModelLFU ModelTwoQ ModelLeCaR.
Open Scope Z_scope.

(** 21-33 (LeCaRv0_params_t) with the used fields of the outer cache_t (its hash
    table stays empty). *)
Record lecar0 (W : Type) := mkL0 {
  v_c : cache;
  v_lru : qstate;      (* LRU *)
  v_gl : qstate;       (* LRU_g *)
  v_lfu : lfu_state;   (* LFU *)
  v_gf : qstate;       (* LFU_g *)
  v_w : W;
  v_draws : nat
}.
Arguments mkL0 {W}. Arguments v_c {W}. Arguments v_lru {W}. Arguments v_gl {W}. Arguments v_lfu {W}.
Arguments v_gf {W}. Arguments v_w {W}. Arguments v_draws {W}.

Section LeCaRv0.
  Context {W : Type} (upd : bool -> Z -> W -> W) (pick : W -> nat -> bool).
  Notation st := (lecar0 W).

  (** 80-120; the ghosts have half of the cache size.  An admissioner is installed
      on the outer cache only. *)
  Definition v0_init (cm : bool) (size : Z) (adm : admissioner) (w : W) : st :=
    mkL0 (cache_init size (if cm then 40 else 0) adm)
      (lru_init cm size AdmNone) (lru_init cm (size / 2) AdmNone)
      (lfu_init cm size AdmNone) (lru_init cm (size / 2) AdmNone) w 0.

  (** 338-360 (check_and_update_history) *)
  Definition v0_history (s : st) (r : req) : res st :=
    let! (_, hl) := lru_find (v_gl s) r false in
    let! (_, hf) := lru_find (v_gf s) r false in
    if hl : bool then
      match c_tbl (q_c (v_gl s)) !! r_id r with
      | None => Err NullDeref
      | Some o =>
          let w := upd true (c_nreq (v_c s) - o_p3 o) (v_w s) in
          let! (g, _) := q_remove (v_gl s) (r_id r) in
          Ok (mkL0 (v_c s) (v_lru s) g (v_lfu s) (v_gf s) w (v_draws s))
      end
    else if hf : bool then
      match c_tbl (q_c (v_gf s)) !! r_id r with
      | None => Err NullDeref
      | Some o =>
          let w := upd false (c_nreq (v_c s) - o_p3 o) (v_w s) in
          let! (g, _) := q_remove (v_gf s) (r_id r) in
          Ok (mkL0 (v_c s) (v_lru s) (v_gl s) (v_lfu s) g w (v_draws s))
      end
    else Ok s.

  (** 181-201 *)
  Definition v0_find (s : st) (r : req) (u : bool) : res (st * bool) :=
    let! (l, b) := lru_find (v_lru s) r u in
    let! (f, _) := lfu_find (v_lfu s) r u in
    let s := mkL0 (v_c s) l (v_gl s) f (v_gf s) (v_w s) (v_draws s) in
    if u then
      if b : bool then Ok (s, true) else let! s := v0_history s r in Ok (s, false)
    else Ok (s, b).

  (** LeCaRv0_init keeps cache_can_insert_default (cache.c:146-161). *)
  Definition v0_can_insert (s : st) (r : req) : res (st * bool) :=
    let '(c, b) := cache_can_insert_default (v_c s) r in
    Ok (mkL0 c (v_lru s) (v_gl s) (v_lfu s) (v_gf s) (v_w s) (v_draws s), b).

  (** 213-222 *)
  Definition v0_insert (s : st) (r : req) : res st :=
    let! l := q_insert (v_lru s) r in
    let! f := lfu_insert (v_lfu s) r in
    Ok (mkL0 (v_c s) l (v_gl s) f (v_gf s) (v_w s) (v_draws s)).

  (** 234-243: the choice of LFU is computed and thrown away. *)
  Definition v0_to_evict (s : st) (r : req) : res (st * option Z) :=
    let n := S (v_draws s) in
    if pick (v_w s) (v_draws s) then
      let! (l, v) := q_to_evict_tail (v_lru s) r in
      Ok (mkL0 (v_c s) l (v_gl s) (v_lfu s) (v_gf s) (v_w s) n, v)
    else
      let! (f, _) := lfu_to_evict (v_lfu s) r in
      Ok (mkL0 (v_c s) (v_lru s) (v_gl s) f (v_gf s) (v_w s) n, None).

  (** 275-277, 283-285: remember the evicted object in a ghost; one that the ghost
      refuses is not found again, and the NULL pointer written to.
      eviction_vtime is a signed bit-field of 40 bits (cacheObj.h:40). *)
  Definition v0_remember (g : qstate) (r : req) (now : Z) : res qstate :=
    let! (g, _) := sub_get lru_ops g r in
    let! (g, b) := lru_find g r false in
    if b : bool then Ok (mkQ (c_upd (q_c g) (r_id r) (fun o => o_set_p3 o (sx40 now))) (q_q g))
    else Err NullDeref.

  (** 253-288 *)
  Definition v0_evict (s : st) (r : req) : res st :=
    let! (l, x) := q_to_evict_tail (v_lru s) r in
    let! (f, y) := lfu_to_evict (v_lfu s) r in
    match x, y with
    | Some x, Some y =>
        if decide (x = y) then
          let! (f, _) := lfu_remove f x in
          let! l := q_evict_tail l r in
          Ok (mkL0 (v_c s) l (v_gl s) f (v_gf s) (v_w s) (v_draws s))
        else
          let n := S (v_draws s) in
          if pick (v_w s) (v_draws s) then
            match c_tbl (q_c l) !! x with
            | None => Err UseAfterFree
            | Some o =>
                let! (f, _) := lfu_remove f x in
                let! l := q_evict_tail l r in
                let! g := v0_remember (v_gl s) (req_of_obj x o) (c_nreq (v_c s)) in
                Ok (mkL0 (v_c s) l g f (v_gf s) (v_w s) n)
            end
          else
            match c_tbl (l_c f) !! y with
            | None => Err UseAfterFree
            | Some o =>
                let! (l, _) := q_remove l y in
                let! f := lfu_evict f r in
                let! g := v0_remember (v_gf s) (req_of_obj y o) (c_nreq (v_c s)) in
                Ok (mkL0 (v_c s) l (v_gl s) f g (v_w s) n)
            end
    | _, _ => Err NullDeref
    end.

  (** 303-319: ERROR aborts (include/libCacheSim/logging.h). *)
  Definition v0_remove (s : st) (id : Z) : res (st * bool) :=
    match c_tbl (q_c (v_lru s)) !! id with
    | None => Err AssertFail
    | Some _ =>
        let! (l, _) := q_remove (v_lru s) id in
        match c_tbl (l_c (v_lfu s)) !! id with
        | None => Err AssertFail
        | Some _ =>
            let! (f, _) := lfu_remove (v_lfu s) id in
            Ok (mkL0 (v_c s) l (v_gl s) f (v_gf s) (v_w s) (v_draws s), true)
        end
    end.

  (** 55-67: the counters are those of the LRU. *)
  Definition v0_ops : ops st :=
    mkOps v0_find v0_can_insert v0_insert v0_evict v0_to_evict v0_remove
          (fun s => q_occ (v_lru s)) (fun s => q_nobj (v_lru s)) (fun s => c_size (v_c s)) (fun s => c_md (v_c s))
          (fun s => mkL0 (c_incr_nreq (v_c s)) (v_lru s) (v_gl s) (v_lfu s) (v_gf s) (v_w s) (v_draws s)).
End LeCaRv0.
