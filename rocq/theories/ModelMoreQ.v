(** More single-queue caches: LRU_Prob, nop, FIFO_Merge.
    Files are under /repo/libCacheSim/cache/eviction. *)
From stdpp Require Import gmap list numbers fin_maps.
From Verif Require Import Base Driver ModelQueue.
Open Scope Z_scope.

(** LRU_Prob.  LRUProb.c:20-26 (LRU_Prob_params_t).  [lp_ready] says that
    q_head and q_tail hold NULL or objects: LRU_Prob_init (58-89) gets the
    record from malloc and never sets them, so the cache starts with whatever
    the memory held.  [lp_seed] is the state of the generator behind
    next_rand. *)
Record lpstate : Type := mkLp {
  lp_c     : cache;
  lp_q     : list Z;
  lp_seed  : Z;
  lp_ready : bool
}.

(** LRUProb.c:82: [threshold = (int)1.0 / prob], the cast binding to 1.0: the
    truncated quotient.  [num] / [den] is the probability, a positive number.
    Simplification: exact rationals, where C divides doubles. *)
Definition lp_threshold (num den : Z) : Z := Z.quot den num.

Section LRUProb.
  (** next_rand() (utils/include/mymath.h:27-30): a value and the next state;
      arbitrary. *)
  Context (rnd : Z -> Z * Z).
  (** params->threshold *)
  Context (thr : Z).

  (** LRUProb.c:140-155 *)
  Definition lp_find (s : lpstate) (r : req) (u : bool) : res (lpstate * bool) :=
    let '(c, b) := cache_find_base (lp_c s) r u in
    if (b && u)%bool then
      (* 146-147: counts the hit a second time *)
      let c := c_upd c (r_id r) (fun o => o_set_freq (o_set_next o (r_next r)) (o_freq o + 1)) in
      (* 149-151 *)
      let '(x, seed) := rnd (lp_seed s) in
      if decide (thr = 0) then Err DivByZero
      else if decide (x mod thr = 0) then
        if lp_ready s then Ok (mkLp c (q_to_head (r_id r) (lp_q s)) seed true, true)
        else Err Uninit
      else Ok (mkLp c (lp_q s) seed (lp_ready s), true)
    else Ok (mkLp c (lp_q s) (lp_seed s) (lp_ready s), b).

  (** The default callbacks. *)
  Definition lp_can_insert (s : lpstate) (r : req) : res (lpstate * bool) :=
    let '(c, b) := cache_can_insert_default (lp_c s) r in
    Ok (mkLp c (lp_q s) (lp_seed s) (lp_ready s), b).

  (** LRUProb.c:168-174 *)
  Definition lp_insert (s : lpstate) (r : req) : res lpstate :=
    let! c := cache_insert_base (lp_c s) r in
    if lp_ready s then Ok (mkLp c (r_id r :: lp_q s) (lp_seed s) true) else Err Uninit.

  (** LRUProb.c:186-190 *)
  Definition lp_to_evict (s : lpstate) (_ : req) : res (lpstate * option Z) :=
    if lp_ready s then Ok (s, last (lp_q s)) else Err Uninit.

  (** LRUProb.c:201-206.  Unlinking NULL dereferences it. *)
  Definition lp_evict (s : lpstate) (_ : req) : res lpstate :=
    if lp_ready s then
      match last (lp_q s) with
      | None => Err NullDeref
      | Some v =>
          let! c := cache_remove_obj_base (lp_c s) v in
          Ok (mkLp c (q_del v (lp_q s)) (lp_seed s) true)
      end
    else Err Uninit.

  (** LRUProb.c:208-214, 229-238 *)
  Definition lp_remove (s : lpstate) (id : Z) : res (lpstate * bool) :=
    match c_tbl (lp_c s) !! id with
    | None => Ok (s, false)
    | Some _ =>
        let! c := cache_remove_obj_base (lp_c s) id in
        if lp_ready s then Ok (mkLp c (q_del id (lp_q s)) (lp_seed s) true, true) else Err Uninit
    end.

  Definition lp_ops : ops lpstate :=
    mkOps lp_find lp_can_insert lp_insert lp_evict lp_to_evict lp_remove
      (fun s => c_occ (lp_c s)) (fun s => c_nobj (lp_c s)) (fun s => c_size (lp_c s))
      (fun s => c_md (lp_c s))
      (fun s => mkLp (c_incr_nreq (lp_c s)) (lp_q s) (lp_seed s) (lp_ready s)).
End LRUProb.

(** LRUProb.c:58-89: obj_md_size 16 with consider_obj_metadata.  [zeroed]: the
    memory from malloc happens to be zero. *)
Definition lp_init (zeroed consider_md : bool) (size : Z) (adm : admissioner) (seed : Z) : lpstate :=
  mkLp (cache_init size (if consider_md then 16 else 0) adm) [] seed zeroed.

(** nop: nop.c:114-120 (find), 132-137 (insert), 149-152 (to_evict),
    162-164 (evict), 200-208 (remove); obj_md_size 0 (63). *)
Definition nop_ops : ops cache :=
  mkOps (fun c _ _ => Ok (c, false))
    (fun c r => Ok (cache_can_insert_default c r))
    (fun c _ => Ok c)
    (fun c _ => Ok c)
    (fun _ _ => Err AssertFail)
    (fun c id => match c_tbl c !! id with
                 | None => Ok (c, false)
                 | Some _ => let! c := cache_remove_obj_base c id in Ok (c, true)
                 end)
    c_occ c_nobj c_size c_md c_incr_nreq.
Definition nop_init (size : Z) (adm : admissioner) : cache := cache_init size 0 adm.

(** FIFO_Merge.  FIFO_Merge.c:35-50 (FIFO_Merge_params_t).  [fm_nte] is
    next_to_exam, [fm_ml] metric_list (the objects only), [fm_pos]
    pos_in_metric_list.  [o_p1] is FIFO_Merge.freq, [o_p2]
    FIFO_Merge.last_access_vtime. *)
Record fmstate : Type := mkFm {
  fm_c    : cache;
  fm_q    : list Z;
  fm_nte  : option Z;
  fm_ml   : list Z;
  fm_pos  : Z;
  fm_seed : Z
}.

Definition fm_set_c (s : fmstate) (c : cache) : fmstate :=
  mkFm c (fm_q s) (fm_nte s) (fm_ml s) (fm_pos s) (fm_seed s).

Section FIFOMerge.
  (** params->n_exam_obj, params->n_keep_obj, and whether retain_policy is
      RETAIN_NONE (for which retain_metric aborts, 441-456). *)
  Context (n_exam n_keep : Z) (policy_none : bool).
  (** qsort of the examined objects by retain_metric (283-284, 291-292,
      406-456): the metrics are doubles, with a random part for FREQUENCY.
      Arbitrary here; theorems say what they assume of it. *)
  Context (rank : Z -> cache -> list Z -> list Z * Z).

  (** FIFO_Merge.c:186-198 *)
  Definition fm_find (s : fmstate) (r : req) (u : bool) : res (fmstate * bool) :=
    let '(c, b) := cache_find_base (fm_c s) r u in
    if (b && u)%bool then
      Ok (fm_set_c s (c_upd c (r_id r) (fun o =>
            o_set_next (o_set_p2 (o_set_p1 o (o_p1 o + 1)) (c_nreq c)) (r_next r))), true)
    else Ok (fm_set_c s c, b).

  Definition fm_can_insert (s : fmstate) (r : req) : res (fmstate * bool) :=
    let '(c, b) := cache_can_insert_default (fm_c s) r in Ok (fm_set_c s c, b).

  (** FIFO_Merge.c:211-221 *)
  Definition fm_insert (s : fmstate) (r : req) : res fmstate :=
    let! c := cache_insert_base (fm_c s) r in
    let c := c_upd c (r_id r) (fun o =>
               o_set_next (o_set_p2 (o_set_p1 o 0) (c_nreq c)) (r_next r)) in
    Ok (mkFm c (r_id r :: fm_q s) (fm_nte s) (fm_ml s) (fm_pos s) (fm_seed s)).

  (** FIFO_Merge.c:256-258, 266-269, 297-298: unlink and evict. *)
  Definition fm_drop (s : fmstate) (v : Z) : res fmstate :=
    let! c := cache_evict_base (fm_c s) v in
    Ok (mkFm c (q_del v (fm_q s)) (fm_nte s) (fm_ml s) (fm_pos s) (fm_seed s)).

  (** FIFO_Merge.c:274-287: examine [n] objects from the current one ([cur]:
      the ids from it to the head) towards the head, starting again from the
      tail ([rq]: the queue, tail first) at the end.  The result: the objects
      examined and what follows them. *)
  Fixpoint fm_exam (n : nat) (rq cur : list Z) (n_loop : Z) : res (list Z * list Z) :=
    match n with
    | O => Ok ([], cur)
    | S k =>
        match cur with
        | x :: rest => let! (l, c) := fm_exam k rq rest n_loop in Ok (x :: l, c)
        | [] =>
            (* 278-280: n_loop += 1; assert(n_loop++ <= 2) *)
            if decide (n_loop + 1 <= 2) then
              match rq with
              | [] => Err NullDeref
              | x :: rest => let! (l, c) := fm_exam k rq rest (n_loop + 2) in Ok (x :: l, c)
              end
            else Err AssertFail
        end
    end.

  (** FIFO_Merge.c:262-298, after the metric list is used up. *)
  Definition fm_evict_new (s : fmstate) : res fmstate :=
    if decide (c_nobj (fm_c s) <= n_exam) then
      match last (fm_q s) with
      | None => Err NullDeref
      | Some v => fm_drop (mkFm (fm_c s) (fm_q s) None (fm_ml s) (fm_pos s) (fm_seed s)) v
      end
    else
      let rq := rev (fm_q s) in
      let! cur := match fm_nte s with
                  | None => Ok []
                  | Some p => if decide (p ∈ rq) then Ok (from_id p rq) else Err UseAfterFree
                  end in
      let! (l, next) := fm_exam (Z.to_nat n_exam) rq cur 0 in
      if policy_none then Err AssertFail
      else
        let '(ml, seed) := rank (fm_seed s) (fm_c s) l in
        match ml with
        | [] => Err OutOfBounds
        | v :: _ => fm_drop (mkFm (fm_c s) (fm_q s) (head next) ml 1 seed) v
        end.

  (** FIFO_Merge.c:247-299 *)
  Definition fm_evict (s : fmstate) (_ : req) : res fmstate :=
    if decide (fm_pos s < n_exam) then
      let s' := mkFm (fm_c s) (fm_q s) (fm_nte s) (fm_ml s) (fm_pos s + 1) (fm_seed s) in
      match fm_ml s !! Z.to_nat (fm_pos s) with
      | None => Err OutOfBounds
      | Some v => if decide (fm_pos s + 1 < n_exam - n_keep) then fm_drop s' v
                  else fm_evict_new s'
      end
    else fm_evict_new s.

  (** FIFO_Merge.c:301-330: metric_list and next_to_exam are left alone. *)
  Definition fm_remove (s : fmstate) (id : Z) : res (fmstate * bool) :=
    match c_tbl (fm_c s) !! id with
    | None => Ok (s, false)
    | Some _ =>
        let! c := cache_remove_obj_base (fm_c s) id in
        Ok (mkFm c (q_del id (fm_q s)) (fm_nte s) (fm_ml s) (fm_pos s) (fm_seed s), true)
    end.

  (** FIFO_Merge.c:233-236: ERROR. *)
  Definition fm_to_evict (_ : fmstate) (_ : req) : res (fmstate * option Z) := Err AssertFail.

  Definition fm_ops : ops fmstate :=
    mkOps fm_find fm_can_insert fm_insert fm_evict fm_to_evict fm_remove
      (fun s => c_occ (fm_c s)) (fun s => c_nobj (fm_c s)) (fun s => c_size (fm_c s))
      (fun s => c_md (fm_c s)) (fun s => fm_set_c s (c_incr_nreq (fm_c s))).
End FIFOMerge.

(** FIFO_Merge.c:90-132: obj_md_size 4 with consider_obj_metadata,
    pos_in_metric_list = INT32_MAX, metric_list of n_exam_obj entries, zeroed.
    Simplification: the empty list stands for the unset entries. *)
Definition fm_init (consider_md : bool) (size : Z) (adm : admissioner) (seed : Z) : fmstate :=
  mkFm (cache_init size (if consider_md then 4 else 0) adm) [] None [] (2 ^ 31 - 1) seed.
