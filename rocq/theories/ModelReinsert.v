(** FIFO_Reinsertion (cache/eviction/FIFO_Reinsertion.c). *)
From stdpp Require Import gmap list numbers fin_maps.
From Verif Require Import Base Driver ModelQueue SpecReinsert.
Open Scope Z_scope.

(** params->next_to_merge: NULL, a queued object, or an object that was freed. *)
Inductive mptr : Type := MNull | MAt (id : Z) | MFreed.

(** freeing the object [id] *)
Definition after_free (id : Z) (p : mptr) : mptr :=
  match p with MAt x => if decide (x = id) then MFreed else MAt x | _ => p end.

(** FIFO_Reinsertion.c:36-53 (FIFO_Reinsertion_params_t).  [fr_q] is the queue,
    head first, as ids; [fr_seed] the state of next_rand.  [o_p1] is
    FIFO_Reinsertion.freq, [o_p2] FIFO_Reinsertion.last_access_vtime
    (cacheObj.h:81-84).  Simplifications: n_obj_rewritten and n_byte_rewritten,
    never read, and the int32_t range of freq and last_access_vtime are left
    out. *)
Record frstate : Type := mkFr { fr_c : cache; fr_q : list Z; fr_at : mptr; fr_seed : Z }.
Definition fr_set_c (s : frstate) (c : cache) : frstate := mkFr c (fr_q s) (fr_at s) (fr_seed s).

Section Reinsert.
  (** params->n_exam_obj, params->n_keep_obj, and whether retain_policy is
      RETAIN_NONE (for which retain_metric aborts, 462-477). *)
  Context (n_exam n_keep : Z) (policy_none : bool).
  (** qsort by retain_metric (282, 296-297, 426-477), given the random state, n_req
      and what the metrics read of the examined objects ([rob]).  The metrics are
      doubles and qsort orders equal ones as it likes: arbitrary here, theorems
      say what they assume of it. *)
  Context (rank : Z -> Z -> list rob -> list rob * Z).

  (** FIFO_Reinsertion.c:193-204 *)
  Definition fr_find (s : frstate) (r : req) (u : bool) : res (frstate * bool) :=
    let '(c, b) := cache_find_base (fr_c s) r u in
    if (b && u)%bool then
      Ok (fr_set_c s (c_upd c (r_id r) (fun o =>
            o_set_next (o_set_p2 (o_set_p1 o (o_p1 o + 1)) (c_nreq c)) (r_next r))), true)
    else Ok (fr_set_c s c, b).

  (** cache.c:141-161 *)
  Definition fr_can_insert (s : frstate) (r : req) : res (frstate * bool) :=
    let '(c, b) := cache_can_insert_default (fr_c s) r in Ok (fr_set_c s c, b).

  (** FIFO_Reinsertion.c:217-230 *)
  Definition fr_insert (s : frstate) (r : req) : res frstate :=
    let! c := cache_insert_base (fr_c s) r in
    let c := c_upd c (r_id r) (fun o =>
               o_set_next (o_set_p2 (o_set_p1 o 0) (c_nreq c)) (r_next r)) in
    Ok (mkFr c (r_id r :: fr_q s) (fr_at s) (fr_seed s)).

  (** FIFO_Reinsertion.c:317-324 (FIFO_Reinsertion_remove_obj).  next_to_merge is
      not looked at: if it stood on the object it is left pointing to freed
      memory. *)
  Definition fr_remove_obj (s : frstate) (id : Z) : res frstate :=
    let! c := cache_remove_obj_base (fr_c s) id in
    Ok (mkFr c (q_del id (fr_q s)) (after_free id (fr_at s)) (fr_seed s)).

  (** FIFO_Reinsertion.c:280-292: examine [n] objects from the current one
      towards the head ([cur]: the ids from it to the head), starting again from
      the tail ([rq]: the queue, tail first) at the end.  The result: the objects
      examined and what follows them. *)
  Fixpoint fr_exam (n : nat) (rq cur : list Z) : res (list Z * list Z) :=
    match n with
    | O => Ok ([], cur)
    | S k =>
        match cur with
        | [] => Err AssertFail
        | x :: rest =>
            let! (l, c) := fr_exam k rq (match rest with [] => rq | _ => rest end) in
            Ok (x :: l, c)
        end
    end.

  (** FIFO_Reinsertion.c:282: what retain_metric reads of an object. *)
  Definition fr_view (id : Z) (o : cobj) : rob := mkRob id (o_size o) (o_p1 o) (o_p2 o) (o_next o).
  Fixpoint fr_views (c : cache) (l : list Z) : res (list rob) :=
    match l with
    | [] => Ok []
    | id :: l =>
        match c_tbl c !! id with
        | None => Err UseAfterFree
        | Some o => let! vs := fr_views c l in Ok (fr_view id o :: vs)
        end
    end.

  (** FIFO_Reinsertion.c:301-304 *)
  Fixpoint fr_drop_all (s : frstate) (l : list rob) : res frstate :=
    match l with
    | [] => Ok s
    | x :: l => let! s := fr_remove_obj s (x_id x) in fr_drop_all s l
    end.
  (** FIFO_Reinsertion.c:306-314; [/] of C truncates. *)
  Fixpoint fr_keep_all (s : frstate) (l : list rob) : res frstate :=
    match l with
    | [] => Ok s
    | x :: l =>
        match c_tbl (fr_c s) !! x_id x with
        | None => Err UseAfterFree
        | Some _ =>
            fr_keep_all (mkFr (c_upd (fr_c s) (x_id x) (fun o => o_set_p1 o (Z.quot (o_p1 o + 1) 2)))
                           (q_to_head (x_id x) (fr_q s)) (fr_at s) (fr_seed s)) l
        end
    end.

  (** the queue from [p] towards the head, given the queue tail first *)
  Fixpoint fr_from (p : Z) (rq : list Z) : list Z :=
    match rq with
    | [] => []
    | x :: l => if decide (x = p) then rq else fr_from p l
    end.

  (** FIFO_Reinsertion.c:258-315 (FIFO_Reinsertion_evict) *)
  Definition fr_evict (s : frstate) (_ : req) : res frstate :=
    let rq := rev (fr_q s) in
    (* 264-269: the objects from next_to_merge on *)
    let! cur := match fr_at s with
                | MNull => Ok rq
                | MAt p => Ok (fr_from p rq)
                | MFreed => Err UseAfterFree
                end in
    if decide (c_nobj (fr_c s) <= n_exam) then
      match cur with
      | [] => Err NullDeref
      | x :: rest =>
          let! s := fr_remove_obj s x in
          Ok (mkFr (fr_c s) (fr_q s) (match rest with [] => MNull | y :: _ => MAt y end) (fr_seed s))
      end
    else
      let! (w, next) := fr_exam (Z.to_nat n_exam) rq cur in
      if policy_none then Err AssertFail
      else
        let! vs := fr_views (fr_c s) w in
        let '(ml, seed) := rank (fr_seed s) (c_nreq (fr_c s)) vs in
        let n_evict := Z.to_nat (n_exam - n_keep) in
        let! s := fr_drop_all (mkFr (fr_c s) (fr_q s) (match next with [] => MNull | y :: _ => MAt y end) seed)
                    (take n_evict ml) in
        fr_keep_all s (drop n_evict ml).

  (** FIFO_Reinsertion.c:339-348 *)
  Definition fr_remove (s : frstate) (id : Z) : res (frstate * bool) :=
    match c_tbl (fr_c s) !! id with
    | None => Ok (s, false)
    | Some _ => let! s := fr_remove_obj s id in Ok (s, true)
    end.

  (** FIFO_Reinsertion.c:242-247: ERROR, abort. *)
  Definition fr_to_evict (_ : frstate) (_ : req) : res (frstate * option Z) := Err AssertFail.

  (** FIFO_Reinsertion.c:96-107; get (173-175) is cache_get_base *)
  Definition fr_ops : ops frstate :=
    mkOps fr_find fr_can_insert fr_insert fr_evict fr_to_evict fr_remove
      (fun s => c_occ (fr_c s)) (fun s => c_nobj (fr_c s)) (fun s => c_size (fr_c s))
      (fun s => c_md (fr_c s)) (fun s => fr_set_c s (c_incr_nreq (fr_c s))).
End Reinsert.

(** FIFO_Reinsertion.c:96-138 (FIFO_Reinsertion_init): obj_md_size 4 with
    consider_obj_metadata. *)
Definition fr_init (consider_md : bool) (size : Z) (adm : admissioner) (seed : Z) : frstate :=
  mkFr (cache_init size (if consider_md then 4 else 0) adm) [] MNull seed.
