(** S3-FIFO: cache/eviction/S3FIFO.c, on top of the FIFO caches of
    ModelQueue.v.  Line numbers refer to S3FIFO.c.  [o_p1] is S3FIFO.freq. *)
From stdpp Require Import gmap list numbers fin_maps.
From Verif Require Import Base Driver ModelQueue ModelTwoQ.
Open Scope Z_scope.

(** 33-64 (S3FIFO_params_t) with the used fields of the outer cache_t.  The
    counters n_obj_admit_to_fifo ... n_byte_move_to_main are only printed and
    are left out. *)
Record s3 : Type := mkS3 {
  s_fifo  : qstate;          (* fifo, the small queue *)
  s_gq    : option qstate;   (* fifo_ghost, NULL when its size is 0 *)
  s_main  : qstate;          (* main_cache *)
  s_hg    : bool;            (* hit_on_ghost *)
  s_thr   : Z;               (* move_to_main_threshold *)
  s_size  : Z;               (* cache_size *)
  s_nreq  : Z                (* n_req *)
}.

(** 85-148 (S3FIFO_init).  [fsz] and [gsz] are the sizes computed from the
    ratios with floating-point products; they are parameters here. *)
Definition s3_init (cap fsz gsz thr : Z) : s3 :=
  mkS3 (fifo_init fsz AdmNone)
       (if decide (gsz > 0) then Some (fifo_init gsz AdmNone) else None)
       (fifo_init (cap - fsz) AdmNone) false thr cap 0.

Definition s3_set_fifo (s : s3) (x : qstate) : s3 :=
  mkS3 x (s_gq s) (s_main s) (s_hg s) (s_thr s) (s_size s) (s_nreq s).
Definition s3_set_gq (s : s3) (x : option qstate) : s3 :=
  mkS3 (s_fifo s) x (s_main s) (s_hg s) (s_thr s) (s_size s) (s_nreq s).
Definition s3_set_main (s : s3) (x : qstate) : s3 :=
  mkS3 (s_fifo s) (s_gq s) x (s_hg s) (s_thr s) (s_size s) (s_nreq s).
Definition s3_set_hg (s : s3) (b : bool) : s3 :=
  mkS3 (s_fifo s) (s_gq s) (s_main s) b (s_thr s) (s_size s) (s_nreq s).

(** A write through the pointer of an object of one queue. *)
Definition q_upd (q : qstate) (id : Z) (f : cobj -> cobj) : qstate :=
  mkQ (c_upd (q_c q) id f) (q_q q).

(** [params->fifo_ghost != NULL && remove(...)], 247-248, 459-460. *)
Definition ghost_remove (g : option qstate) (id : Z) : res (option qstate * bool) :=
  match g with
  | None => Ok (None, false)
  | Some q => let! (q, b) := q_remove q id in Ok (Some q, b)
  end.

(** 360-362: remember the evicted object. *)
Definition ghost_get (g : option qstate) (r : req) : res (option qstate) :=
  match g with
  | None => Ok None
  | Some q => let! (q, _) := sub_get fifo_ops q r in Ok (Some q)
  end.

(** 222-259 (S3FIFO_find) *)
Definition s3_find (s : s3) (r : req) (u : bool) : res (s3 * bool) :=
  if u then
    let s := s3_set_hg s false in
    let! (f, b) := fifo_find (s_fifo s) r true in
    if b : bool then
      Ok (s3_set_fifo s (q_upd f (r_id r) (fun o => o_set_p1 o (o_p1 o + 1))), true)
    else
      let s := s3_set_fifo s f in
      let! (g, gh) := ghost_remove (s_gq s) (r_id r) in
      let s := s3_set_gq s g in
      let s := if gh : bool then s3_set_hg s true else s in
      let! (m, b) := fifo_find (s_main s) r true in
      if b : bool then
        Ok (s3_set_main s (q_upd m (r_id r) (fun o => o_set_p1 o (o_p1 o + 1))), true)
      else Ok (s3_set_main s m, false)
  else
    let! (f, b) := fifo_find (s_fifo s) r false in
    let s := s3_set_fifo s f in
    if b : bool then Ok (s, true)
    else
      let! (m, b) := fifo_find (s_main s) r false in
      Ok (s3_set_main s m, b).

(** 272-303 (S3FIFO_insert): a refused object (284-286) leaves the cache as it
    is after the evictions. *)
Definition s3_insert (s : s3) (r : req) : res s3 :=
  if s_hg s then
    let s := s3_set_hg s false in
    let! m := q_insert (s_main s) r in
    Ok (s3_set_main s (q_upd m (r_id r) (fun o => o_set_p1 o 0)))
  else if decide (r_size r >= q_size (s_fifo s)) then Ok s
  else
    let! f := q_insert (s_fifo s) r in
    Ok (s3_set_fifo s (q_upd f (r_id r) (fun o => o_set_p1 o 0))).

(** 320-370 (S3FIFO_evict_fifo).  The bound on the loop is the number of
    objects of the small queue. *)
Fixpoint s3_fifo_loop (fuel : nat) (thr : Z) (f : qstate) (g : option qstate) (m : qstate)
    : res (qstate * option qstate * qstate) :=
  if decide (q_occ f > 0) then
    match fuel with
    | 0%nat => Err OutOfFuel
    | S k =>
        match last (q_q f) with
        | None => Err NullDeref
        | Some v =>
            match c_tbl (q_c f) !! v with
            | None => Err UseAfterFree
            | Some o =>
                if decide (o_p1 o >= thr) then
                  let! m := q_insert m (req_of_obj v o) in
                  let m := q_upd m v (fun x => o_set_freq x (o_freq o)) in
                  let! (f, removed) := q_remove f v in
                  if removed : bool then s3_fifo_loop k thr f g m else Err AssertFail
                else
                  let! g := ghost_get g (req_of_obj v o) in
                  let! (f, removed) := q_remove f v in
                  if removed : bool then Ok (f, g, m) else Err AssertFail
            end
        end
    end
  else Ok (f, g, m).

(** 372-417 (S3FIFO_evict_main) *)
Fixpoint s3_main_loop (fuel : nat) (m : qstate) : res qstate :=
  if decide (q_occ m > 0) then
    match fuel with
    | 0%nat => Err OutOfFuel
    | S k =>
        match last (q_q m) with
        | None => Err NullDeref
        | Some v =>
            match c_tbl (q_c m) !! v with
            | None => Err UseAfterFree
            | Some o =>
                let freq := o_p1 o in
                if decide (freq >= 1) then
                  let! (m, _) := q_remove m v in
                  let! m := q_insert m (req_of_obj v o) in
                  s3_main_loop k (q_upd m v (fun x => o_set_freq (o_set_p1 x (Z.min freq 3 - 1)) freq))
                else
                  let! (m, removed) := q_remove m v in
                  if removed : bool then Ok m else Err AssertFail
            end
        end
    end
  else Ok m.

(** 428-440 (S3FIFO_evict) *)
Definition s3_evict (s : s3) (_ : req) : res s3 :=
  if decide (q_occ (s_main s) > q_size (s_main s) \/ q_occ (s_fifo s) = 0) then
    let! m := s3_main_loop (S (clock_bound (q_c (s_main s)) (q_q (s_main s)))) (s_main s) in
    Ok (s3_set_main s m)
  else
    let! (f, g, m) := s3_fifo_loop (Z.to_nat (q_nobj (s_fifo s))) (s_thr s) (s_fifo s) (s_gq s) (s_main s) in
    Ok (s3_set_main (s3_set_gq (s3_set_fifo s f) g) m).

(** 315-318 is assert(false). *)
Definition s3_to_evict (s : s3) (_ : req) : res (s3 * option Z) := Err AssertFail.

(** 455-464 (S3FIFO_remove) *)
Definition s3_remove (s : s3) (id : Z) : res (s3 * bool) :=
  let! (f, b) := q_remove (s_fifo s) id in
  let s := s3_set_fifo s f in
  if b : bool then Ok (s, true)
  else
    let! (g, b) := ghost_remove (s_gq s) id in
    let s := s3_set_gq s g in
    if b : bool then Ok (s, true)
    else
      let! (m, b) := q_remove (s_main s) id in
      Ok (s3_set_main s m, b).

(** 478-482 (S3FIFO_can_insert): the admission policy is not consulted. *)
Definition s3_can_insert (s : s3) (r : req) : res (s3 * bool) :=
  Ok (s, bool_decide (r_size r <= q_size (s_fifo s))).

(** 466-476, 101, 186-205 (S3FIFO_get is cache_get_base). *)
Definition s3_ops : ops s3 :=
  mkOps s3_find s3_can_insert s3_insert s3_evict s3_to_evict s3_remove
    (fun s => q_occ (s_fifo s) + q_occ (s_main s))
    (fun s => q_nobj (s_fifo s) + q_nobj (s_main s))
    s_size (fun _ => 0)
    (fun s => mkS3 (s_fifo s) (s_gq s) (s_main s) (s_hg s) (s_thr s) (s_size s) (s_nreq s + 1)).
