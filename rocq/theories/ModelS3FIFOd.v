(** S3FIFOd: cache/eviction/S3FIFOd.c, around its main cache (FIFO, LRU or
    Clock).  Line numbers refer to S3FIFOd.c. *)
From stdpp Require Import gmap list numbers fin_maps.
From Verif Require Import Base Driver ModelQueue ModelTwoQ ModelS3FIFO.
Open Scope Z_scope.

(** cache->cache_size = z *)
Definition q_set_size (q : qstate) (z : Z) : qstate :=
  let c := q_c q in mkQ (mkCache z (c_md c) (c_nreq c) (c_nobj c) (c_occ c) (c_tbl c) (c_adm c)) (q_q q).

(** The main cache with the cache_size [z]: the size is read by
    cache_can_insert_default (cache/cache.c 76-103) and by the loop of
    cache_get_base (cache/cache.c 163-211) only.  The main cache has no
    admission policy (the sub-caches are created from the parameters, 117-146). *)
Definition with_size {M} (O : ops M) (z : Z) : ops M :=
  mkOps (op_find O) (fun s r => Ok (s, bool_decide (r_size r + op_md O s <= z))) (op_insert O) (op_evict O)
        (op_to_evict O) (op_remove O) (op_occupied O) (op_nobj O) (fun _ => z) (op_md O) (op_tick O).

Section S3FIFOd.
  (** The main cache (117-146), with its own operations; [mobj] reads one of its
      objects.  [keep] says what S3FIFOd_evict finds when it reads an object after
      it was freed (460): the old contents, or undefined behaviour. *)
  Context {M : Type} (O : ops M) (mobj : M -> Z -> option cobj) (keep : bool).

  (** 27-50 (S3FIFOd_params_t) with the used fields of the outer cache_t. [x_msz]
      is main_cache->cache_size, which changes during a run. *)
  Record s3d : Type := mkS3d {
    x_fifo  : qstate;
    x_ghost : qstate;    (* fifo_ghost *)
    x_main  : M;
    x_msz   : Z;
    x_fe    : qstate;    (* fifo_eviction *)
    x_me    : qstate;    (* main_cache_eviction *)
    x_hg    : bool;      (* hit_on_ghost *)
    x_fh    : Z;         (* fifo_eviction_hit *)
    x_mh    : Z;         (* main_eviction_hit *)
    x_thr   : Z;         (* move_to_main_threshold *)
    x_size  : Z;
    x_nreq  : Z
  }.

  (** 76-169 (S3FIFOd_init).  [fsz] is the product of the size and the ratio
      (104-105, floating point); [main0] is the main cache created with size
      cap - fsz. *)
  Definition s3d_init (cap fsz thr : Z) (main0 : M) : s3d :=
    mkS3d (fifo_init fsz AdmNone) (fifo_init (cap - fsz) AdmNone) main0 (cap - fsz)
          (fifo_init (cap / 10) AdmNone) (fifo_init (cap / 10) AdmNone) false 0 0 thr cap 0.

  (** 186-219 (S3FIFOd_update_fifo_size).  [step] is an int (189): the sizes are
      taken to be below 2^31 * 1000.  The counters are int32_t; hit * 0.8
      truncated (216-217) is written hit * 4 / 5, which agrees for all counters
      below 2^31. *)
  Definition s3d_update (s : s3d) : s3d :=
    let stp := Z.max 1 (Z.min (q_size (x_fifo s)) (x_msz s) / 1000) in
    let cond1 := bool_decide (x_fh s + x_mh s > 100) in
    let cond2 := bool_decide (q_occ (x_me s) > 0) in
    let fh := if cond2 then x_fh s else 0 in
    let mh := if cond2 then x_mh s else 0 in
    if (cond1 && cond2)%bool then
      let d :=
        if decide (fh > mh * 2) then
          (if decide (x_msz s > x_size s / 100) then stp else 0)
        else if decide (mh > fh * 2) then
          (if decide (q_size (x_fifo s) > x_size s / 100) then - stp else 0)
        else 0 in
      mkS3d (q_set_size (x_fifo s) (q_size (x_fifo s) + d)) (q_set_size (x_ghost s) (q_size (x_ghost s) + d))
            (x_main s) (x_msz s - d) (x_fe s) (x_me s) (x_hg s) (fh * 4 / 5) (mh * 4 / 5) (x_thr s) (x_size s) (x_nreq s)
    else
      mkS3d (x_fifo s) (x_ghost s) (x_main s) (x_msz s) (x_fe s) (x_me s) (x_hg s) fh mh (x_thr s) (x_size s) (x_nreq s).

  (** 255-280 (S3FIFOd_get) adapts the sizes and calls cache_get_base, which
      first counts the request. *)
  Definition s3d_tick (s : s3d) : s3d :=
    let s := s3d_update s in
    mkS3d (x_fifo s) (x_ghost s) (x_main s) (x_msz s) (x_fe s) (x_me s) (x_hg s) (x_fh s) (x_mh s) (x_thr s) (x_size s)
          (x_nreq s + 1).

  (** 327-337: [find] and, when the object is recorded, [remove]. *)
  Definition rec_take (q : qstate) (r : req) (u : bool) : res (qstate * bool) :=
    let! (q, b) := fifo_find q r u in
    if b : bool then let! (q, _) := q_remove q (r_id r) in Ok (q, true) else Ok (q, false).

  (** 297-340 (S3FIFOd_find).  The frequency of an object of the small queue
      (misc.freq) is counted by cache_find_base. *)
  Definition s3d_find (s : s3d) (r : req) (u : bool) : res (s3d * bool) :=
    if u then
      let! (f, b) := fifo_find (x_fifo s) r true in
      if b : bool then
        Ok (mkS3d f (x_ghost s) (x_main s) (x_msz s) (x_fe s) (x_me s) false (x_fh s) (x_mh s) (x_thr s) (x_size s) (x_nreq s), true)
      else
        let! (g, gh) := q_remove (x_ghost s) (r_id r) in
        let! (m, b) := op_find O (x_main s) r true in
        let! (fe, e1) := rec_take (x_fe s) r false in
        let! (me, e2) := rec_take (x_me s) r true in
        Ok (mkS3d f g m (x_msz s) fe me gh (x_fh s + Z.b2z e1) (x_mh s + Z.b2z e2) (x_thr s) (x_size s) (x_nreq s), b)
    else
      let! (f, b) := fifo_find (x_fifo s) r false in
      if b : bool then
        Ok (mkS3d f (x_ghost s) (x_main s) (x_msz s) (x_fe s) (x_me s) (x_hg s) (x_fh s) (x_mh s) (x_thr s) (x_size s) (x_nreq s), true)
      else
        let! (m, b) := op_find O (x_main s) r false in
        Ok (mkS3d f (x_ghost s) m (x_msz s) (x_fe s) (x_me s) (x_hg s) (x_fh s) (x_mh s) (x_thr s) (x_size s) (x_nreq s), b).

  (** 360: main_cache->get, which makes room in the main cache alone. *)
  Definition s3d_main_get (z : Z) (m : M) (r : req) : res (M * bool) :=
    cache_get_base (with_size O z) (Z.to_nat (op_nobj O m)) m r.

  (** 353-374 (S3FIFOd_insert): 367 reads the object returned by the main cache,
      NULL if it refused the object. *)
  Definition s3d_insert (s : s3d) (r : req) : res s3d :=
    if x_hg s then
      let! (m, _) := s3d_main_get (x_msz s) (x_main s) r in
      let! (m, b) := op_find O m r false in
      if b : bool then
        match mobj m (r_id r) with
        | None => Err NullDeref
        | Some o =>
            if decide (o_freq o = 0) then
              Ok (mkS3d (x_fifo s) (x_ghost s) m (x_msz s) (x_fe s) (x_me s) false (x_fh s) (x_mh s) (x_thr s) (x_size s) (x_nreq s))
            else Err AssertFail
        end
      else Err NullDeref
    else
      let! f := q_insert (x_fifo s) r in
      match c_tbl (q_c f) !! r_id r with
      | None => Err NullDeref
      | Some o =>
          if decide (o_freq o = 0) then
            Ok (mkS3d f (x_ghost s) (x_main s) (x_msz s) (x_fe s) (x_me s) (x_hg s) (x_fh s) (x_mh s) (x_thr s) (x_size s) (x_nreq s))
          else Err AssertFail
      end.

  (** 386-389 is assert(false). *)
  Definition s3d_to_evict (s : s3d) (_ : req) : res (s3d * option Z) := Err AssertFail.

  (** 410-417 and 466-470: the victim of the main cache is recorded in
      main_cache_eviction, then evicted. *)
  Definition s3d_main_evict (me : qstate) (m : M) (r : req) : res (qstate * M) :=
    let! (m, v) := op_to_evict O m r in
    match v with
    | None => Err NullDeref
    | Some v =>
        match mobj m v with
        | None => Err UseAfterFree
        | Some o =>
            let! (me, _) := sub_get fifo_ops me (req_of_obj v o) in
            let! m := op_evict O m r in
            Ok (me, m)
        end
    end.

  (** 464-471; the bound on the loop is the number of objects of the main cache. *)
  Fixpoint s3d_shrink (fuel : nat) (z : Z) (me : qstate) (m : M) (r : req) : res (qstate * M) :=
    if decide (op_occupied O m > z) then
      match fuel with
      | 0%nat => Err OutOfFuel
      | S k => let! (me, m) := s3d_main_evict me m r in s3d_shrink k z me m r
      end
    else Ok (me, m).

  (** 400-478 (S3FIFOd_evict), the branch without TRACK_EVICTION_V_AGE.  The
      object is freed by [remove] (457) and its frequency read after that (460). *)
  Definition s3d_evict (s : s3d) (r : req) : res s3d :=
    if decide (q_occ (x_fifo s) = 0) then
      if decide (op_occupied O (x_main s) <= x_size s) then
        let! (me, m) := s3d_main_evict (x_me s) (x_main s) r in
        Ok (mkS3d (x_fifo s) (x_ghost s) m (x_msz s) (x_fe s) me (x_hg s) (x_fh s) (x_mh s) (x_thr s) (x_size s) (x_nreq s))
      else Err AssertFail
    else
      match last (q_q (x_fifo s)) with
      | None => Err AssertFail
      | Some v =>
          match c_tbl (q_c (x_fifo s)) !! v with
          | None => Err UseAfterFree
          | Some o =>
              let! (f, removed) := q_remove (x_fifo s) v in
              if removed : bool then
                if keep then
                  if decide (o_freq o >= x_thr s) then
                    let! m := op_insert O (x_main s) (req_of_obj v o) in
                    let! (me, m) := s3d_shrink (Z.to_nat (op_nobj O m)) (x_msz s) (x_me s) m r in
                    Ok (mkS3d f (x_ghost s) m (x_msz s) (x_fe s) me (x_hg s) (x_fh s) (x_mh s) (x_thr s) (x_size s) (x_nreq s))
                  else
                    let! (g, _) := sub_get fifo_ops (x_ghost s) (req_of_obj v o) in
                    let! (fe, _) := sub_get fifo_ops (x_fe s) (req_of_obj v o) in
                    Ok (mkS3d f g (x_main s) (x_msz s) fe (x_me s) (x_hg s) (x_fh s) (x_mh s) (x_thr s) (x_size s) (x_nreq s))
                else Err UseAfterFree
              else Err AssertFail
          end
      end.

  (** 493-501 (S3FIFOd_remove) *)
  Definition s3d_remove (s : s3d) (id : Z) : res (s3d * bool) :=
    let! (f, b) := q_remove (x_fifo s) id in
    if b : bool then
      Ok (mkS3d f (x_ghost s) (x_main s) (x_msz s) (x_fe s) (x_me s) (x_hg s) (x_fh s) (x_mh s) (x_thr s) (x_size s) (x_nreq s), true)
    else
      let! (g, b) := q_remove (x_ghost s) id in
      if b : bool then
        Ok (mkS3d f g (x_main s) (x_msz s) (x_fe s) (x_me s) (x_hg s) (x_fh s) (x_mh s) (x_thr s) (x_size s) (x_nreq s), true)
      else
        let! (m, b) := op_remove O (x_main s) id in
        Ok (mkS3d f g m (x_msz s) (x_fe s) (x_me s) (x_hg s) (x_fh s) (x_mh s) (x_thr s) (x_size s) (x_nreq s), b).

  (** 515-519 (S3FIFOd_can_insert): the admission policy is not consulted. *)
  Definition s3d_can_insert (s : s3d) (r : req) : res (s3d * bool) :=
    Ok (s, bool_decide (r_size r <= q_size (x_fifo s))).

  (** 503-513, 91 *)
  Definition s3d_ops : ops s3d :=
    mkOps s3d_find s3d_can_insert s3d_insert s3d_evict s3d_to_evict s3d_remove
      (fun s => q_occ (x_fifo s) + op_occupied O (x_main s))
      (fun s => q_nobj (x_fifo s) + op_nobj O (x_main s))
      x_size (fun _ => 0) s3d_tick.
End S3FIFOd.
Arguments s3d : clear implicits.
