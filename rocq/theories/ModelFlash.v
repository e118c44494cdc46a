(** flashProb (a RAM tier in front of a disk tier): cache/eviction/other/flashProb.c,
    with an LRU or FIFO as RAM tier (the default is LRU) and any disk cache.
    Line numbers refer to flashProb.c. *)
From stdpp Require Import gmap list numbers fin_maps.
From Verif Require Import Base Driver ModelQueue ModelTwoQ ModelS3FIFO ModelQDLP.
Open Scope Z_scope.

(** 384-386: [inv_prob = (int)(1.0 / disk_admit_prob)].  [num] / [den] is the
    probability, a positive number.  Simplification: exact rationals, where C
    divides doubles. *)
Definition fp_inv_prob (num den : Z) : Z := Z.quot den num.

Section Flash.
  (** The disk cache (130-137), with its own operations. *)
  Context {M : Type} (O : ops M).
  (** ram-cache=LRU (112-113) rather than FIFO (106-107, 120-121). *)
  Context (lru : bool).
  (** next_rand() (utils/include/mymath.h:27-30): a value and the next state;
      arbitrary. *)
  Context (rnd : Z -> Z * Z).
  (** What reading the size of a freed object gives (306): [Err UseAfterFree]
      under the rules of C; some number if the allocator leaves the memory
      readable.  The argument is the size the object had. *)
  Context (stale : Z -> res Z).
  (** params->inv_prob *)
  Context (inv : Z).

  (** 20-36 (flashProb_params_t); [f_c] is the outer cache_t, of which size,
      obj_md_size (0), n_req and the admission policy are used.  The counters of
      24-27 are never read; n_byte_admit_to_disk is kept ([f_wr]) because 306
      computes it from freed memory. *)
  Record fp : Type := mkFp {
    f_c    : cache;
    f_ram  : qstate;
    f_disk : M;
    f_wr   : Z;
    f_seed : Z
  }.

  (** 68-146 (flashProb_init).  [rsz] is the product of 94-95; [rmd] is the
      obj_md_size of the RAM tier (16 for an LRU with consider_obj_metadata, else
      0); [disk0] is the disk cache created with size cap - rsz. *)
  Definition fp_init (cap rsz rmd : Z) (adm : admissioner) (disk0 : M) (seed : Z) : fp :=
    mkFp (cache_init cap 0 adm) (q_init rsz rmd AdmNone) disk0 0 seed.

  Definition fp_set_ram (s : fp) (x : qstate) : fp := mkFp (f_c s) x (f_disk s) (f_wr s) (f_seed s).
  Definition fp_set_disk (s : fp) (x : M) : fp := mkFp (f_c s) (f_ram s) x (f_wr s) (f_seed s).

  (** The RAM tier's operations. *)
  Definition ram_ops : ops qstate := if lru then lru_ops else fifo_ops.

  (** 203-228 (flashProb_find): both branches look in the RAM tier, then on disk. *)
  Definition fp_find (s : fp) (r : req) (u : bool) : res (fp * bool) :=
    let! (q, b) := op_find ram_ops (f_ram s) r u in
    let s := fp_set_ram s q in
    if b : bool then Ok (s, true)
    else
      let! (d, b) := op_find O (f_disk s) r u in
      Ok (fp_set_disk s d, b).

  (** 73-80: can_insert is the default one, on the outer cache. *)
  Definition fp_can_insert (s : fp) (r : req) : res (fp * bool) :=
    let '(c, b) := cache_can_insert_default (f_c s) r in
    Ok (mkFp c (f_ram s) (f_disk s) (f_wr s) (f_seed s), b).

  (** 241-254 (flashProb_insert): into the RAM tier, whatever its size. *)
  Definition fp_insert (s : fp) (r : req) : res fp :=
    let! q := op_insert ram_ops (f_ram s) r in Ok (fp_set_ram s q).

  (** 266-269 is assert(false). *)
  Definition fp_to_evict (s : fp) (_ : req) : res (fp * option Z) := Err AssertFail.

  (** 280-310 (flashProb_evict).  inv_prob is an int: 304 reduces modulo it. *)
  Definition fp_evict (s : fp) (r : req) : res fp :=
    if decide (op_occupied ram_ops (f_ram s) = 0) then
      if decide (op_occupied O (f_disk s) <= c_size (f_c s)) then
        let! d := op_evict O (f_disk s) r in Ok (fp_set_disk s d)
      else Err AssertFail
    else
      let! (q, v) := op_to_evict ram_ops (f_ram s) r in
      match v with
      | None => Err AssertFail
      | Some v =>
          match c_tbl (q_c q) !! v with
          | None => Err UseAfterFree
          | Some o =>
              let! (q, _) := op_remove ram_ops q v in
              let '(x, seed) := rnd (f_seed s) in
              if decide (inv = 0) then Err DivByZero
              else if decide (x mod inv = 0) then
                let! z := stale (o_size o) in
                let! (d, _) := main_get O (f_disk s) (req_of_obj v o) in
                Ok (mkFp (f_c s) q d (f_wr s + z) seed)
              else Ok (mkFp (f_c s) q (f_disk s) (f_wr s) seed)
          end
      end.

  (** 325-332 (flashProb_remove) *)
  Definition fp_remove (s : fp) (id : Z) : res (fp * bool) :=
    let! (q, b) := op_remove ram_ops (f_ram s) id in
    let s := fp_set_ram s q in
    if b : bool then Ok (s, true)
    else
      let! (d, b) := op_remove O (f_disk s) id in
      Ok (fp_set_disk s d, b).

  (** 68-82, 181-186 (flashProb_get is cache_get_base), 334-344. *)
  Definition fp_ops : ops fp :=
    mkOps fp_find fp_can_insert fp_insert fp_evict fp_to_evict fp_remove
      (fun s => op_occupied ram_ops (f_ram s) + op_occupied O (f_disk s))
      (fun s => op_nobj ram_ops (f_ram s) + op_nobj O (f_disk s))
      (fun s => c_size (f_c s)) (fun s => c_md (f_c s))
      (fun s => mkFp (c_incr_nreq (f_c s)) (f_ram s) (f_disk s) (f_wr s) (f_seed s)).
End Flash.
Arguments fp : clear implicits.
