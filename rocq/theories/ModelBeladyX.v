(** Caches that consult the future: FIFO_Belady, LRU_Belady, Sieve_Belady
    (cache/eviction/belady) and BeladySize.
    Files are under /repo/libCacheSim/cache/eviction. *)
From stdpp Require Import gmap list numbers fin_maps.
From Verif Require Import Base Driver ModelQueue.
Open Scope Z_scope.

(** belady/FIFO_Belady.c:22-27 and belady/LRU_Belady.c:23-28: the queue and
    n_miss. *)
Record xbstate : Type := mkXb {
  xb_c    : cache;
  xb_q    : list Z;
  xb_miss : Z
}.

Definition xb_set_c (s : xbstate) (c : cache) : xbstate := mkXb c (xb_q s) (xb_miss s).

Section XBelady.
  (** n_req_thresh (FIFO_Belady.c:139-140, LRU_Belady.c:144-145,
      Sieve_Belady.c:151-152) as a function of cache_size, n_miss and n_req: a
      quotient of doubles converted to int64_t.  Arbitrary here. *)
  Context (thresh : Z -> Z -> Z -> Z).

  (** should_insert (FIFO_Belady.c:137-148, LRU_Belady.c:142-153,
      Sieve_Belady.c:149-160) *)
  Definition xb_keep (c : cache) (n_miss next : Z) : bool :=
    bool_decide (next - c_nreq c <= thresh (c_size c) n_miss (c_nreq c)).

  (** FIFO_Belady.c:160-166; LRU_Belady.c:165-181 (USE_BELADY_PROMOTION is not
      defined, line 19). *)
  Definition xb_find (lru : bool) (s : xbstate) (r : req) (u : bool) : res (xbstate * bool) :=
    let '(c, b) := cache_find_base (xb_c s) r u in
    Ok (mkXb c (if (lru && b && u)%bool then q_to_head (r_id r) (xb_q s) else xb_q s) (xb_miss s), b).

  Definition xb_can_insert (s : xbstate) (r : req) : res (xbstate * bool) :=
    let '(c, b) := cache_can_insert_default (xb_c s) r in Ok (xb_set_c s c, b).

  (** FIFO_Belady.c:178-194, LRU_Belady.c:193-209 (USE_BELADY_INSERTION is not
      defined). *)
  Definition xb_insert (s : xbstate) (r : req) : res xbstate :=
    let! c := cache_insert_base (xb_c s) r in Ok (mkXb c (r_id r :: xb_q s) (xb_miss s)).

  (** FIFO_Belady.c:204-222, LRU_Belady.c:219-237 (USE_BELADY_EVICTION is
      defined): the tail is moved to the head or evicted. *)
  Definition xb_evict (s : xbstate) (_ : req) : res xbstate :=
    match last (xb_q s) with
    | None => Err NullDeref
    | Some v =>
        match c_tbl (xb_c s) !! v with
        | None => Err UseAfterFree
        | Some o =>
            if xb_keep (xb_c s) (xb_miss s) (o_next o)
            then Ok (mkXb (xb_c s) (v :: removelast (xb_q s)) (xb_miss s))
            else let! c := cache_evict_base (xb_c s) v in
                 Ok (mkXb c (removelast (xb_q s)) (xb_miss s))
        end
    end.

  (** FIFO_Belady.c:67, LRU_Belady.c:68: to_evict = NULL. *)
  Definition xb_to_evict (_ : xbstate) (_ : req) : res (xbstate * option Z) := Err NullDeref.

  (** FIFO_Belady.c:261-272, LRU_Belady.c:276-287 *)
  Definition xb_remove (s : xbstate) (id : Z) : res (xbstate * bool) :=
    match c_tbl (xb_c s) !! id with
    | None => Ok (s, false)
    | Some _ =>
        let! c := cache_remove_obj_base (xb_c s) id in
        Ok (mkXb c (q_del id (xb_q s)) (xb_miss s), true)
    end.

  Definition xb_ops (lru : bool) : ops xbstate :=
    mkOps (xb_find lru) xb_can_insert xb_insert xb_evict xb_to_evict xb_remove
      (fun s => c_occ (xb_c s)) (fun s => c_nobj (xb_c s)) (fun s => c_size (xb_c s))
      (fun s => c_md (xb_c s)) (fun s => xb_set_c s (c_incr_nreq (xb_c s))).

  (** FIFO_Belady.c:123-129, LRU_Belady.c:128-134 *)
  Definition xb_get (lru : bool) (fuel : nat) (s : xbstate) (r : req) : res (xbstate * bool) :=
    let! (s, b) := cache_get_base (xb_ops lru) fuel s r in
    Ok (if b : bool then s else mkXb (xb_c s) (xb_q s) (xb_miss s + 1), b).

  (** Client calls: as Driver.step, with this get. *)
  Definition xb_step (lru : bool) (fuel : nat) (s : xbstate) (c : call) : res (xbstate * obs) :=
    match c with
    | CGet r => let! (s, b) := xb_get lru fuel s r in Ok (s, OBool b)
    | _ => step (xb_ops lru) fuel s c
    end.
  Fixpoint xb_run (lru : bool) (fuel : nat) (s : xbstate) (cs : list call) : res (xbstate * list obs) :=
    match cs with
    | [] => Ok (s, [])
    | c :: cs =>
        let! (s, o) := xb_step lru fuel s c in
        let! (s, os) := xb_run lru fuel s cs in
        Ok (s, o :: os)
    end.
End XBelady.

(** FIFO_Belady.c:56-95, LRU_Belady.c:57-100: obj_md_size 16 with
    consider_obj_metadata. *)
Definition xb_init (consider_md : bool) (size : Z) (adm : admissioner) : xbstate :=
  mkXb (cache_init size (if consider_md then 16 else 0) adm) [] 0.

(** belady/Sieve_Belady.c:14-22. *)
Record sbstate : Type := mkSb {
  sb_c    : cache;
  sb_q    : list Z;
  sb_ptr  : option Z;
  sb_miss : Z
}.

Section SieveBelady.
  Context (thresh : Z -> Z -> Z -> Z).

  (** Sieve_Belady.c:172-180.  Simplification: sieve.freq, which is written
      (176, 202, 236, 245) and never read, is not kept. *)
  Definition sb_find (s : sbstate) (r : req) (u : bool) : res (sbstate * bool) :=
    let '(c, b) := cache_find_base (sb_c s) r u in
    Ok (mkSb c (sb_q s) (sb_ptr s) (sb_miss s), b).

  Definition sb_can_insert (s : sbstate) (r : req) : res (sbstate * bool) :=
    let '(c, b) := cache_can_insert_default (sb_c s) r in
    Ok (mkSb c (sb_q s) (sb_ptr s) (sb_miss s), b).

  (** Sieve_Belady.c:193-213 (USE_BELADY_INSERTION is defined, line 10): an
      object whose next access is too far away is not inserted. *)
  Definition sb_insert (s : sbstate) (r : req) : res sbstate :=
    if xb_keep thresh (sb_c s) (sb_miss s) (r_next r) then
      let! c := cache_insert_base (sb_c s) r in
      Ok (mkSb c (r_id r :: sb_q s) (sb_ptr s) (sb_miss s))
    else Ok s.

  (** Sieve_Belady.c:234-238, 243-247: walk towards the head past the objects
      to keep.  [cur]: the ids from the starting point to the head. *)
  Fixpoint sb_walk (c : cache) (n_miss : Z) (cur : list Z) : res (option Z) :=
    match cur with
    | [] => Ok None
    | x :: cur' =>
        match c_tbl c !! x with
        | None => Err UseAfterFree
        | Some o => if xb_keep thresh c n_miss (o_next o) then sb_walk c n_miss cur' else Ok (Some x)
        end
    end.

  (** Sieve_Belady.c:224-258 *)
  Definition sb_evict (s : sbstate) (_ : req) : res sbstate :=
    let rq := rev (sb_q s) in
    let! start := match sb_ptr s with
                  | None => Ok rq
                  | Some p => if decide (p ∈ rq) then Ok (from_id p rq) else Err UseAfterFree
                  end in
    let! v := sb_walk (sb_c s) (sb_miss s) start in
    let! v := match v with
              | Some x => Ok (Some x)
              | None => sb_walk (sb_c s) (sb_miss s) rq
              end in
    (* 250-253 *)
    let! v := match v with
              | Some x => Ok x
              | None => match sb_ptr s with Some p => Ok p | None => Err NullDeref end
              end in
    (* 255-257 *)
    let ptr := q_prev v (sb_q s) in
    let! c := cache_evict_base (sb_c s) v in
    Ok (mkSb c (q_del v (sb_q s)) ptr (sb_miss s)).

  (** Sieve_Belady.c:260-293 *)
  Definition sb_remove (s : sbstate) (id : Z) : res (sbstate * bool) :=
    match c_tbl (sb_c s) !! id with
    | None => Ok (s, false)
    | Some _ =>
        let ptr := if decide (sb_ptr s = Some id) then q_prev id (sb_q s) else sb_ptr s in
        let! c := cache_remove_obj_base (sb_c s) id in
        Ok (mkSb c (q_del id (sb_q s)) ptr (sb_miss s), true)
    end.

  (** Sieve_Belady.c:64: to_evict = NULL. *)
  Definition sb_ops : ops sbstate :=
    mkOps sb_find sb_can_insert sb_insert sb_evict (fun _ _ => Err NullDeref) sb_remove
      (fun s => c_occ (sb_c s)) (fun s => c_nobj (sb_c s)) (fun s => c_size (sb_c s))
      (fun s => c_md (sb_c s))
      (fun s => mkSb (c_incr_nreq (sb_c s)) (sb_q s) (sb_ptr s) (sb_miss s)).

  (** Sieve_Belady.c:123-141 *)
  Definition sb_get (fuel : nat) (s : sbstate) (r : req) : res (sbstate * bool) :=
    let! (s, b) := cache_get_base sb_ops fuel s r in
    Ok (if b : bool then s else mkSb (sb_c s) (sb_q s) (sb_ptr s) (sb_miss s + 1), b).

  Definition sb_step (fuel : nat) (s : sbstate) (c : call) : res (sbstate * obs) :=
    match c with
    | CGet r => let! (s, b) := sb_get fuel s r in Ok (s, OBool b)
    | _ => step sb_ops fuel s c
    end.
  Fixpoint sb_run (fuel : nat) (s : sbstate) (cs : list call) : res (sbstate * list obs) :=
    match cs with
    | [] => Ok (s, [])
    | c :: cs =>
        let! (s, o) := sb_step fuel s c in
        let! (s, os) := sb_run fuel s cs in
        Ok (s, o :: os)
    end.
End SieveBelady.

(** Sieve_Belady.c:53-91: obj_md_size 1 with consider_obj_metadata. *)
Definition sb_init (consider_md : bool) (size : Z) (adm : admissioner) : sbstate :=
  mkSb (cache_init size (if consider_md then 1 else 0) adm) [] None 0.

(** BeladySize.c:20-27.  [bs_seed] is the state of the generator behind
    hashtable_rand_obj.  [o_p1] is Belady.next_access_vtime. *)
Record bsstate : Type := mkBs {
  bs_c    : cache;
  bs_seed : Z
}.

(** "never requested again": BeladySize.c:139, 160. *)
Definition never (x : Z) : bool := bool_decide (x = -1 \/ x = 2 ^ 63 - 1).

Section BeladySize.
  (** hashtable_rand_obj, as in ModelRand.v: an id and the next generator
      state. *)
  Context (draw : Z -> gmap Z cobj -> Z * Z).
  (** params->n_sample *)
  Context (n_sample : nat).

  Definition bs_set_c (s : bsstate) (c : cache) : bsstate := mkBs c (bs_seed s).

  (** BeladySize.c:258-265 *)
  Definition bs_remove (s : bsstate) (id : Z) : res (bsstate * bool) :=
    match c_tbl (bs_c s) !! id with
    | None => Ok (s, false)
    | Some _ => let! c := cache_remove_obj_base (bs_c s) id in Ok (bs_set_c s c, true)
    end.

  (** BeladySize.c:130-147: an object that is never requested again is removed
      at its hit; the pointer returned is dangling, but only compared with NULL
      by cache_get_base. *)
  Definition bs_find (s : bsstate) (r : req) (u : bool) : res (bsstate * bool) :=
    let '(c, b) := cache_find_base (bs_c s) r u in
    let s := bs_set_c s c in
    if (b && u)%bool then
      if never (r_next r) then
        let! (s, _) := bs_remove s (r_id r) in Ok (s, true)
      else Ok (bs_set_c s (c_upd c (r_id r) (fun o => o_set_p1 o (r_next r))), true)
    else Ok (s, b).

  Definition bs_can_insert (s : bsstate) (r : req) : res (bsstate * bool) :=
    let '(c, b) := cache_can_insert_default (bs_c s) r in Ok (bs_set_c s c, b).

  (** BeladySize.c:159-168 *)
  Definition bs_insert (s : bsstate) (r : req) : res bsstate :=
    if never (r_next r) then Ok s
    else let! c := cache_insert_base (bs_c s) r in
         Ok (bs_set_c s (c_upd c (r_id r) (fun o => o_set_p1 o (r_next r)))).

  (** BeladySize.c:223-232: the best of [n] draws so far.  Simplification: the
      product of a size and a distance does not overflow int64_t. *)
  Fixpoint bs_sample (n : nat) (c : cache) (seed : Z) (best : option Z) (score : Z)
      : res (option Z * Z) :=
    match n with
    | O => Ok (best, seed)
    | S k =>
        (* the loop of hashtable_rand_obj has no exit when the table is empty *)
        if decide (c_tbl c = ∅) then Err NonTerm else
        let '(id, seed) := draw seed (c_tbl c) in
        match c_tbl c !! id with
        | None => Err UseAfterFree
        | Some o =>
            let x := o_size o * (o_p1 o - c_nreq c) in
            if decide (score < x) then bs_sample k c seed (Some id) x
            else bs_sample k c seed best score
        end
    end.

  (** BeladySize.c:219-241: tries again, without bound, while no draw has a
      score above -1.  EXACT_Belady is not defined. *)
  Fixpoint bs_pick (fuel : nat) (c : cache) (seed : Z) : res (Z * Z) :=
    let! (best, seed) := bs_sample n_sample c seed None (-1) in
    match best with
    | Some v => Ok (v, seed)
    | None => match fuel with O => Err OutOfFuel | S k => bs_pick k c seed end
    end.

  Definition bs_to_evict (fuel : nat) (s : bsstate) (_ : req) : res (bsstate * option Z) :=
    let! (v, seed) := bs_pick fuel (bs_c s) (bs_seed s) in Ok (mkBs (bs_c s) seed, Some v).

  (** BeladySize.c:253-256 *)
  Definition bs_evict (fuel : nat) (s : bsstate) (_ : req) : res bsstate :=
    let! (v, seed) := bs_pick fuel (bs_c s) (bs_seed s) in
    let! c := cache_evict_base (bs_c s) v in Ok (mkBs c seed).

  Definition bs_ops (fuel : nat) : ops bsstate :=
    mkOps bs_find bs_can_insert bs_insert (bs_evict fuel) (bs_to_evict fuel) bs_remove
      (fun s => c_occ (bs_c s)) (fun s => c_nobj (bs_c s)) (fun s => c_size (bs_c s))
      (fun s => c_md (bs_c s)) (fun s => bs_set_c s (c_incr_nreq (bs_c s))).
End BeladySize.

(** BeladySize.c:56-79: obj_md_size stays 0. *)
Definition bs_init (size : Z) (adm : admissioner) (seed : Z) : bsstate :=
  mkBs (cache_init size 0 adm) seed.
