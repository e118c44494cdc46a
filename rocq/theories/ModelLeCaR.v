(** cache/eviction/LeCaR.c: an LRU queue and LFU buckets over the same objects,
    two ghost lists, and a random choice between the two experts.

    The weights are doubles updated with pow and exp (LeCaR.c:748-761); they
    are kept abstract: [upd e t w] is update_weight called for expert LRU
    ([e = true]) or LFU after a ghost hit at age [t], [pick w n] is the outcome
    of [r < params->w_lru] for the n-th random number.  The statistics
    n_hit_lru_history and n_hit_lfu_history, which nothing reads, are left
    out, and so is the parsing of parameters. *)
From stdpp Require Import gmap list numbers fin_maps.
From Verif Require Import Base Driver ModelQueue ModelLFU.
Open Scope Z_scope.

(** include/libCacheSim/cacheObj.h:37-44: [int64_t freq:23] and
    [int64_t eviction_vtime:40] are signed bit-fields. *)
Definition sx23 (x : Z) : Z := (x + 2 ^ 22) mod 2 ^ 23 - 2 ^ 22.
Definition sx40 (x : Z) : Z := (x + 2 ^ 39) mod 2 ^ 40 - 2 ^ 39.

(** LeCaR_obj_metadata_t in the spare fields of [cobj]: [o_p1] is freq, [o_p2]
    evict_expert, [o_p3] eviction_vtime, and [o_exp] (exp_time, which only
    exists with SUPPORT_TTL) is is_ghost. *)
Definition lc_ghost (o : cobj) : bool := negb (Z.eqb (o_exp o) 0).

(** LeCaR.c:675-676, 720-721: freq is converted to uint64_t when it is a key of
    freq_map or compared with min_freq and max_freq. *)
Definition lc_key (o : cobj) : Z := u64 (o_p1 o).

(** LeCaR.c:26-53 (LeCaR_params_t), and cache->to_evict_candidate_gen_vtime. *)
Record lecar (W : Type) := mkLC {
  lc_c : cache;
  lc_q : list Z;             (* q_head .. q_tail *)
  lc_fm : gmap Z fnode;      (* freq_map *)
  lc_min : Z;
  lc_max : Z;
  lc_gl : list Z;            (* ghost_lru_head .. ghost_lru_tail *)
  lc_gbl : Z;                (* lru_g_occupied_byte *)
  lc_gf : list Z;            (* ghost_lfu_head .. ghost_lfu_tail *)
  lc_gbf : Z;                (* lfu_g_occupied_byte *)
  lc_w : W;
  lc_draws : nat;
  lc_gen : Z
}.
Arguments mkLC {W}. Arguments lc_c {W}. Arguments lc_q {W}. Arguments lc_fm {W}.
Arguments lc_min {W}. Arguments lc_max {W}. Arguments lc_gl {W}. Arguments lc_gbl {W}.
Arguments lc_gf {W}. Arguments lc_gbf {W}. Arguments lc_w {W}. Arguments lc_draws {W}.
Arguments lc_gen {W}.

(** LeCaR.c:645-660 (update_LFU_min_freq).  [freq <= max_freq] holds for every
    uint64_t when max_freq is UINT64_MAX: the search then wraps around, and
    without a bucket to find it does not end. *)
Definition lc_update_min (fm : gmap Z fnode) (mn mx : Z) : res Z :=
  match lfu_search (Z.to_nat (mx - mn)) fm (mn + 1) with
  | Some f => Ok f
  | None =>
      if decide (mx = 2 ^ 64 - 1) then
        match lfu_search (Z.to_nat (mn + 1)) fm 0 with
        | Some f => Ok f
        | None => Err NonTerm
        end
      else Ok mn
  end.

(** LeCaR.c:678-717 (remove_obj_from_freq_node). *)
Definition lc_unbucket (fm : gmap Z fnode) (mn mx : Z) (id k : Z) : res (gmap Z fnode * Z) :=
  match fm !! k with
  | None => Err NullDeref
  | Some nd =>
      let nd := mkNode (fn_n nd - 1) (q_del id (fn_q nd)) in
      let fm := <[k := nd]> fm in
      if decide (k = mn /\ fn_n nd = 0) then let! mn := lc_update_min fm mn mx in Ok (fm, mn)
      else Ok (fm, mn)
  end.

(** LeCaR.c:719-746 (insert_obj_info_freq_node). *)
Definition lc_bucket (fm : gmap Z fnode) (id k : Z) : gmap Z fnode :=
  let nd := default (mkNode 0 []) (fm !! k) in
  <[k := mkNode (fn_n nd + 1) (fn_q nd ++ [id])]> fm.

Section lecar.
  Context {W : Type} (upd : bool -> Z -> W -> W) (pick : W -> nat -> bool).

  Definition lc_set_c (s : lecar W) (c : cache) : lecar W :=
    mkLC c (lc_q s) (lc_fm s) (lc_min s) (lc_max s) (lc_gl s) (lc_gbl s) (lc_gf s) (lc_gbf s)
      (lc_w s) (lc_draws s) (lc_gen s).

  (** hashtable_delete without touching the counters (LeCaR.c:249, 259, 262) *)
  Definition lc_forget (c : cache) (id : Z) : cache := c_set_tbl c (delete id (c_tbl c)).

  (** LeCaR.c:218-300 *)
  Definition lc_find (s : lecar W) (r : req) (u : bool) : res (lecar W * bool) :=
    let '(c, b) := cache_find_base (lc_c s) r u in
    if b then
      match c_tbl c !! r_id r with
      | None => Err UseAfterFree
      | Some o =>
          if negb u then Ok (lc_set_c s c, negb (lc_ghost o))
          else if lc_ghost o then
            let bytes := u32 (o_size o + c_md c) in
            let c' := lc_forget c (r_id r) in
            let t := c_nreq c - o_p3 o in
            if decide (o_p2 o = 1) then
              Ok (mkLC c' (lc_q s) (lc_fm s) (lc_min s) (lc_max s)
                    (q_del (r_id r) (lc_gl s)) (lc_gbl s - bytes) (lc_gf s) (lc_gbf s)
                    (upd true t (lc_w s)) (lc_draws s) (lc_gen s), false)
            else if decide (o_p2 o = 2) then
              Ok (mkLC c' (lc_q s) (lc_fm s) (lc_min s) (lc_max s)
                    (lc_gl s) (lc_gbl s) (q_del (r_id r) (lc_gf s)) (lc_gbf s - bytes)
                    (upd false t (lc_w s)) (lc_draws s) (lc_gen s), false)
            else if decide (o_p2 o = -1) then Ok (lc_set_c s c', false)
            else Err AssertFail
          else
            let! (fm, mn) := lc_unbucket (lc_fm s) (lc_min s) (lc_max s) (r_id r) (lc_key o) in
            let f := sx23 (o_p1 o + 1) in
            let c := c_upd c (r_id r) (fun o => o_set_p1 o f) in
            let k := u64 f in
            let mx := if decide (lc_max s < k) then k else lc_max s in
            let fm := lc_bucket fm (r_id r) k in
            let! mn := if decide (c_nobj c = 1) then lc_update_min fm mn mx else Ok mn in
            let mn := if decide (k < mn) then k else mn in
            Ok (mkLC c (q_to_head (r_id r) (lc_q s)) fm mn mx (lc_gl s) (lc_gbl s) (lc_gf s) (lc_gbf s)
                  (lc_w s) (lc_draws s) (lc_gen s), true)
      end
    else Ok (lc_set_c s c, false).

  (** LeCaR_init keeps cache_can_insert_default (cache.c:146-161). *)
  Definition lc_can_insert (s : lecar W) (r : req) : res (lecar W * bool) :=
    let '(c, b) := cache_can_insert_default (lc_c s) r in Ok (lc_set_c s c, b).

  (** LeCaR.c:312-342.  freq_one_node is the bucket of frequency 1, which is
      never deleted. *)
  Definition lc_insert (s : lecar W) (r : req) : res (lecar W) :=
    let! c := cache_insert_base (lc_c s) r in
    let c := c_upd c (r_id r) (fun o => o_set_p3 (o_set_p2 (o_set_exp (o_set_p1 o 1) 0) 0) 0) in
    Ok (mkLC c (r_id r :: lc_q s) (lc_bucket (lc_fm s) (r_id r) 1) 1 (lc_max s)
          (lc_gl s) (lc_gbl s) (lc_gf s) (lc_gbf s) (lc_w s) (lc_draws s) (lc_gen s)).

  (** LeCaR.c:662-676 (get_min_freq_node) and its first_obj. *)
  Definition lc_lfu (s : lecar W) : res (option Z) :=
    match lc_fm s !! lc_min s with
    | None => Err NullDeref
    | Some nd => Ok (head (fn_q nd))
    end.

  (** LeCaR.c:435-448 *)
  Definition lc_to_evict (s : lecar W) (_ : req) : res (lecar W * option Z) :=
    let s' := mkLC (lc_c s) (lc_q s) (lc_fm s) (lc_min s) (lc_max s) (lc_gl s) (lc_gbl s) (lc_gf s) (lc_gbf s)
                (lc_w s) (S (lc_draws s)) (c_nreq (lc_c s)) in
    if pick (lc_w s) (lc_draws s) then Ok (s', last (lc_q s))
    else let! v := lc_lfu s in Ok (s', v).

  (** LeCaR.c:518-526 and 532-540: drop ghosts from the tail while the list is
      above half of the cache size. *)
  Fixpoint lc_trim (fuel : nat) (lim : Z) (c : cache) (g : list Z) (b : Z) : res (cache * list Z * Z) :=
    if decide (b > lim) then
      match fuel with
      | O => Err OutOfFuel
      | S n =>
          match last g with
          | None => Err NullDeref
          | Some v =>
              match c_tbl c !! v with
              | None => Err UseAfterFree
              | Some o => lc_trim n lim (lc_forget c v) (removelast g) (b - u32 (o_size o + c_md c))
              end
          end
      end
    else Ok (c, g, b).

  (** prepend_obj_to_head (cacheObj.c:110-128) writes to the old head, which
      dangles if LeCaR_remove freed it. *)
  Definition lc_prepend (c : cache) (id : Z) (g : list Z) : res (list Z) :=
    match g with
    | [] => Ok [id]
    | h :: _ => match c_tbl c !! h with None => Err UseAfterFree | Some _ => Ok (id :: g) end
    end.

  (** LeCaR.c:466-498: who leaves, by the choice of which expert, with how many
      random numbers drawn.  Line 461 overwrites to_evict_candidate with the
      LRU tail, so a candidate announced by to_evict is not honoured. *)
  Definition lc_choose (s : lecar W) (v : Z) (u : option Z) : res (Z * Z * nat * Z) :=
    if decide (lc_gen s = c_nreq (lc_c s)) then
      Ok (v, (if decide (u = Some v) then -1 else 1), lc_draws s, -1)
    else if decide (u = Some v) then Ok (v, -1, lc_draws s, lc_gen s)
    else if pick (lc_w s) (lc_draws s) then Ok (v, 1, S (lc_draws s), lc_gen s)
    else match u with
         | None => Err NullDeref
         | Some u => Ok (u, 2, S (lc_draws s), lc_gen s)
         end.

  (** LeCaR.c:458-545; cache_evict_base(…, false) updates the counters and
      leaves the object in the hash table. *)
  Definition lc_evict (s : lecar W) (_ : req) : res (lecar W) :=
    let! u := lc_lfu s in
    match last (lc_q s) with
    | None => Err NullDeref
    | Some v =>
        let! (x, e, n, gen) := lc_choose s v u in
        match c_tbl (lc_c s) !! x with
        | None => Err UseAfterFree
        | Some o =>
            let c := c_upd (lc_c s) x
                       (fun o => o_set_exp (o_set_p3 (o_set_p2 o e) (sx40 (c_nreq (lc_c s)))) 1) in
            let! (fm, mn) := lc_unbucket (lc_fm s) (lc_min s) (lc_max s) x (lc_key o) in
            let bytes := u32 (o_size o + c_md c) in
            let c := mkCache (c_size c) (c_md c) (c_nreq c) (c_nobj c - 1) (c_occ c - bytes) (c_tbl c) (c_adm c) in
            let q := q_del x (lc_q s) in
            if decide (e = 1) then
              let! g := lc_prepend c x (lc_gl s) in
              let! (c, g, b) := lc_trim (S (length (lc_gl s))) (c_size c / 2) c g (lc_gbl s + bytes) in
              Ok (mkLC c q fm mn (lc_max s) g b (lc_gf s) (lc_gbf s) (lc_w s) n gen)
            else if decide (e = 2) then
              let! g := lc_prepend c x (lc_gf s) in
              let! (c, g, b) := lc_trim (S (length (lc_gf s))) (c_size c / 2) c g (lc_gbf s + bytes) in
              Ok (mkLC c q fm mn (lc_max s) (lc_gl s) (lc_gbl s) g b (lc_w s) n gen)
            else Ok (mkLC c q fm mn (lc_max s) (lc_gl s) (lc_gbl s) (lc_gf s) (lc_gbf s) (lc_w s) n gen)
        end
    end.

  (** remove_obj_from_list(&q_head, &q_tail, obj) (cacheObj.c:57-76) on an
      object of another list unlinks it from its neighbours only: the head and
      tail pointers of that list keep pointing to it. *)
  Definition unlink_inner (id : Z) (g : list Z) : list Z :=
    if decide (head g = Some id \/ last g = Some id) then g else q_del id g.

  (** LeCaR.c:561-578: no test of is_ghost. *)
  Definition lc_remove (s : lecar W) (id : Z) : res (lecar W * bool) :=
    match c_tbl (lc_c s) !! id with
    | None => Ok (s, false)
    | Some o =>
        let! (fm, mn) := lc_unbucket (lc_fm s) (lc_min s) (lc_max s) id (lc_key o) in
        let! c := cache_remove_obj_base (lc_c s) id in
        Ok (mkLC c (q_del id (lc_q s)) fm mn (lc_max s)
              (unlink_inner id (lc_gl s)) (lc_gbl s) (unlink_inner id (lc_gf s)) (lc_gbf s)
              (lc_w s) (lc_draws s) (lc_gen s), true)
    end.

  Definition lc_ops : ops (lecar W) :=
    mkOps lc_find lc_can_insert lc_insert lc_evict lc_to_evict lc_remove
      (fun s => c_occ (lc_c s)) (fun s => c_nobj (lc_c s)) (fun s => c_size (lc_c s)) (fun s => c_md (lc_c s))
      (fun s => lc_set_c s (c_incr_nreq (lc_c s))).

  (** LeCaR.c:101-165 and cache_struct_init (cache.c:15-60):
      to_evict_candidate_gen_vtime starts at -1; [w] is the pair of weights
      after the parameters are parsed. *)
  Definition lc_init (size md : Z) (adm : admissioner) (w : W) : lecar W :=
    mkLC (cache_init size md adm) [] {[ 1 := mkNode 0 [] ]} 1 1 [] 0 [] 0 w 0 (-1).
End lecar.
