(** LP_ARC: cache/eviction/fifo/LP_ARC.c, ARC with two Clock caches T1, T2 and two
    LRU ghost caches B1, B2 (CLI name lp-arc).  Line numbers refer to LP_ARC.c.
    The state is the record [arc0] of ModelARCv0.v, which has the same fields; the
    double p is a rational with rounding [rnd], as there.  [O] are the operations
    of T1 and T2 ([clock_ops 1] in LP_ARC: 110, 112 with the default of Clock.c).
    The fields to_evict_candidate and to_evict_candidate_gen_vtime (292-299, 319)
    are written and never read here and left out. *)
From stdpp Require Import gmap list numbers fin_maps.
From Coq Require Import QArith.
From Verif Require Import Base Driver ModelQueue ModelTwoQ ModelSLRU ModelARC ModelARCv0.
Open Scope Z_scope.

(** 83-123 (LP_ARC_init): Clock.c has no metadata size *)
Definition lpa_init (consider_md : bool) (cap : Z) (adm : admissioner) : arc0 :=
  let t := clock_init cap AdmNone in
  let b := lru_init consider_md cap AdmNone in
  mkA0 (cache_init cap (if consider_md then 40 else 0) adm) t b t b 0%Q false false (-1).

Section LPARC.
  Context (rnd : Q -> Q) (O : ops qstate).

  (** 184-245 (LP_ARC_find) *)
  Definition lpa_find (s : arc0) (r : req) (u : bool) : res (arc0 * bool) :=
    let! (_, in_t1) := op_find O (z_t1 s) r false in
    let! (_, in_t2) := op_find O (z_t2 s) r false in
    if u then
      let! (_, in_b1) := lru_find (z_b1 s) r false in
      let! (_, in_b2) := lru_find (z_b2 s) r false in
      if negb (in_t1 || in_t2 || in_b1 || in_b2) then Ok (s, false)
      else
        let s := z_set_flags s false false (z_vt s) in
        let b1_size := q_occ (z_b1 s) in
        let b2_size := q_occ (z_b2 s) in
        if (in_b1 || in_b2 : bool) then
          let s := z_set_flags s false false (c_nreq (z_c s)) in
          if in_b1 : bool then
            let s := z_set_flags s true false (z_vt s) in
            let s := z_set_p s (p_up rnd (z_p s) (arc_delta rnd b2_size b1_size) (c_size (z_c s))) in
            let! (b1, _) := q_remove (z_b1 s) (r_id r) in
            Ok (z_set_b1 s b1, in_t1 || in_t2)
          else
            let s := z_set_flags s false true (z_vt s) in
            let s := z_set_p s (p_down rnd (z_p s) (arc_delta rnd b1_size b2_size)) in
            let! (b2, _) := q_remove (z_b2 s) (r_id r) in
            Ok (z_set_b2 s b2, in_t1 || in_t2)
        else if in_t1 : bool then
          let! (t1, _) := op_remove O (z_t1 s) (r_id r) in
          let! (t2, _) := sub_get O (z_t2 s) r in
          Ok (z_set_t2 (z_set_t1 s t1) t2, true)
        else
          let! (t2, _) := op_find O (z_t2 s) r true in
          Ok (z_set_t2 s t2, true)
    else Ok (s, in_t1 || in_t2).

  (** 258-278 (LP_ARC_insert); [z_in_ghost] is the condition of 263-264, 293-294
      and 313-314 *)
  Definition lpa_insert (s : arc0) (r : req) : res arc0 :=
    if z_in_ghost s then
      let! t2 := op_insert O (z_t2 s) r in
      Ok (z_set_flags (z_set_t2 s t2) false false (-1))
    else
      let! t1 := op_insert O (z_t1 s) r in
      Ok (z_set_t1 s t1).

  (** 362-378 (_LP_ARC_to_replace); [z_over] is the condition of 368-369 *)
  Definition lpa_to_replace (s : arc0) (r : req) : res (arc0 * option Z) :=
    if z_over rnd s then let! (t1, v) := op_to_evict O (z_t1 s) r in Ok (z_set_t1 s t1, v)
    else let! (t2, v) := op_to_evict O (z_t2 s) r in Ok (z_set_t2 s t2, v).

  (** 381-409 (_LP_ARC_replace); 392: [z_over] or T2 has no bytes *)
  Definition lpa_replace (s : arc0) (r : req) : res arc0 :=
    if z_over rnd s || bool_decide (q_occ (z_t2 s) = 0) then
      let! (t1, v) := op_to_evict O (z_t1 s) r in
      let! (v, o) := deref t1 v in
      let! (b1, _) := sub_get lru_ops (z_b1 s) (req_of_obj v o) in
      let! t1 := op_evict O t1 r in
      Ok (z_set_b1 (z_set_t1 s t1) b1)
    else
      let! (t2, v) := op_to_evict O (z_t2 s) r in
      let! (v, o) := deref t2 v in
      let! (b2, _) := sub_get lru_ops (z_b2 s) (req_of_obj v o) in
      let! t2 := op_evict O t2 r in
      Ok (z_set_b2 (z_set_t2 s t2) b2).

  (** 413-433 (_LP_ARC_to_evict_miss_on_all_queues); [z_full] is the condition of
      421 and 444 *)
  Definition lpa_to_evict_miss (s : arc0) (r : req) : res (arc0 * option Z) :=
    if z_full s r then
      if decide (q_occ (z_b1 s) > 0) then lpa_to_replace s r
      else let! (t1, v) := op_to_evict O (z_t1 s) r in Ok (z_set_t1 s t1, v)
    else lpa_to_replace s r.

  (** 436-469 (_LP_ARC_evict_miss_on_all_queues); the while loop of 461-466 is run
      for at most the number of objects in B2, plus one. *)
  Definition lpa_evict_miss (s : arc0) (r : req) : res arc0 :=
    if z_full s r then
      if decide (q_occ (z_b1 s) > 0) then
        let! b1 := q_evict_tail (z_b1 s) r in
        lpa_replace (z_set_b1 s b1) r
      else
        let! t1 := op_evict O (z_t1 s) r in Ok (z_set_t1 s t1)
    else
      let n := q_occ (z_t1 s) + q_occ (z_b1 s) + q_occ (z_t2 s) in
      let! b2 := while_ (S (Z.to_nat (q_nobj (z_b2 s))))
                   (fun b2 => Ok (bool_decide (n + q_occ b2 >= c_size (z_c s) * 2)))
                   (fun b2 => q_evict_tail b2 r) (z_b2 s) in
      lpa_replace (z_set_b2 s b2) r.

  (** 290-300 (LP_ARC_to_evict) *)
  Definition lpa_to_evict (s : arc0) (r : req) : res (arc0 * option Z) :=
    if z_in_ghost s then lpa_to_replace s r else lpa_to_evict_miss s r.

  (** 311-320 (LP_ARC_evict) *)
  Definition lpa_evict (s : arc0) (r : req) : res arc0 :=
    if z_in_ghost s then lpa_replace s r else lpa_evict_miss s r.

  (** 335-342 (LP_ARC_remove) *)
  Definition lpa_remove (s : arc0) (id : Z) : res (arc0 * bool) :=
    let! (t1, a) := op_remove O (z_t1 s) id in
    let! (t2, b) := op_remove O (z_t2 s) id in
    Ok (z_set_t2 (z_set_t1 s t1) t2, (a || b)%bool).

  (** 161-166, 530-553 (LP_ARC_get, LP_ARC_get_debug): cache_get_base without the
      call of can_insert, so can_insert is the constant true here; 344-353. *)
  Definition lpa_ops : ops arc0 :=
    mkOps lpa_find (fun s _ => Ok (s, true)) lpa_insert lpa_evict lpa_to_evict lpa_remove
      (fun s => op_occupied O (z_t1 s) + op_occupied O (z_t2 s)) (fun s => op_nobj O (z_t1 s) + op_nobj O (z_t2 s))
      (fun s => c_size (z_c s)) (fun s => c_md (z_c s)) (fun s => z_set_c s (c_incr_nreq (z_c s))).
End LPARC.
