(** LFU with dynamic aging (cache/eviction/LFUDA.c).  [o_p1] is lfu.freq, the
    aged frequency.  Same node structure as LFU (ModelLFU.v); nodes are never
    freed.  Simplification: frequencies are int64_t in C and do not wrap here. *)
From stdpp Require Import gmap list numbers fin_maps.
From Verif Require Import Base Driver ModelQueue ModelLFU.
Open Scope Z_scope.

(** LFUDA.c:59-95: min_freq = max_freq = 0, one empty node for frequency 1,
    also reachable as freq_one_node. *)
Definition lfuda_init (consider_md : bool) (size : Z) (adm : admissioner) : lfu_state :=
  mkLfu (cache_init size (if consider_md then 16 else 0) adm) {[ 1 := mkNode 0 [] ]} 0 0.

(** The node of a frequency, created empty when missing (LFUDA.c:175-187,
    212-221), with one object appended. *)
Definition node_add (fm : gmap Z fnode) (f id : Z) : gmap Z fnode :=
  let nd := default (mkNode 0 []) (fm !! f) in
  <[f := mkNode (fn_n nd + 1) (fn_q nd ++ [id])]> fm.

(** LFUDA.c:147-194.  update_min_freq (346-357) is the same loop as in LFU; it
    runs before the object is appended to its new node. *)
Definition lfuda_find (s : lfu_state) (r : req) (u : bool) : res (lfu_state * bool) :=
  let '(c, b) := cache_find_base (l_c s) r u in
  if (b && u)%bool then
    match c_tbl c !! r_id r with
    | None => Err UseAfterFree
    | Some o =>
        let f := o_p1 o + l_min s in
        let c := c_upd c (r_id r) (fun o => o_set_p1 o f) in
        let mx := if decide (l_max s < f) then f else l_max s in
        match l_fm s !! (f - l_min s) with
        | None => Err NullDeref
        | Some old =>
            let nd := mkNode (fn_n old - 1) (q_del (r_id r) (fn_q old)) in
            let fm := <[f - l_min s := nd]> (l_fm s) in
            let mn := if decide (l_min s = f - l_min s /\ fn_n nd = 0)
                      then lfu_update_min fm (l_min s) mx else l_min s in
            Ok (mkLfu c (node_add fm f (r_id r)) mn mx, true)
        end
    end
  else Ok (mkLfu c (l_fm s) (l_min s) (l_max s), b).

(** LFUDA.c:207-227: max_freq is not updated. *)
Definition lfuda_insert (s : lfu_state) (r : req) : res lfu_state :=
  let! c := cache_insert_base (l_c s) r in
  let f := l_min s + 1 in
  Ok (mkLfu (c_upd c (r_id r) (fun o => o_set_p1 o f)) (node_add (l_fm s) f (r_id r))
            (l_min s) (l_max s)).

(** LFUDA.c:329-344 (get_min_freq_node). *)
Definition lfuda_min_node (s : lfu_state) : res (Z * fnode) :=
  let mn := if decide (l_min s = 0 \/ l_min s = 1) then 1 else l_min s in
  match l_fm s !! mn with
  | None => Err NullDeref
  | Some nd => Ok (mn, nd)
  end.

(** LFUDA.c:239-243 *)
Definition lfuda_to_evict (s : lfu_state) (_ : req) : res (lfu_state * option Z) :=
  let! (_, nd) := lfuda_min_node s in Ok (s, head (fn_q nd)).

(** LFUDA.c:254-275; an empty node makes remove_obj_from_list dereference
    NULL. *)
Definition lfuda_evict (s : lfu_state) (_ : req) : res lfu_state :=
  let! (mn, nd) := lfuda_min_node s in
  match fn_q nd with
  | [] => Err NullDeref
  | v :: q =>
      let nd := mkNode (fn_n nd - 1) (q_del v (v :: q)) in
      let fm := <[mn := nd]> (l_fm s) in
      let! c := cache_evict_base (l_c s) v in
      Ok (mkLfu c fm (if decide (fn_n nd = 0) then lfu_update_min fm mn (l_max s) else mn) (l_max s))
  end.

(** LFUDA.c:277-298, 313-322 *)
Definition lfuda_remove (s : lfu_state) (id : Z) : res (lfu_state * bool) :=
  match c_tbl (l_c s) !! id with
  | None => Ok (s, false)
  | Some o =>
      match l_fm s !! o_p1 o with
      | None => Err NullDeref
      | Some nd =>
          let nd := mkNode (fn_n nd - 1) (q_del id (fn_q nd)) in
          let fm := <[o_p1 o := nd]> (l_fm s) in
          let! c := cache_remove_obj_base (l_c s) id in
          let mn := if decide (o_p1 o = l_min s /\ fn_n nd = 0)
                    then lfu_update_min fm (l_min s) (l_max s) else l_min s in
          Ok (mkLfu c fm mn (l_max s), true)
      end
  end.

Definition lfuda_ops : ops lfu_state :=
  mkOps lfuda_find lfu_can_insert lfuda_insert lfuda_evict lfuda_to_evict lfuda_remove
        (fun s => c_occ (l_c s)) (fun s => c_nobj (l_c s)) (fun s => c_size (l_c s))
        (fun s => c_md (l_c s))
        (fun s => mkLfu (c_incr_nreq (l_c s)) (l_fm s) (l_min s) (l_max s)).
