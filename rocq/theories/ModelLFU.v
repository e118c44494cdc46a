(** LFU (cache/eviction/LFU.c): a map from frequency to a node holding a
    queue of objects with that frequency.  [o_p1] is lfu.freq. *)
From stdpp Require Import gmap list numbers fin_maps.
From Verif Require Import Base Driver ModelQueue.
Open Scope Z_scope.

(** cacheObj.h / LFU.c: freq_node_t {freq, first_obj..last_obj, n_obj}; the
    freq field always equals the key under which the node is stored. *)
Record fnode : Type := mkNode { fn_n : Z; fn_q : list Z }.

Record lfu_state : Type := mkLfu {
  l_c   : cache;
  l_fm  : gmap Z fnode;   (* freq_map; key 1 is also freq_one_node *)
  l_min : Z;              (* min_freq *)
  l_max : Z               (* max_freq *)
}.

(** LFU.c:75-113 *)
Definition lfu_init (consider_md : bool) (size : Z) (adm : admissioner) : lfu_state :=
  mkLfu (cache_init size (if consider_md then 16 else 0) adm) {[ 1 := mkNode 0 [] ]} 1 1.

(** LFU.c:369-376: the first frequency in [f .. f+n-1] whose node is not empty. *)
Fixpoint lfu_search (n : nat) (fm : gmap Z fnode) (f : Z) : option Z :=
  match n with
  | 0%nat => None
  | S n' => match fm !! f with
            | Some nd => if decide (fn_n nd > 0) then Some f else lfu_search n' fm (f + 1)
            | None => lfu_search n' fm (f + 1)
            end
  end.

(** LFU.c:367-378 (update_min_freq): min_freq is unchanged when nothing is
    found. *)
Definition lfu_update_min (fm : gmap Z fnode) (mn mx : Z) : Z :=
  match lfu_search (Z.to_nat (mx - mn)) fm (mn + 1) with
  | Some f => f
  | None => mn
  end.

(** LFU.c:166-219 *)
Definition lfu_find (s : lfu_state) (r : req) (u : bool) : res (lfu_state * bool) :=
  let '(c, b) := cache_find_base (l_c s) r u in
  if (b && u)%bool then
    match c_tbl c !! r_id r with
    | None => Err UseAfterFree
    | Some o =>
        let f := o_p1 o + 1 in
        let c := c_upd c (r_id r) (fun o => o_set_p1 o f) in
        let mx := if decide (l_max s < f) then f else l_max s in
        match l_fm s !! (f - 1) with
        | None => Err NullDeref
        | Some old =>
            let old := mkNode (fn_n old - 1) (q_del (r_id r) (fn_q old)) in
            let fm := <[f - 1 := old]> (l_fm s) in
            let new := match fm !! f with Some nd => nd | None => mkNode 0 [] end in
            let new := mkNode (fn_n new + 1) (fn_q new ++ [r_id r]) in
            let fm := <[f := new]> fm in
            if decide (fn_n old = 0) then
              let mn := if decide (l_min s = f - 1) then lfu_update_min fm (l_min s) mx
                        else l_min s in
              let fm := if decide (f - 1 <> 1) then delete (f - 1) fm else fm in
              Ok (mkLfu c fm mn mx, true)
            else Ok (mkLfu c fm (l_min s) mx, true)
        end
    end
  else Ok (mkLfu c (l_fm s) (l_min s) (l_max s), b).

Definition lfu_can_insert (s : lfu_state) (r : req) : res (lfu_state * bool) :=
  let '(c, b) := cache_can_insert_default (l_c s) r in
  Ok (mkLfu c (l_fm s) (l_min s) (l_max s), b).

(** LFU.c:231-244 *)
Definition lfu_insert (s : lfu_state) (r : req) : res lfu_state :=
  match l_fm s !! 1 with
  | None => Err UseAfterFree
  | Some one =>
      let! c := cache_insert_base (l_c s) r in
      let c := c_upd c (r_id r) (fun o => o_set_p1 o 1) in
      Ok (mkLfu c (<[1 := mkNode (fn_n one + 1) (fn_q one ++ [r_id r])]> (l_fm s)) 1 (l_max s))
  end.

(** LFU.c:347-365 (get_min_freq_node): the new min_freq and the node. *)
Definition lfu_min_node (s : lfu_state) : res (Z * fnode) :=
  let mn := if decide (l_min s = 1) then 1
            else if decide (l_min s = 0) then lfu_update_min (l_fm s) 0 (l_max s) else l_min s in
  match l_fm s !! mn with
  | None => Err NullDeref
  | Some nd => Ok (mn, nd)
  end.

(** LFU.c:256-260 *)
Definition lfu_to_evict (s : lfu_state) (_ : req) : res (lfu_state * option Z) :=
  let! (mn, nd) := lfu_min_node s in
  Ok (mkLfu (l_c s) (l_fm s) mn (l_max s), head (fn_q nd)).

(** LFU.c:270-292; remove_obj_from_list dereferences the object, so an empty
    node is a NULL dereference. *)
Definition lfu_evict (s : lfu_state) (_ : req) : res lfu_state :=
  let! (mn, nd) := lfu_min_node s in
  match fn_q nd with
  | [] => Err NullDeref
  | v :: q =>
      let nd := mkNode (fn_n nd - 1) (q_del v (v :: q)) in
      let mn' := if decide (fn_n nd = 0) then 0 else mn in
      let! c := cache_evict_base (l_c s) v in
      Ok (mkLfu c (<[mn := nd]> (l_fm s)) mn' (l_max s))
  end.

(** LFU.c:294-312, 327-336 *)
Definition lfu_remove (s : lfu_state) (id : Z) : res (lfu_state * bool) :=
  match c_tbl (l_c s) !! id with
  | None => Ok (s, false)
  | Some o =>
      match l_fm s !! o_p1 o with
      | None => Err NullDeref
      | Some nd =>
          let nd := mkNode (fn_n nd - 1) (q_del id (fn_q nd)) in
          let fm := <[o_p1 o := nd]> (l_fm s) in
          let! c := cache_remove_obj_base (l_c s) id in
          let mn := if decide (o_p1 o = l_min s /\ fn_n nd = 0)
                    then lfu_update_min fm (l_min s) (l_max s) else l_min s in
          Ok (mkLfu c fm mn (l_max s), true)
      end
  end.

Definition lfu_ops : ops lfu_state :=
  mkOps lfu_find lfu_can_insert lfu_insert lfu_evict lfu_to_evict lfu_remove
        (fun s => c_occ (l_c s)) (fun s => c_nobj (l_c s)) (fun s => c_size (l_c s))
        (fun s => c_md (l_c s))
        (fun s => mkLfu (c_incr_nreq (l_c s)) (l_fm s) (l_min s) (l_max s)).
