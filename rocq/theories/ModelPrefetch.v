(** Prefetchers: the hooks of cache/cache.c, cache/prefetch/OBL.c and
    cache/prefetch/PG.c, around any cache. *)
From stdpp Require Import gmap list numbers fin_maps.
From Verif Require Import Base Driver ModelPQ.
Open Scope Z_scope.

(** include/libCacheSim/prefetchAlgo.h:24-33 (struct prefetcher): handle_find
    and prefetch.  handle_insert is NULL in both prefetchers; handle_evict
    (PG.c:144-148) only updates the set [prefetched], which serves to count
    num_of_hit and is read by nothing else, so both are left out. *)
Record prefetcher (S P : Type) : Type := mkPf {
  pf_find     : P -> req -> bool -> res P;
  pf_prefetch : S * P -> req -> res (S * P)
}.
Arguments pf_find {S P}. Arguments pf_prefetch {S P}. Arguments mkPf {S P}.

Section Hooks.
  Context {S P : Type} (O : ops S).

  (** The C loops that evict have no bound; here they may take one step per
      object and one more, and otherwise report [OutOfFuel]. *)
  Definition steps_of (s : S) : nat := Datatypes.S (Z.to_nat (op_nobj O s)).

  (** cache/cache.c:225-254 (cache_get_base) with the hook of
      cache/cache.c:181-184 (cache_find_base): the real request of a get, and
      no other lookup of it, is shown to the prefetcher.  For caches whose
      find calls cache_find_base once.  handle_find does not look at the
      cache, so calling it after the find makes no difference. *)
  Definition pf_get (F : prefetcher S P) (sp : S * P) (r : req) : res ((S * P) * bool) :=
    let '(s, p) := sp in
    let s := op_tick O s in
    let! (s, hit) := op_find O s r true in
    let! p := pf_find F p r hit in
    let! s :=
      if hit : bool then Ok s
      else
        let! (s, ok) := op_can_insert O s r in
        if ok : bool then
          let! s := evict_loop O (steps_of s) s r in
          op_insert O s r
        else Ok s in
    let! sp := pf_prefetch F (s, p) r in
    Ok (sp, hit).

  Fixpoint pf_run (F : prefetcher S P) (sp : S * P) (rs : list req) : res ((S * P) * list bool) :=
    match rs with
    | [] => Ok (sp, [])
    | r :: rs =>
        let! (sp, h) := pf_get F sp r in
        let! (sp, hs) := pf_run F sp rs in
        Ok (sp, h :: hs)
    end.
End Hooks.

(** ** OBL.c *)

Definition u64 (x : Z) : Z := x mod 2 ^ 64.

(** include/libCacheSim/prefetchAlgo/OBL.h:11-21 (OBL_params_t).
    Simplification: block_size is not negative. *)
Record obl : Type := mkObl {
  ob_bs   : Z;       (* block_size *)
  ob_k    : nat;     (* sequential_confidence_k *)
  ob_do   : bool;    (* do_prefetch *)
  ob_idx  : nat;     (* curr_idx *)
  ob_prev : list Z   (* prev_access_block *)
}.

(** OBL.c:63-76 (set_OBL_params): UINT64_MAX in every slot.  The program exits
    unless k is positive (67-70). *)
Definition obl_init (bs : Z) (k : nat) : obl := mkObl bs k false 0 (replicate k (2 ^ 64 - 1)).

(** OBL.c:97-103: compare the ring with the k ids before this one; [n] slots
    are left, the loop counter is k - n. *)
Fixpoint obl_check (p : obl) (id : Z) (n : nat) : res bool :=
  match n with
  | 0%nat => Ok true
  | Datatypes.S n' =>
      let i := (ob_k p - n)%nat in
      match ob_prev p !! ((ob_idx p + 1 + i) mod ob_k p)%nat with
      | None => Err OutOfBounds
      | Some b =>
          if decide (b = u64 (id - Z.of_nat (ob_k p) + Z.of_nat i)) then obl_check p id n'
          else Ok false
      end
  end.

(** OBL.c:91-107 (OBL_handle_find) *)
Definition obl_find (p : obl) (r : req) (hit : bool) : res obl :=
  let! flag := obl_check p (r_id r) (ob_k p) in
  let idx := ((ob_idx p + 1) mod ob_k p)%nat in
  if decide (idx < length (ob_prev p))%nat
  then Ok (mkObl (ob_bs p) (ob_k p) flag idx (<[idx := r_id r]> (ob_prev p)))
  else Err OutOfBounds.

(** OBL.c:121-123: new_request (request.h:71-83) with the block size and the
    next id. *)
Definition obl_req (bs : Z) (r : req) : req := mkReq (u64 (r_id r + 1)) bs 0 (-2) 0.

Section OBL.
  Context {S : Type} (O : ops S).

  (** OBL.c:128-130: no metadata in the test *)
  Fixpoint obl_loop (fuel : nat) (bs : Z) (s : S) (r : req) : res S :=
    if decide (op_occupied O s + bs > op_size O s) then
      match fuel with
      | 0%nat => Err OutOfFuel
      | Datatypes.S n => let! s := op_evict O s r in obl_loop n bs s r
      end
    else Ok s.

  (** OBL.c:116-134 (OBL_prefetch) *)
  Definition obl_prefetch (sp : S * obl) (r : req) : res (S * obl) :=
    let '(s, p) := sp in
    if ob_do p then
      let p := mkObl (ob_bs p) (ob_k p) false (ob_idx p) (ob_prev p) in
      let r' := obl_req (ob_bs p) r in
      let! (s, found) := op_find O s r' false in
      if found : bool then Ok (s, p)
      else
        let! s := obl_loop (steps_of O s) (ob_bs p) s r in
        let! s := op_insert O s r' in
        Ok (s, p)
    else Ok (s, p).

  (** OBL.c:151-178 (create_OBL_prefetcher) *)
  Definition OBL : prefetcher S obl := mkPf obl_find obl_prefetch.
End OBL.

(** ** PG.c *)

(** PG.h:62-66 (graphNode_t).  The nodes of the hash table [graph] are the
    allocated nodes of the heap, which are never freed while the prefetcher
    lives: [pq_pri] of [gn_pq] is the hash table. *)
Record gnode : Type := mkGn { gn_pq : pq; gn_total : Z }.

(** PG.h:38-60 (PG_params_t), without [prefetched] and the counters.
    [pg_n] counts the calls of handle_find; see [lbl] below. *)
Record pg : Type := mkPg {
  pg_L     : nat;              (* lookahead_range *)
  pg_past  : list Z;           (* past_requests *)
  pg_ptr   : nat;              (* past_request_pointer *)
  pg_graph : gmap Z gnode;
  pg_md    : Z;                (* cur_metadata_size *)
  pg_max   : Z;                (* max_metadata_size *)
  pg_stop  : bool;             (* stop_recording *)
  pg_sizes : gmap Z Z;         (* cache_size_map *)
  pg_n     : nat
}.

(** PG.c:84-102 (set_PG_params).  [max] is the product of line 88. *)
Definition pg_init (L : nat) (max : Z) : pg := mkPg L (replicate L 0) 0 ∅ 0 max false ∅ 0.

(** GPOINTER_TO_INT: the low 32 bits as a signed number. *)
Definition int32 (x : Z) : Z := (x + 2 ^ 31) mod 2 ^ 32 - 2 ^ 31.

Section PG.
  (** PG.c:273 reads current_req_lbl[0], a local array that is never written:
      whether the byte is non-zero is the environment's choice at every
      call. *)
  Context (lbl : nat -> bool).
  (** PG.c:356: (double) pri / total_count > prefetch_threshold, in floating
      point. *)
  Context (above : Z -> Z -> bool).

  (** PG.c:301-304: pri.pri++ in the node, then pqueue_change_priority with the
      value that is already there. *)
  Definition pg_bump (q : pq) (b p : Z) : res pq :=
    pq_change (mkPq (pq_d q) (pq_sz q) (<[b := p + 1]> (pq_pri q)) (pq_pos q)) b (p + 1).

  (** PG.c:294-326: the loop over past_requests; the boolean is false when
      the function returned from inside the loop. *)
  Fixpoint pg_count (stop : bool) (blocks : list Z) (g : gnode) (md : Z) : res (gnode * Z * bool) :=
    match blocks with
    | [] => Ok (g, md, true)
    | b :: blocks =>
        let g := mkGn (gn_pq g) (gn_total g + 1) in
        if decide (b = 0) then Ok (g, md, true)
        else
          match pq_pri (gn_pq g) !! b with
          | Some p =>
              let! q := pg_bump (gn_pq g) b p in
              pg_count stop blocks (mkGn q (gn_total g)) md
          | None =>
              if stop then Ok (g, md, false)
              else
                let! q := pq_insert (gn_pq g) b 1 in
                pg_count stop blocks (mkGn q (gn_total g)) (md + 32)
          end
    end.

  (** PG.c:257-331 (_PG_add_to_graph) *)
  Definition pg_add (p : pg) (r : req) : res pg :=
    match pg_past p !! pg_ptr p with
    | None => Err OutOfBounds
    | Some cur =>
        let node := if decide (cur = 0) then None else pg_graph p !! cur in
        let past := <[pg_ptr p := r_id r]> (pg_past p) in
        let ptr := ((pg_ptr p + 1) mod pg_L p)%nat in
        let p1 := mkPg (pg_L p) past ptr (pg_graph p) (pg_md p) (pg_max p) (pg_stop p)
                       (pg_sizes p) (pg_n p + 1) in
        if negb (lbl (pg_n p)) && bool_decide (cur = 0) then Ok p1
        else
          match (match node with
                 | Some g => Some (g, pg_md p)
                 | None => if pg_stop p then None else Some (mkGn pq_empty 0, pg_md p + 32)
                 end) with
          | None => Ok p1
          | Some (g, md) =>
              let! (g, md, whole) := pg_count (pg_stop p) past g md in
              Ok (mkPg (pg_L p) past ptr (<[cur := g]> (pg_graph p)) md (pg_max p)
                       (pg_stop p || (whole && bool_decide (pg_max p <= md)))
                       (pg_sizes p) (pg_n p + 1))
          end
    end.

  (** PG.c:120-135 (PG_handle_find) *)
  Definition pg_find (p : pg) (r : req) (hit : bool) : res pg :=
    pg_add (mkPg (pg_L p) (pg_past p) (pg_ptr p) (pg_graph p) (pg_md p) (pg_max p) (pg_stop p)
                 (<[r_id r := r_size r]> (pg_sizes p)) (pg_n p)) r.

  (** PG.c:351-364: pop while the top is above the threshold; the node that
      is not is popped all the same. *)
  Fixpoint pg_pops (fuel : nat) (q : pq) (total : Z) (acc : list Z) : res (pq * list Z) :=
    let! (q, o) := pq_pop q in
    match o with
    | None => Ok (q, acc)
    | Some x =>
        let! p := pq_getpri q x in
        if above p total then
          match fuel with
          | 0%nat => Err OutOfFuel
          | Datatypes.S n => pg_pops n q total (x :: acc)
          end
        else Ok (q, acc)
    end.

  (** PG.c:366-372: put the nodes of the list back *)
  Fixpoint pg_back (q : pq) (l : list Z) : res pq :=
    match l with
    | [] => Ok q
    | x :: l =>
        let! p := pq_getpri q x in
        let! q := pq_insert q x p in
        pg_back q l
    end.

  (** PG.c:341-376 (_PG_get_prefetch_list) *)
  Definition pg_list (p : pg) (r : req) : res (pg * list Z) :=
    match pg_graph p !! r_id r with
    | None => Ok (p, [])
    | Some g =>
        let! (q, l) := pg_pops (pq_sz (gn_pq g)) (gn_pq g) (gn_total g) [] in
        let! q := pg_back q l in
        Ok (mkPg (pg_L p) (pg_past p) (pg_ptr p) (<[r_id r := mkGn q (gn_total g)]> (pg_graph p))
                 (pg_md p) (pg_max p) (pg_stop p) (pg_sizes p) (pg_n p), l)
    end.

  (** PG.c:165-169: a copy of the request with the id and the size taken
      through GPOINTER_TO_INT; the size of an unknown id is 0. *)
  Definition pg_req (sizes : gmap Z Z) (r : req) (x : Z) : req :=
    let id := u64 (int32 x) in
    mkReq id (int32 (default 0 (sizes !! id))) (r_time r) (r_next r) (r_ttl r).

  Context {S : Type} (O : ops S).

  (** PG.c:170-180 *)
  Definition pg_fill (s : S) (r : req) : res S :=
    let! (s, found) := op_find O s r false in
    if found : bool then Ok s
    else
      let! s := evict_loop O (steps_of O s) s r in
      op_insert O s r.

  Fixpoint pg_fills (s : S) (rs : list req) : res S :=
    match rs with
    | [] => Ok s
    | r :: rs => let! s := pg_fill s r in pg_fills s rs
    end.

  (** PG.c:157-187 (PG_prefetch) *)
  Definition pg_prefetch (sp : S * pg) (r : req) : res (S * pg) :=
    let '(s, p) := sp in
    let! (p, l) := pg_list p r in
    let! s := pg_fills s (map (pg_req (pg_sizes p) r) l) in
    Ok (s, p).

  (** PG.c:209-238 (create_PG_prefetcher) *)
  Definition PG : prefetcher S pg := mkPf pg_find pg_prefetch.
End PG.
