(** Cacheus and its two experts: cache/eviction/CR_LFU.c, SR_LRU.c, Cacheus.c.

    Simplifications: int64_t frequencies and counters are unbounded integers
    (except where a comparison would depend on it); the doubles of Cacheus.c
    (weights and learning rate) are an abstract state, see the last section. *)
From stdpp Require Import gmap list numbers fin_maps.
From Verif Require Import Base Driver ModelQueue ModelLFU ModelTwoQ ModelS3FIFO.
Open Scope Z_scope.

(** * CR_LFU.  The state is that of LFU (ModelLFU.v); [o_p1] is lfu.freq.  The
    history [h] is the H_list of the SR_LRU that Cacheus links to it
    (other_cache), where [o_p1] is CR_LFU.freq. *)

(** CR_LFU.c:49-86 *)
Definition cr_init (consider_md : bool) (size : Z) (adm : admissioner) : lfu_state := lfu_init consider_md size adm.

(** CR_LFU.c:140-209.  Unlike in LFU.c an empty node stays in the map. *)
Definition cr_find (s : lfu_state) (r : req) (u : bool) : res (lfu_state * bool) :=
  let '(c, b) := cache_find_base (l_c s) r u in
  if (b && u)%bool then
    match c_tbl c !! r_id r with
    | None => Err UseAfterFree
    | Some o =>
        let f := o_p1 o + 1 in
        let c := c_upd c (r_id r) (fun o => o_set_p1 o f) in
        let mx := if decide (l_max s < f) then f else l_max s in
        match l_fm s !! (f - 1) with
        | None => Err NullDeref
        | Some old =>
            let old := mkNode (fn_n old - 1) (q_del (r_id r) (fn_q old)) in
            let fm := <[f - 1 := old]> (l_fm s) in
            let new := match fm !! f with Some nd => nd | None => mkNode 0 [] end in
            let fm := <[f := mkNode (fn_n new + 1) (fn_q new ++ [r_id r])]> fm in
            let mn := if decide (l_min s = f - 1 /\ fn_n old = 0) then lfu_update_min fm (l_min s) mx else l_min s in
            Ok (mkLfu c fm mn mx, true)
        end
    end
  else Ok (mkLfu c (l_fm s) (l_min s) (l_max s), b).

(** cache_can_insert_default, the default of cache_struct_init *)
Definition cr_can_insert (s : lfu_state) (r : req) : res (lfu_state * bool) :=
  let '(c, b) := cache_can_insert_default (l_c s) r in
  Ok (mkLfu c (l_fm s) (l_min s) (l_max s), b).

(** CR_LFU.c:221-304: an object that the history remembers starts with one more
    than its old frequency. *)
Definition cr_insert (s : lfu_state) (h : option qstate) (r : req) : res lfu_state :=
  let! c := cache_insert_base (l_c s) r in
  let f := match h with
           | None => 1
           | Some h => match c_tbl (q_c h) !! r_id r with
                       | Some o => o_p1 o + 1
                       | None => 1
                       end
           end in
  let c := c_upd c (r_id r) (fun o => o_set_p1 o f) in
  let mn := if decide (f = 1) then 1 else l_min s in
  let new := match l_fm s !! f with Some nd => nd | None => mkNode 0 [] end in
  let fm := <[f := mkNode (fn_n new + 1) (fn_q new ++ [r_id r])]> (l_fm s) in
  let mx := if decide (l_max s < f) then f else l_max s in
  let mn := if decide (mn > f \/ mn = -1) then f else mn in
  Ok (mkLfu c fm mn mx).

(** CR_LFU.c:306-319 *)
Definition cr_to_evict (s : lfu_state) (_ : req) : res (lfu_state * option Z) :=
  match l_fm s !! l_min s with
  | None => Err NullDeref
  | Some nd => Ok (s, last (fn_q nd))
  end.

(** CR_LFU.c:334-343, 395-406: the frequency is written down in the history. *)
Definition cr_note (h : option qstate) (id f : Z) : res (option qstate) :=
  match h with
  | None => Ok None
  | Some h => match c_tbl (q_c h) !! id with
              | None => Err NullDeref
              | Some _ => Ok (Some (q_upd h id (fun o => o_set_p1 o f)))
              end
  end.

(** CR_LFU.c:321-383: the youngest object of the lowest frequency. *)
Definition cr_evict (s : lfu_state) (h : option qstate) : res (lfu_state * option qstate) :=
  match l_fm s !! l_min s with
  | None => Err NullDeref
  | Some nd =>
      match last (fn_q nd) with
      | None => Err NullDeref
      | Some v =>
          match c_tbl (l_c s) !! v with
          | None => Err UseAfterFree
          | Some o =>
              let! h := cr_note h v (o_p1 o) in
              let nd' := mkNode (fn_n nd - 1) (removelast (fn_q nd)) in
              let fm := <[l_min s := nd']> (l_fm s) in
              let mn := if decide (length (fn_q nd) = 1%nat) then
                          let mn := lfu_update_min fm (l_min s) (l_max s) in
                          if decide (mn = l_min s) then -1 else mn
                        else l_min s in
              let! c := cache_remove_obj_base (l_c s) v in
              Ok (mkLfu c fm mn (l_max s), h)
          end
      end
  end.

(** CR_LFU.c:385-447.  418-421 dereferences the node of min_freq. *)
Definition cr_remove (s : lfu_state) (h : option qstate) (id : Z) : res (lfu_state * option qstate * bool) :=
  match c_tbl (l_c s) !! id with
  | None => Ok (s, h, false)
  | Some o =>
      let! h := cr_note h id (o_p1 o) in
      match l_fm s !! o_p1 o with
      | None => Err NullDeref
      | Some nd =>
          let fm := <[o_p1 o := mkNode (fn_n nd - 1) (q_del id (fn_q nd))]> (l_fm s) in
          let! c := cache_remove_obj_base (l_c s) id in
          match fm !! l_min s with
          | None => Err NullDeref
          | Some mnd =>
              let mn := if decide (fn_n mnd = 0) then lfu_update_min fm (l_min s) (l_max s) else l_min s in
              Ok (mkLfu c fm mn (l_max s), h, true)
          end
      end
  end.

(** CR_LFU on its own (other_cache = NULL). *)
Definition cr_ops : ops lfu_state :=
  mkOps cr_find cr_can_insert (fun s r => cr_insert s None r)
        (fun s _ => let! (s, _) := cr_evict s None in Ok s) cr_to_evict
        (fun s id => let! (s, _, b) := cr_remove s None id in Ok (s, b))
        (fun s => c_occ (l_c s)) (fun s => c_nobj (l_c s)) (fun s => c_size (l_c s))
        (fun s => c_md (l_c s))
        (fun s => mkLfu (c_incr_nreq (l_c s)) (l_fm s) (l_min s) (l_max s)).

(** * SR_LRU.  In R_list and SR_list [o_p2] is SR_LRU.new_obj and [o_p3] is
    SR_LRU.demoted (0 = false), as in H_list, whose flags nothing reads. *)

(** include/libCacheSim/evictionAlgo/Cacheus.h:9-17, SR_LRU.c:44-80 *)
Record sr : Type := mkSR {
  sr_R : qstate;
  sr_S : qstate;      (* SR_list *)
  sr_H : qstate;
  sr_cd : Z;          (* C_demoted *)
  sr_cn : Z           (* C_new *)
}.

Definition sr_init (consider_md : bool) (size : Z) : sr :=
  mkSR (lru_init consider_md (size / 2) AdmNone) (lru_init consider_md (size / 2) AdmNone)
       (lru_init consider_md size AdmNone) 0 0.

Definition q_set_size (q : qstate) (z : Z) : qstate :=
  let c := q_c q in
  mkQ (mkCache z (c_md c) (c_nreq c) (c_nobj c) (c_occ c) (c_tbl c) (c_adm c)) (q_q q).

Definition sr_occ (s : sr) : Z := q_occ (sr_R s) + q_occ (sr_S s).

(** SR_LRU.c:174-184 and 245-260: objects go from the tail of R_list to SR_list
    until [need] more bytes fit. *)
Fixpoint sr_demote (fuel : nat) (need : Z) (R Q : qstate) (cd : Z) : res (qstate * qstate * Z) :=
  if decide (q_occ R + need > q_size R) then
    match fuel with
    | 0%nat => Err OutOfFuel
    | S k =>
        match last (q_q R) with
        | None => Err NullDeref
        | Some v =>
            match c_tbl (q_c R) !! v with
            | None => Err UseAfterFree
            | Some o =>
                let! Q := q_insert Q (req_of_obj v o) in
                let '(Q, cd) := if decide (o_p3 o = 0) then (q_upd Q v (fun o => o_set_p3 o 1), u64 (cd + 1)) else (Q, cd) in
                let! R := q_evict_tail R (req_of_obj v o) in
                sr_demote k need R Q cd
            end
        end
    end
  else Ok (R, Q, cd).

(** SR_LRU.c:190-208: twice the double [delta] is an integer. *)
Definition sr_delta2 (a b : Z) : Z := Z.max 2 (2 * (a / b) + 1).

(** SR_LRU.c:149-215.  The object found in SR_list is copied to R_list; the
    adaptation 190-208 looks at the copy. *)
Definition sr_find (s : sr) (r : req) (u : bool) : res (sr * bool) :=
  let! (R, bR) := lru_find (sr_R s) r u in
  let! (Q, bS) := lru_find (sr_S s) r u in
  if (bS && u && negb bR)%bool then
    match c_tbl (q_c Q) !! r_id r with
    | None => Err UseAfterFree
    | Some o =>
        let! R := q_insert R (req_of_obj (r_id r) o) in
        let! (Q, _) := q_remove Q (r_id r) in
        let! (R, Q, cd) := sr_demote (length (q_q R)) 0 R Q (sr_cd s) in
        match c_tbl (q_c R) !! r_id r with
        | None => Err UseAfterFree
        | Some oR =>
            if decide (o_p3 oR = 0) then Ok (mkSR R Q (sr_H s) cd (sr_cn s), true)
            else if decide (cd = 0) then Err DivByZero
            else
              let d := sr_delta2 (sr_cn s) cd in
              let z := if decide (2 * q_size Q - d > 2) then Z.quot (2 * q_size Q - d) 2 else 1 in
              let Q := q_set_size Q z in
              let R := q_set_size R (q_size (sr_H s) - z) in
              let R := q_upd R (r_id r) (fun o => o_set_p3 o 0) in
              Ok (mkSR R Q (sr_H s) (u64 (cd - 1)) (sr_cn s), true)
        end
    end
  else Ok (mkSR R Q (sr_H s) (sr_cd s) (sr_cn s), (bR || bS)%bool).

(** SR_LRU.c:458-478.  [md] is the obj_md_size of the SR_LRU itself. *)
Definition sr_can_insert (md : Z) (s : sr) (r : req) : res bool :=
  let! (_, hist) := lru_find (sr_H s) r false in
  Ok (if hist : bool then bool_decide (r_size r + md <= q_size (sr_R s))
      else bool_decide (r_size r + md <= q_size (sr_S s))).

(** SR_LRU.c:295-315: objects go from the tail of SR_list to the history until
    SR_list is within its size; the other cache drops them. *)
Fixpoint sr_shrink (fuel : nat) (Q H : qstate) (x : option lfu_state) (cd cn : Z)
    : res (qstate * qstate * option lfu_state * Z * Z) :=
  if decide (q_occ Q > q_size Q) then
    match fuel with
    | 0%nat => Err OutOfFuel
    | S k =>
        match last (q_q Q) with
        | None => Err NullDeref
        | Some v =>
            match c_tbl (q_c Q) !! v with
            | None => Err UseAfterFree
            | Some o =>
                let! H := q_insert H (req_of_obj v o) in
                let! (x, H) := match x with
                               | None => Ok (None, H)
                               | Some l => let! (l, h, _) := cr_remove l (Some H) v in Ok (Some l, default H h)
                               end in
                let '(H, cn) := if decide (o_p2 o = 0) then (H, cn) else (q_upd H v (fun o => o_set_p2 o 1), u64 (cn + 1)) in
                let '(H, cd) := if decide (o_p3 o = 0) then (H, cd) else (q_upd H v (fun o => o_set_p3 o 0), u64 (cd - 1)) in
                let! Q := q_evict_tail Q (req_of_obj v o) in
                sr_shrink k Q H x cd cn
            end
        end
    end
  else Ok (Q, H, x, cd, cn).

(** SR_LRU.c:317-319, 393-395, 451-453 *)
Fixpoint sr_trim (fuel : nat) (H : qstate) : res qstate :=
  if decide (q_occ H >= q_size H) then
    match fuel with
    | 0%nat => Err OutOfFuel
    | S k => let! H := q_evict_tail H (mkReq 0 0 0 0 0) in sr_trim k H
    end
  else Ok H.

(** SR_LRU.c:228-322; [x] is other_cache. *)
Definition sr_insert (md : Z) (s : sr) (x : option lfu_state) (r : req) : res (sr * option lfu_state) :=
  let! (_, hist) := lru_find (sr_H s) r false in
  let! (R, Q, H, cd) :=
    if hist : bool then
      let! (H, _) := q_remove (sr_H s) (r_id r) in
      let! (R, Q, cd) := sr_demote (length (q_q (sr_R s))) (r_size r + md) (sr_R s) (sr_S s) (sr_cd s) in
      let! R := q_insert R r in
      match c_tbl (q_c R) !! r_id r with
      | None => Err NullDeref
      | Some o =>
          if decide (o_p2 o = 0) then Ok (R, Q, H, cd)
          else if decide (sr_cn s = 0) then Err DivByZero
          else
            let d := sr_delta2 cd (sr_cn s) in
            let occ := q_occ R + q_occ Q in
            let z := if decide (2 * q_size Q + d > 2 * (occ - 1)) then occ - 1 else Z.quot (2 * q_size Q + d) 2 in
            let Q := q_set_size Q z in
            let R := q_set_size R (q_size H - z) in
            Ok (q_upd R (r_id r) (fun o => o_set_p2 o 0), Q, H, cd)
      end
    else
      let! Q := q_insert (sr_S s) r in
      Ok (sr_R s, q_upd Q (r_id r) (fun o => o_set_p2 o 1), sr_H s, sr_cd s) in
  let! (Q, H, x, cd, cn) := sr_shrink (length (q_q Q)) Q H x cd (sr_cn s) in
  let! H := sr_trim (S (length (q_q H))) H in
  Ok (mkSR R Q H cd cn, x).

(** SR_LRU.c:334-352 *)
Definition sr_to_evict (s : sr) : option Z :=
  if decide (q_occ (sr_S s) = 0) then last (q_q (sr_R s)) else last (q_q (sr_S s)).

(** SR_LRU.c:375-383, 436-443: the flags that go to the history with the object. *)
Definition sr_flags (H : qstate) (v : Z) (o : cobj) (d cd cn : Z) : qstate * Z * Z :=
  let '(H, cn) := if decide (o_p2 o = 0) then (H, cn) else (q_upd H v (fun o => o_set_p2 o 1), u64 (cn + 1)) in
  let '(H, cd) := if decide (o_p3 o = 0) then (H, cd) else (q_upd H v (fun o => o_set_p3 o d), u64 (cd - 1)) in
  (H, cd, cn).

(** SR_LRU.c:363-396 *)
Definition sr_evict (s : sr) (r : req) : res sr :=
  match sr_to_evict s with
  | None => Err AssertFail
  | Some v =>
      match c_tbl (q_c (if decide (q_occ (sr_S s) = 0) then sr_R s else sr_S s)) !! v with
      | None => Err UseAfterFree
      | Some o =>
          let! H := q_insert (sr_H s) (req_of_obj v o) in
          let '(H, cd, cn) := sr_flags H v o 1 (sr_cd s) (sr_cn s) in
          let! (R, Q) := if decide (q_occ (sr_S s) > 0) then let! Q := q_evict_tail (sr_S s) r in Ok (sr_R s, Q)
                         else let! R := q_evict_tail (sr_R s) r in Ok (R, sr_S s) in
          let! H := sr_trim (S (length (q_q H))) H in
          Ok (mkSR R Q H cd cn)
      end
  end.

(** SR_LRU.c:411-456.  Also a removed object goes to the history. *)
Definition sr_remove (s : sr) (id : Z) : res (sr * bool) :=
  match (match c_tbl (q_c (sr_R s)) !! id with
         | Some o => Some (o, true)
         | None => match c_tbl (q_c (sr_S s)) !! id with
                   | Some o => Some (o, false)
                   | None => None
                   end
         end) with
  | None => Ok (s, false)
  | Some (o, inR) =>
      let! H := q_insert (sr_H s) (req_of_obj id o) in
      let '(H, cd, cn) := sr_flags H id o 0 (sr_cd s) (sr_cn s) in
      let! (R, Q) := if inR : bool then let! (R, _) := q_remove (sr_R s) id in Ok (R, sr_S s)
                     else let! (Q, _) := q_remove (sr_S s) id in Ok (sr_R s, Q) in
      let! H := sr_trim (S (length (q_q H))) H in
      Ok (mkSR R Q H cd cn, true)
  end.

(** * Cacheus.  The weights w_lru, w_lfu, the learning rate and what it is computed
    from (Cacheus.c:20-23, 26, 29), and the state of next_rand() are one abstract
    value: [reweigh hl hf] is update_weight (346-363) when the object is in the
    first, second expert's list of evictions; [relearn z] is update_lr (365-408)
    with hit_rate_current = z, an integer because num_hit and update_interval are
    (368); [draw] is [r < w_lru] (253-254). *)
Section Cacheus.
  Context {W : Type} (reweigh : bool -> bool -> W -> W) (relearn : Z -> W -> W) (draw : W -> bool * W).

  (** Cacheus.c:15-33 and the outer cache_t: of [cu_c] size, obj_md_size, n_req and
      the admission policy are used.  [cu_cand] and [cu_gen] are
      to_evict_candidate (of which expert, which object) and
      to_evict_candidate_gen_vtime. *)
  Record cacheus : Type := mkCU {
    cu_c    : cache;
    cu_sr   : sr;          (* LRU *)
    cu_lfu  : lfu_state;   (* LFU *)
    cu_gl   : qstate;      (* LRU_g *)
    cu_gf   : qstate;      (* LFU_g *)
    cu_hit  : Z;           (* num_hit *)
    cu_w    : W;
    cu_cand : bool * option Z;
    cu_gen  : Z
  }.

  (** Cacheus.c:71-129.  Simplification: the ghost size (123-124) is the exact half.
      cache_struct_init sets gen_vtime to -1 and to_evict_candidate to NULL
      (cache.c:41-42). *)
  Definition cu_init (md : bool) (size : Z) (adm : admissioner) (w : W) : cacheus :=
    mkCU (cache_init size (if md then 40 else 0) adm) (sr_init md size) (cr_init md size AdmNone)
         (lru_init md (size / 2) AdmNone) (lru_init md (size / 2) AdmNone) 0 w (true, None) (-1).

  Definition cu_upd (s : cacheus) (x : sr) (l : lfu_state) : cacheus :=
    mkCU (cu_c s) x l (cu_gl s) (cu_gf s) (cu_hit s) (cu_w s) (cu_cand s) (cu_gen s).

  (** the obj_md_size of the SR_LRU (SR_LRU.c:59-63) *)
  Definition cu_srmd (s : cacheus) : Z := if decide (c_md (cu_c s) = 0) then 0 else 2.

  (** Cacheus.c:195-221, 411-422 *)
  Definition cu_find (s : cacheus) (r : req) (u : bool) : res (cacheus * bool) :=
    let! (x, b) := sr_find (cu_sr s) r u in
    let! (l, _) := cr_find (cu_lfu s) r u in
    let s := cu_upd s x l in
    if u then
      if b : bool then
        Ok (mkCU (cu_c s) (cu_sr s) (cu_lfu s) (cu_gl s) (cu_gf s) (cu_hit s + 1) (cu_w s) (cu_cand s) (cu_gen s), true)
      else
        let! (gl, hl) := lru_find (cu_gl s) r false in
        let! (gf, hf) := lru_find (cu_gf s) r false in
        let! (gl, _) := q_remove gl (r_id r) in
        let! (gf, _) := q_remove gf (r_id r) in
        Ok (mkCU (cu_c s) (cu_sr s) (cu_lfu s) gl gf (cu_hit s) (reweigh hl hf (cu_w s)) (cu_cand s) (cu_gen s), false)
    else Ok (s, b).

  (** 86: can_insert is the default one *)
  Definition cu_can_insert (s : cacheus) (r : req) : res (cacheus * bool) :=
    let '(c, b) := cache_can_insert_default (cu_c s) r in
    Ok (mkCU c (cu_sr s) (cu_lfu s) (cu_gl s) (cu_gf s) (cu_hit s) (cu_w s) (cu_cand s) (cu_gen s), b).

  (** Cacheus.c:233-245 *)
  Definition cu_insert (s : cacheus) (r : req) : res cacheus :=
    let! ok := sr_can_insert (cu_srmd s) (cu_sr s) r in
    if ok : bool then
      let! l := cr_insert (cu_lfu s) (Some (sr_H (cu_sr s))) r in
      let! (x, l') := sr_insert (cu_srmd s) (cu_sr s) (Some l) r in
      Ok (cu_upd s x (default l l'))
    else Ok s.

  (** Cacheus.c:248-260 *)
  Definition cu_to_evict (s : cacheus) (r : req) : res (cacheus * option Z) :=
    let '(b, w) := draw (cu_w s) in
    let! v := if b : bool then Ok (sr_to_evict (cu_sr s))
              else let! (_, v) := cr_to_evict (cu_lfu s) r in Ok v in
    Ok (mkCU (cu_c s) (cu_sr s) (cu_lfu s) (cu_gl s) (cu_gf s) (cu_hit s) w (b, v) (c_nreq (cu_c s)), v).

  (** The object of one of the experts. *)
  Definition cu_obj (s : cacheus) (lru : bool) (id : Z) : option cobj :=
    if lru then match c_tbl (q_c (sr_S (cu_sr s))) !! id with
                | Some o => Some o
                | None => c_tbl (q_c (sr_R (cu_sr s))) !! id
                end
    else c_tbl (l_c (cu_lfu s)) !! id.

  (** Cacheus.c:270-315.  Simplification: a candidate that an earlier to_evict has
      left is known by its expert and id; C compares pointers. *)
  Definition cu_evict (s : cacheus) (r : req) : res cacheus :=
    let vl := sr_to_evict (cu_sr s) in
    let! (_, vf) := cr_to_evict (cu_lfu s) r in
    let! s := if decide (cu_gen s = c_nreq (cu_c s)) then Ok s
              else let! (s, _) := cu_to_evict s r in Ok s in
    match vl, vf with
    | Some vl, Some vf =>
        if decide (vl = vf) then
          let! x := sr_evict (cu_sr s) r in
          let! (l, h) := cr_evict (cu_lfu s) (Some (sr_H x)) in
          let x := mkSR (sr_R x) (sr_S x) (default (sr_H x) h) (sr_cd x) (sr_cn x) in
          Ok (mkCU (cu_c s) x l (cu_gl s) (cu_gf s) (cu_hit s) (cu_w s) (cu_cand s) (-1))
        else if decide (cu_cand s = (true, Some vl)) then
          match cu_obj s true vl with
          | None => Err UseAfterFree
          | Some o =>
              let! x := sr_evict (cu_sr s) r in
              let! (l, h, _) := cr_remove (cu_lfu s) (Some (sr_H x)) vl in
              let x := mkSR (sr_R x) (sr_S x) (default (sr_H x) h) (sr_cd x) (sr_cn x) in
              let! (gl, _) := sub_get lru_ops (cu_gl s) (req_of_obj vl o) in
              Ok (mkCU (cu_c s) x l gl (cu_gf s) (cu_hit s) (cu_w s) (cu_cand s) (-1))
          end
        else
          match snd (cu_cand s) with
          | None => Err NullDeref
          | Some v =>
              match cu_obj s (fst (cu_cand s)) v with
              | None => Err UseAfterFree
              | Some o =>
                  let! (x, _) := sr_remove (cu_sr s) v in
                  let! (l, h) := cr_evict (cu_lfu s) (Some (sr_H x)) in
                  let x := mkSR (sr_R x) (sr_S x) (default (sr_H x) h) (sr_cd x) (sr_cn x) in
                  let! (gf, _) := sub_get lru_ops (cu_gf s) (req_of_obj v o) in
                  Ok (mkCU (cu_c s) x l (cu_gl s) gf (cu_hit s) (cu_w s) (cu_cand s) (-1))
              end
          end
    | _, _ => Err NullDeref
    end.

  (** Cacheus.c:317-324 *)
  Definition cu_remove (s : cacheus) (id : Z) : res (cacheus * bool) :=
    let! (x, b) := sr_remove (cu_sr s) id in
    let! (l, h, _) := cr_remove (cu_lfu s) (Some (sr_H x)) id in
    let x := mkSR (sr_R x) (sr_S x) (default (sr_H x) h) (sr_cd x) (sr_cn x) in
    Ok (cu_upd s x l, b).

  Definition cu_ops : ops cacheus :=
    mkOps cu_find cu_can_insert cu_insert cu_evict cu_to_evict cu_remove
      (fun s => sr_occ (cu_sr s))
      (fun s => q_nobj (sr_R (cu_sr s)) + q_nobj (sr_S (cu_sr s)))
      (fun s => c_size (cu_c s)) (fun s => c_md (cu_c s))
      (fun s => mkCU (c_incr_nreq (cu_c s)) (cu_sr s) (cu_lfu s) (cu_gl s) (cu_gf s) (cu_hit s) (cu_w s) (cu_cand s) (cu_gen s)).

  (** Cacheus.c:161-177; update_interval is the cache size (99). *)
  Definition cu_get (fuel : nat) (s : cacheus) (r : req) : res (cacheus * bool) :=
    let! (s, b) := cache_get_base cu_ops fuel s r in
    if decide (c_size (cu_c s) = 0) then Err DivByZero
    else if decide (c_nreq (cu_c s) mod c_size (cu_c s) = 0) then
      Ok (mkCU (cu_c s) (cu_sr s) (cu_lfu s) (cu_gl s) (cu_gf s) 0
            (relearn (cu_hit s / c_size (cu_c s)) (cu_w s)) (cu_cand s) (cu_gen s), b)
    else Ok (s, b).

  (** The client's calls, with Cacheus_get. *)
  Definition cu_step (fuel : nat) (s : cacheus) (c : call) : res (cacheus * obs) :=
    match c with
    | CGet r => let! (s, b) := cu_get fuel s r in Ok (s, OBool b)
    | _ => step cu_ops fuel s c
    end.

  Fixpoint cu_run (fuel : nat) (s : cacheus) (cs : list call) : res (cacheus * list obs) :=
    match cs with
    | [] => Ok (s, [])
    | c :: cs =>
        let! (s, o) := cu_step fuel s c in
        let! (s, os) := cu_run fuel s cs in
        Ok (s, o :: os)
    end.
End Cacheus.
Arguments cacheus : clear implicits.
