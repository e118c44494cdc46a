(** The trace analyzer: traceAnalyzer/analyzer.cpp and the statistics it
    feeds.  All line numbers refer to files under /repo/libCacheSim.

    Not modelled here: the experimental statistics (traceAnalyzer/experimental;
    ModelExper.v has three of them).  Not modelled: the Zipf
    fit of popularity.cpp 55-85, the floating-point ratios printed by gen_stat_str,
    the text of the output files other than their numbers, the
    order of the lines of the access-pattern files. *)
From stdpp Require Import gmap list numbers fin_maps sorting.
From Verif Require Import Base.
Open Scope Z_scope.

(** include/libCacheSim/enum.h:108-128 (req_op_e). *)
Definition OP_SET : Z := 3.
Definition OP_CAS : Z := 5.
Definition OP_REPLACE : Z := 6.
Definition OP_DELETE : Z := 9.
Definition OP_INVALID : Z := 15.

(** include/libCacheSim/request.h:21-65: the fields of a request delivered by
    the reader that the analyzer reads. *)
Record areq : Type := mkA {
  a_time : Z;   (* int64_t clock_time *)
  a_id   : Z;   (* obj_id_t obj_id *)
  a_size : Z;   (* int64_t obj_size *)
  a_op   : Z;   (* req_op_e op *)
  a_ttl  : Z    (* int32_t ttl *)
}.

(** include/libCacheSim/request.h:71-84 (new_request). *)
Definition areq0 : areq := mkA 0 0 1 OP_INVALID 0.

(** The request after TraceAnalyzer::run has filled the analysis fields in
    (request.h:54-61). *)
Record ereq : Type := mkE {
  e_time  : Z;      (* clock_time, relative to the first request *)
  e_id    : Z;
  e_size  : Z;
  e_op    : Z;
  e_ttl   : Z;
  e_cold  : bool;   (* compulsory_miss *)
  e_over  : bool;   (* overwrite *)
  e_first : bool;   (* first_seen_in_window *)
  e_create : Z;     (* create_rtime *)
  e_vt    : Z;      (* vtime_since_last_access *)
  e_rt    : Z       (* rtime_since_last_access *)
}.

(** traceAnalyzer/struct.h:13-19 (obj_info). *)
Record oinfo : Type := mkOI {
  oi_vt     : Z;    (* last_access_vtime, int64_t *)
  oi_size   : Z;    (* obj_size, uint32_t *)
  oi_rt     : Z;    (* last_access_rtime, int32_t *)
  oi_freq   : Z;    (* freq, uint32_t *)
  oi_create : Z     (* create_rtime, int32_t *)
}.

(** traceAnalyzer/analyzer.h:144-169 and the locals of run
    (analyzer.cpp:94-95). *)
Record acore : Type := mkCore {
  k_n    : Z;                 (* n_req_ *)
  k_sumr : Z;                 (* sum_obj_size_req, uint64_t *)
  k_sumo : Z;                 (* sum_obj_size_obj, uint64_t *)
  k_map  : gmap Z oinfo;      (* obj_map_ *)
  k_idx  : Z;                 (* curr_time_window_idx, int32_t *)
  k_next : Z                  (* next_time_window_ts, int *)
}.

(** traceAnalyzer/analyzer.h:201 (time_to_window_idx): the argument is
    converted to uint32_t, the result to int. *)
Definition win_idx (tw rtime : Z) : Z := i32 (u32 rtime / tw).

(** traceAnalyzer/analyzer.cpp:105-108: the loop that moves to the window of
    the request.  next_time_window_ts is an int. *)
Fixpoint win_advance (fuel : nat) (tw clock idx next : Z) : res (Z * Z) :=
  if decide (clock < next) then Ok (idx, next)
  else match fuel with
       | O => Err OutOfFuel
       | S f => if decide (next + tw >= 2 ^ 31) then Err IntOverflow
                else win_advance f tw clock (idx + 1) (next + tw)
       end.

(** A number of turns that is enough for the loops above and below. *)
Definition win_fuel (tw clock next : Z) : nat := Z.to_nat ((clock - next) / tw + 1).

(** traceAnalyzer/analyzer.cpp:103-171: one request, up to the point where it
    is handed to the statistics.  ERROR aborts (include/libCacheSim/logging.h). *)
Definition a_step (tw start : Z) (k : acore) (q : areq) : res (acore * ereq) :=
  let clock := a_time q - start in
  let! (idx, next) := win_advance (win_fuel tw clock (k_next k)) tw clock (k_idx k) (k_next k) in
  if decide (idx <> win_idx tw clock) then Err AssertFail
  else
    let n := k_n k + 1 in
    let sumr := u64 (k_sumr k + a_size q) in
    match k_map k !! a_id q with
    | None =>
        Ok (mkCore n sumr (u64 (k_sumo k + a_size q))
              (<[a_id q := mkOI n (u32 (a_size q)) (i32 clock) 1 (i32 clock)]> (k_map k))
              idx next,
            mkE clock (a_id q) (a_size q) (a_op q) (a_ttl q)
                true false true (i32 clock) (-1) (-1))
    | Some o =>
        let vt := n - oi_vt o in
        let rt := clock - oi_rt o in
        if decide (vt <= 0) then Err AssertFail
        else if decide (rt < 0) then Err AssertFail
        else
          Ok (mkCore n sumr (k_sumo k)
                (<[a_id q := mkOI n (u32 (a_size q)) (i32 clock) (u32 (oi_freq o + 1))
                                  (oi_create o)]> (k_map k))
                idx next,
              mkE clock (a_id q) (a_size q) (a_op q) (a_ttl q)
                  false
                  (bool_decide (a_op q = OP_SET) || bool_decide (a_op q = OP_REPLACE)
                   || bool_decide (a_op q = OP_CAS))
                  (bool_decide (win_idx tw (oi_rt o) <> idx))
                  (oi_create o) vt rt)
    end.

(** traceAnalyzer/analyzer.cpp:99-219: the loop.  Simplification: the
    statistics share no state with each other nor with the loop, so the loop
    returns the list of requests handed to them, and each statistic is a fold
    over that list. *)
Fixpoint a_loop (tw start : Z) (k : acore) (qs : list areq) : res (acore * list ereq) :=
  match qs with
  | [] => Ok (k, [])
  | q :: qs =>
      let! (k', e) := a_step tw start k q in
      let! (k'', es) := a_loop tw start k' qs in
      Ok (k'', e :: es)
  end.

(** traceAnalyzer/analyzer.cpp:91-95. *)
Definition core0 (tw : Z) : acore := mkCore 0 0 0 ∅ 0 tw.

(** traceAnalyzer/analyzer.cpp:88-219 (run).  [tr] is what read_one_req
    delivers before it fails.  The result of the first read_one_req is not
    checked and the loop is a do-while, so that a trace without requests is
    analyzed as one request with the contents of new_request. *)
Definition analyze (tw : Z) (tr : list areq) : res (acore * list ereq) :=
  match tr with
  | [] => a_loop tw (a_time areq0) (core0 tw) [areq0]
  | q :: _ => a_loop tw (a_time q) (core0 tw) tr
  end.

(** traceAnalyzer/analyzer.cpp:93, 220 and 295: time_span.  The failed read
    leaves clock_time, which is already relative, as it was. *)
Definition time_span (tr : list areq) (es : list ereq) : Z :=
  let start := a_time (default areq0 (head tr)) in
  let end_ts := default 0 (e_time <$> last es) + start in
  end_ts - start.

(** ** Numbers computed at the end *)

(** traceAnalyzer/analyzer.cpp:349-353: n_hit_cnt_.  [infos] are the values of
    obj_map_ in the order in which the hash map enumerates them. *)
Fixpoint hit_cnt (track : Z) (infos : list oinfo) (cnt : list Z) : res (list Z) :=
  match infos with
  | [] => Ok cnt
  | o :: infos =>
      if decide (oi_freq o <= track) then
        let i := Z.to_nat (u32 (oi_freq o - 1)) in
        match cnt !! i with
        | None => Err OutOfBounds
        | Some c => hit_cnt track infos (<[i := u64 (c + 1)]> cnt)
        end
      else hit_cnt track infos cnt
  end.

(** traceAnalyzer/analyzer.cpp:344-353. *)
Definition n_hit_cnt (track : Z) (infos : list oinfo) : res (list Z) :=
  hit_cnt track infos (replicate (Z.to_nat track) 0).

(** traceAnalyzer/popularity.cpp:49-53: freq_vec_.  std::sort with greater<>
    is a merge sort here: the sorted arrangement of a list of numbers is
    unique. *)
Definition freq_vec (infos : list oinfo) : list Z :=
  merge_sort Z.ge (oi_freq <$> infos).

(** traceAnalyzer/analyzer.cpp:355-361: popular_cnt_. *)
Fixpoint popular_loop (n : nat) (i : nat) (v : list Z) : res (list Z) :=
  match n with
  | O => Ok []
  | S n => match v !! i with
           | None => Err OutOfBounds
           | Some f => let! r := popular_loop n (S i) v in Ok (f :: r)
           end
  end.
Definition popular_cnt (track : Z) (infos : list oinfo) : res (list Z) :=
  popular_loop (Z.to_nat track) 0 (freq_vec infos).

(** traceAnalyzer/popularity.cpp:32-43 (the loop of dump): the lines
    "freq:cnt".  uint32_t counters. *)
Fixpoint pop_dump_loop (last_freq freq_cnt : Z) (v : list Z) : list (Z * Z) :=
  match v with
  | [] => [(last_freq, freq_cnt)]
  | f :: v =>
      if decide (f = last_freq) then pop_dump_loop last_freq (u32 (freq_cnt + 1)) v
      else (last_freq, freq_cnt) :: pop_dump_loop f 1 v
  end.

(** traceAnalyzer/popularity.cpp:18-45 (dump); ERROR aborts when there is no
    object. *)
Definition pop_dump (infos : list oinfo) : res (list (Z * Z)) :=
  match freq_vec infos with
  | [] => Err AssertFail
  | f :: v => Ok (pop_dump_loop f 0 (f :: v))
  end.

(** ** Statistics fed with every request *)

(** traceAnalyzer/op.h:22-25 (OpStat::add_req): op_cnt_ has OP_INVALID + 1
    entries. *)
Definition op_add (s : list Z * Z) (e : ereq) : res (list Z * Z) :=
  let '(cnt, over) := s in
  if decide (e_op e < 0) then Err OutOfBounds
  else match cnt !! Z.to_nat (e_op e) with
       | None => Err OutOfBounds
       | Some c => Ok (<[Z.to_nat (e_op e) := u64 (c + 1)]> cnt,
                       if e_over e then u64 (over + 1) else over)
       end.
Fixpoint op_run (s : list Z * Z) (es : list ereq) : res (list Z * Z) :=
  match es with
  | [] => Ok s
  | e :: es => let! s' := op_add s e in op_run s' es
  end.
Definition op_stat (es : list ereq) : res (list Z * Z) :=
  op_run (replicate 16 0, 0) es.

(** m[key] += 1 on an unordered_map with uint32_t values. *)
Definition bump (m : gmap Z Z) (key : Z) : gmap Z Z :=
  <[key := u32 (default 0 (m !! key) + 1)]> m.

(** traceAnalyzer/ttl.cpp:15-30 (TtlStat::add_req). *)
Definition ttl_add (s : gmap Z Z * bool) (e : ereq) : gmap Z Z * bool :=
  let '(m, many) := s in
  if decide (e_ttl e > 0) then
    match m !! e_ttl e with
    | None =>
        let m' := <[e_ttl e := 1]> m in
        (m', many || bool_decide (Z.of_nat (size m') > 1000000))
    | Some c => (<[e_ttl e := u32 (c + 1)]> m, many)
    end
  else s.
Definition ttl_stat (es : list ereq) : gmap Z Z * bool := foldl ttl_add (∅, false) es.
(** traceAnalyzer/ttl.cpp:32-45 (dump): nothing is written for too many. *)
Definition ttl_dump (s : gmap Z Z * bool) : gmap Z Z := if s.2 then ∅ else s.1.

(** traceAnalyzer/reqRate.h:51-68. *)
Record rrate : Type := mkRR {
  rr_next : Z;                         (* next_window_ts_ *)
  rr_req : Z; rr_byte : Z; rr_obj : Z; rr_cold : Z;    (* window_... *)
  rr_rows : list (Z * Z * Z * Z)       (* the four vectors *)
}.
(** traceAnalyzer/reqRate.cpp:27-38. *)
Fixpoint rr_flush (fuel : nat) (tw clock : Z) (s : rrate) : res rrate :=
  if decide (clock < rr_next s) then Ok s
  else match fuel with
       | O => Err OutOfFuel
       | S f => rr_flush f tw clock
                  (mkRR (rr_next s + tw) 0 0 0 0
                        (rr_rows s ++ [(rr_req s, rr_byte s, rr_obj s, rr_cold s)]))
       end.
(** traceAnalyzer/reqRate.cpp:8-39 (ReqRate::add_req). *)
Definition rr_add (tw : Z) (s : rrate) (e : ereq) : res rrate :=
  let next := if decide (rr_next s = -1) then e_time e + tw else rr_next s in
  rr_flush (win_fuel tw (e_time e) next) tw (e_time e)
    (mkRR next (u32 (rr_req s + 1)) (u64 (rr_byte s + e_size e))
          (if e_first e then u32 (rr_obj s + 1) else rr_obj s)
          (if e_cold e then u32 (rr_cold s + 1) else rr_cold s)
          (rr_rows s)).
Fixpoint rr_run (tw : Z) (s : rrate) (es : list ereq) : res rrate :=
  match es with
  | [] => Ok s
  | e :: es => let! s' := rr_add tw s e in rr_run tw s' es
  end.
Definition req_rate (tw : Z) (es : list ereq) : res rrate :=
  rr_run tw (mkRR (-1) 0 0 0 0 []) es.

(** std::vector<uint32_t>::resize(n, 0). *)
Definition vresize (n : nat) (v : list Z) : list Z := take n v ++ replicate (n - length v) 0.
(** v[pos] += 1. *)
Definition vincr (v : list Z) (pos : nat) : list Z := alter (fun x => u32 (x + 1)) pos v.

(** traceAnalyzer/size.h:43-58. *)
Record sdist : Type := mkSD {
  sd_req : gmap Z Z;          (* obj_size_req_cnt_, keys uint32_t *)
  sd_obj : gmap Z Z;          (* obj_size_obj_cnt_ *)
  sd_next : Z;                (* next_window_ts_ *)
  sd_wreq : list Z;           (* window_obj_size_req_cnt_ *)
  sd_wobj : list Z;           (* window_obj_size_obj_cnt_ *)
  sd_rows : list (list Z * list Z)   (* lines of the two .sizeWindow files *)
}.
(** traceAnalyzer/size.cpp:50-55. *)
Fixpoint sd_flush (fuel : nat) (tw clock : Z) (s : sdist) : res sdist :=
  if decide (clock < sd_next s) then Ok s
  else match fuel with
       | O => Err OutOfFuel
       | S f => sd_flush f tw clock
                  (mkSD (sd_req s) (sd_obj s) (sd_next s + tw)
                        (replicate 20 0) (replicate 20 0)
                        (sd_rows s ++ [(sd_wreq s, sd_wobj s)]))
       end.
(** traceAnalyzer/size.cpp:12-56 (SizeDistribution::add_req), for a positive
    time window.  [lg x] stands for the bucket of a size,
    (int)MAX(log((double)x) / log(1.5), 0), a floating-point computation that
    is not modelled; only that it yields a number >= 0 is used. *)
Definition sd_add (lg : Z -> nat) (tw : Z) (s : sdist) (e : ereq) : res sdist :=
  let next := if decide (sd_next s = -1) then e_time e + tw else sd_next s in
  let req := bump (sd_req s) (u32 (e_size e)) in
  let obj := if e_cold e then bump (sd_obj s) (u32 (e_size e)) else sd_obj s in
  let pos := lg (e_size e) in
  let grow := bool_decide (length (sd_wreq s) <= pos)%nat in
  let wreq := if grow then vresize (pos + 8) (sd_wreq s) else sd_wreq s in
  let wobj := if grow then vresize (pos + 8) (sd_wobj s) else sd_wobj s in
  match wreq !! pos, wobj !! pos with
  | Some _, Some _ =>
      sd_flush (win_fuel tw (e_time e) next) tw (e_time e)
        (mkSD req obj next (vincr wreq pos) (if e_first e then vincr wobj pos else wobj)
              (sd_rows s))
  | _, _ => Err OutOfBounds
  end.
Fixpoint sd_run (lg : Z -> nat) (tw : Z) (s : sdist) (es : list ereq) : res sdist :=
  match es with
  | [] => Ok s
  | e :: es => let! s' := sd_add lg tw s e in sd_run lg tw s' es
  end.
Definition size_dist (lg : Z -> nat) (tw : Z) (es : list ereq) : res sdist :=
  sd_run lg tw (mkSD ∅ ∅ (-1) [] [] []) es.

(** traceAnalyzer/utils/include/utils.h:26-35 (vector_incr). *)
Definition vector_incr (v : list Z) (pos : nat) : list Z :=
  vincr (if decide (length v <= pos)%nat then vresize (pos + 2) v else v) pos.

(** traceAnalyzer/reuse.h:36-57. *)
Record rdist : Type := mkRD {
  rd_rt : gmap Z Z;           (* reuse_rtime_req_cnt_ *)
  rd_vt : gmap Z Z;           (* reuse_vtime_req_cnt_ *)
  rd_next : Z;                (* next_window_ts_ *)
  rd_wrt : list Z;            (* window_reuse_rtime_req_cnt_ *)
  rd_wvt : list Z;            (* window_reuse_vtime_req_cnt_ *)
  rd_rows : list (list Z * list Z)   (* lines of the two .reuseWindow files *)
}.
(** traceAnalyzer/reuse.cpp:59-64. *)
Fixpoint rd_flush (fuel : nat) (tw clock : Z) (s : rdist) : res rdist :=
  if decide (clock < rd_next s) then Ok s
  else match fuel with
       | O => Err OutOfFuel
       | S f => rd_flush f tw clock
                  (mkRD (rd_rt s) (rd_vt s) (rd_next s + tw) [] []
                        (rd_rows s ++ [(rd_wrt s, rd_wvt s)]))
       end.
(** traceAnalyzer/reuse.cpp:17-65 (ReuseDistribution::add_req), for a positive
    time window and the default granularity of 5 seconds (reuse.h:19,
    analyzer.cpp:33).  [lg x] stands for (int)(log((double)x) / log(1.5)) as
    in [sd_add]. *)
Definition rd_add (lg : Z -> nat) (tw : Z) (s : rdist) (e : ereq) : res rdist :=
  let next := if decide (rd_next s = -1) then e_time e + tw else rd_next s in
  if decide (e_rt e < 0) then
    Ok (mkRD (bump (rd_rt s) (-1)) (bump (rd_vt s) (-1)) next (rd_wrt s) (rd_wvt s) (rd_rows s))
  else
    let pos_rt := i32 (e_rt e / 5) in
    if decide (pos_rt < 0) then Err OutOfBounds
    else
      let pos_vt := lg (e_vt e) in
      rd_flush (win_fuel tw (e_time e) next) tw (e_time e)
        (mkRD (bump (rd_rt s) pos_rt) (bump (rd_vt s) (Z.of_nat pos_vt)) next
              (vector_incr (rd_wrt s) (Z.to_nat pos_rt))
              (vector_incr (rd_wvt s) pos_vt) (rd_rows s)).
Fixpoint rd_run (lg : Z -> nat) (tw : Z) (s : rdist) (es : list ereq) : res rdist :=
  match es with
  | [] => Ok s
  | e :: es => let! s' := rd_add lg tw s e in rd_run lg tw s' es
  end.
Definition reuse_dist (lg : Z -> nat) (tw : Z) (es : list ereq) : res rdist :=
  rd_run lg tw (mkRD ∅ ∅ (-1) [] [] []) es.

(** traceAnalyzer/accessPattern.h:52-59. *)
Record apat : Type := mkAP {
  ap_seen : Z;                     (* n_seen_req_ *)
  ap_start : Z;                    (* start_rtime_ *)
  ap_rt : gmap Z (list Z);         (* access_rtime_map_, uint32_t elements *)
  ap_vt : gmap Z (list Z)          (* access_vtime_map_ *)
}.
(** traceAnalyzer/accessPattern.cpp:28-52 (AccessPattern::add_req); [ratio] is
    sample_ratio_, at least 1. *)
Definition ap_add (ratio : Z) (s : apat) (e : ereq) : apat :=
  if decide (ap_seen s > 4294967280) then s
  else
    let n := ap_seen s + 1 in
    let st := if decide (ap_start s = -1) then e_time e else ap_start s in
    if decide (e_id e mod ratio <> 0) then mkAP n st (ap_rt s) (ap_vt s)
    else
      mkAP n st
        (<[e_id e := default [] (ap_rt s !! e_id e) ++ [u32 (e_time e - st)]]> (ap_rt s))
        (<[e_id e := default [] (ap_vt s !! e_id e) ++ [u32 n]]> (ap_vt s)).
Definition access_pattern (ratio : Z) (es : list ereq) : apat :=
  foldl (ap_add ratio) (mkAP 0 (-1) ∅ ∅) es.

(** traceAnalyzer/popularityDecay.h:76-87.  Only the object counts are dumped:
    USE_REQ_METRIC is not defined (popularityDecay.h:42). *)
Record pdecay : Type := mkPD {
  pd_next : Z;                 (* next_window_ts_ *)
  pd_nreq : list Z;            (* n_req_per_window *)
  pd_nobj : list Z;            (* n_obj_per_window *)
  pd_rows : list (list Z)      (* lines of the .popularityDecay file *)
}.
(** traceAnalyzer/popularityDecay.cpp:37-39. *)
Fixpoint pd_skip (fuel : nat) (tw clock next : Z) : res Z :=
  if decide (clock < next) then Ok next
  else match fuel with
       | O => Err OutOfFuel
       | S f => pd_skip f tw clock (next + tw)
       end.
(** traceAnalyzer/popularityDecay.cpp:49-61. *)
Fixpoint pd_flush (fuel : nat) (tw warm clock : Z) (s : pdecay) : res pdecay :=
  if decide (clock < pd_next s) then Ok s
  else match fuel with
       | O => Err OutOfFuel
       | S f =>
           if decide (pd_next s < warm) then
             pd_flush f tw warm clock (mkPD warm (pd_nreq s) (pd_nobj s) (pd_rows s))
           else
             pd_flush f tw warm clock
               (mkPD (pd_next s + tw)
                     (replicate (S (length (pd_nreq s))) 0)
                     (replicate (S (length (pd_nobj s))) 0)
                     (pd_rows s ++ [pd_nobj s]))
       end.
(** traceAnalyzer/popularityDecay.cpp:30-69 (PopularityDecay::add_req);
    idx_shift is warm / tw (popularityDecay.h:57: the quotient of two ints
    computed in double and truncated; exact because the constructor of the
    analyzer requires warm to be a multiple of tw, analyzer.h:116-121). *)
Definition pd_add (tw warm : Z) (s : pdecay) (e : ereq) : res pdecay :=
  let next := if decide (pd_next s = -1) then e_time e + tw else pd_next s in
  if decide (e_time e < warm) then
    let! next' := pd_skip (win_fuel tw (e_time e) next) tw (e_time e) next in
    Ok (mkPD next' (pd_nreq s) (pd_nobj s) (pd_rows s))
  else
    let c := win_idx tw (e_create e) in
    let shift := warm / tw in
    if decide (c < shift) then Ok (mkPD next (pd_nreq s) (pd_nobj s) (pd_rows s))
    else
      let! s1 := pd_flush (S (win_fuel tw (e_time e) next)) tw warm (e_time e)
                   (mkPD next (pd_nreq s) (pd_nobj s) (pd_rows s)) in
      let i := Z.to_nat (c - shift) in
      match pd_nreq s1 !! i, pd_nobj s1 !! i with
      | Some x, Some y =>
          Ok (mkPD (pd_next s1) (<[i := i32 (x + 1)]> (pd_nreq s1))
                   (if e_first e then <[i := i32 (y + 1)]> (pd_nobj s1) else pd_nobj s1)
                   (pd_rows s1))
      | _, _ => Err OutOfBounds
      end.
Fixpoint pd_run (tw warm : Z) (s : pdecay) (es : list ereq) : res pdecay :=
  match es with
  | [] => Ok s
  | e :: es => let! s' := pd_add tw warm s e in pd_run tw warm s' es
  end.
(** traceAnalyzer/popularityDecay.h:52-59 (constructor). *)
Definition pop_decay (tw warm : Z) (es : list ereq) : res pdecay :=
  pd_run tw warm (mkPD (-1) [0] [0] []) es.
