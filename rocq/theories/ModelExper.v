(** The experimental statistics of the trace analyzer: traceAnalyzer/experimental/
    lifetime.cpp/.h, createFutureReuseCCDF.cpp/.h and probAtAge.cpp/.h.  The 32 and 64
    bit ranges of the counters are not modelled, nor is the printing of the files. *)
From stdpp Require Import gmap list numbers fin_maps.
From Verif Require Import Base ModelAnalyzer.
Open Scope Z_scope.

(** include/libCacheSim/request.h:21-65: the fields that lifetime.cpp and
    createFutureReuseCCDF.cpp read; clock_time counts from the first request
    (analyzer.cpp:97-102). *)
Record xreq : Type := mkX { x_time : Z; x_id : Z; x_next : Z }.

(** ** lifetime.h:24-32 *)
Record life : Type := mkLife { lf_n : Z; lf_clock : gmap Z (Z * Z); lf_logic : gmap Z (Z * Z) }.
Definition life0 : life := mkLife 0 ∅ ∅.

(** lifetime.cpp:20-36 (add_req); object_create_clock_time_max_ = 86400 *)
Definition life_add (s : life) (q : xreq) : res life :=
  let n := lf_n s + 1 in
  match lf_clock s !! x_id q with
  | None =>
      if decide (x_time q < 86400)
      then Ok (mkLife n (<[x_id q := (x_time q, x_time q)]> (lf_clock s)) (<[x_id q := (n, n)]> (lf_logic s)))
      else Ok (mkLife n (lf_clock s) (lf_logic s))
  | Some (a, _) =>
      match lf_logic s !! x_id q with
      | None => Err NullDeref
      | Some (b, _) => Ok (mkLife n (<[x_id q := (a, x_time q)]> (lf_clock s)) (<[x_id q := (b, n)]> (lf_logic s)))
      end
  end.
Fixpoint life_run (s : life) (tr : list xreq) : res life :=
  match tr with
  | [] => Ok s
  | q :: tr => let! s := life_add s q in life_run s tr
  end.

(** lifetime.cpp:40-48, 68-78: the two distributions; [l] is a map in the order of
    its enumeration *)
Definition hist (f : Z * Z -> Z) (l : list (Z * (Z * Z))) : gmap Z Z :=
  foldl (fun m p => let b := f p.2 in
    match m !! b with None => <[b := 1]> m | Some k => <[b := k + 1]> m end) ∅ l.
Definition clock_bucket (p : Z * Z) : Z := Z.quot (p.2 - p.1) 10 * 60.
Definition logic_bucket (p : Z * Z) : Z := Z.quot (p.2 - p.1) 100 * 100.
(** lifetime.cpp:38-92 (dump) *)
Definition life_dump (s : life) : gmap Z Z * gmap Z Z :=
  (hist clock_bucket (map_to_list (lf_clock s)), hist logic_bucket (map_to_list (lf_logic s))).

(** ** createFutureReuseCCDF.h:30-53, 85-97 *)
Definition fine_rtime_upbound : Z := 3600.
Definition rtime_granularity : Z := 5.
Definition max_reuse_rtime : Z := 86400 * 80.
Definition creation_time_window : Z := 86400.
Definition reuse_info_array_size : Z := max_reuse_rtime / rtime_granularity + fine_rtime_upbound.
(** GET_POS_RT *)
Definition pos_rt (t : Z) : Z :=
  if decide (t > fine_rtime_upbound) then Z.quot t rtime_granularity + fine_rtime_upbound else t.
(** GET_RTIME_FROM_POS *)
Definition rtime_from_pos (p : Z) : Z :=
  if decide (p > fine_rtime_upbound) then
    if decide (p < fine_rtime_upbound + Z.quot fine_rtime_upbound rtime_granularity) then -1
    else (p - fine_rtime_upbound) * rtime_granularity
  else p.

(** createFutureReuseCCDF.h:62-66 (create_info) *)
Record cinfo : Type := mkCi { ci_create : Z; ci_last : Z; ci_freq : Z }.
(** createFutureReuseCCDF.h:74-81 (create_reuse_info_t) *)
Record rinfo : Type := mkRi { ri_cnt : Z; ri_stop : Z; ri_age : Z; ri_freq : Z; ri_stop_age : Z; ri_stop_freq : Z }.
Definition ri0 : rinfo := mkRi 0 0 0 0 0 0.
(** [cf_arr] is reuse_info_, all zero at first. *)
Record cfr : Type := mkCf { cf_warm : gset Z; cf_info : gmap Z cinfo; cf_arr : Z -> rinfo }.
Definition cf0 : cfr := mkCf ∅ ∅ (fun _ => ri0).

(** createFutureReuseCCDF.cpp:47-73: what follows the lookup; [it] is the entry of
    the object, which is already up to date. *)
Definition cf_count (s : cfr) (q : xreq) (it : cinfo) : res cfr :=
  let age := i32 (x_time q) - ci_create it in
  if decide (age < 0) then Err AssertFail
  else if decide (pos_rt age >= reuse_info_array_size) then Err AssertFail
  else
    let p := pos_rt age in
    let access_age := if decide (ci_last it = -1) then 0 else i32 (x_time q) - ci_last it in
    let r := cf_arr s p in
    let r := if decide (x_next q >= 0 /\ x_next q <> 2 ^ 63 - 1)
             then mkRi (ri_cnt r + 1) (ri_stop r) (ri_age r + access_age) (ri_freq r + ci_freq it) (ri_stop_age r) (ri_stop_freq r)
             else mkRi (ri_cnt r) (ri_stop r + 1) (ri_age r) (ri_freq r) (ri_stop_age r + access_age) (ri_stop_freq r + ci_freq it) in
    Ok (mkCf (cf_warm s) (<[x_id q := it]> (cf_info s)) (fun p' => if decide (p' = p) then r else cf_arr s p')).

(** createFutureReuseCCDF.cpp:20-74 (add_req) *)
Definition cf_add (warm : Z) (s : cfr) (q : xreq) : res cfr :=
  if decide (x_time q < warm) then Ok (mkCf ({[x_id q]} ∪ cf_warm s) (cf_info s) (cf_arr s))
  else if decide (x_id q ∈ cf_warm s) then Ok s
  else if decide (x_next q = -2) then Err AssertFail
  else
    match cf_info s !! x_id q with
    | None =>
        if decide (x_time q > warm + creation_time_window) then Ok s
        else cf_count s q (mkCi (i32 (x_time q)) (-1) 0)
    | Some it => cf_count s q (mkCi (ci_create it) (i32 (x_time q)) (ci_freq it + 1))
    end.
Fixpoint cf_run (warm : Z) (s : cfr) (tr : list xreq) : res cfr :=
  match tr with
  | [] => Ok s
  | q :: tr => let! s := cf_add warm s q in cf_run warm s tr
  end.

(** ** probAtAge.cpp:19-30 (add_req) *)
Definition pa_add (tw warm : Z) (m : gmap (Z * Z) Z) (e : ereq) : gmap (Z * Z) Z :=
  if decide (e_time e < warm \/ e_create e < warm) then m
  else let p := (Z.quot (e_rt e) tw, Z.quot (e_time e - e_create e) tw) in
       <[p := default 0 (m !! p) + 1]> m.
Definition prob_at_age (tw warm : Z) (es : list ereq) : gmap (Z * Z) Z := foldl (pa_add tw warm) ∅ es.
