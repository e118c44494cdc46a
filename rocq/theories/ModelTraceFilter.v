(** The trace filter bin/traceUtils/traceFilterMain.cpp.  The cache is any cache (the
    program offers LRU and FIFO, without metadata), the reader any reader.  The
    messages are not modelled. *)
From stdpp Require Import gmap list numbers fin_maps.
From Verif Require Import Base ModelReader ModelConv ModelSim.
Open Scope Z_scope.

(** traceFilterMain.cpp:24-29, 36, 46-49: the output record of request [q];
    next_access_vtime is -2 in all of them. *)
Definition filter_rec (q : treq) : og := mkOg (u32 (fget q F_TIME)) (fget q F_ID) (u32 (fget q F_SIZE)) (-2).

Section filter.
  Context {R : Type} (read : R -> treq -> res (R * treq * Z)).

  (** traceFilterMain.cpp:42-54; [out] is what was written so far.  n_req and
      n_written_req are only printed. *)
  Fixpoint filter_loop (fuel : nat) (ts seed : Z) (rd : R) (c : acache) (q : treq) (out : list Z) : res (acache * list Z) :=
    match fuel with
    | O => Err OutOfFuel
    | S fuel =>
        if valid q then
          let q := sub_time ts q in
          let! (c, seed, hit) := ac_get c seed q in
          let out := if hit : bool then out else out ++ og_bytes (filter_rec q) in
          let! (rd, q, _) := read rd q in
          filter_loop fuel ts seed rd c q out
        else Ok (c, out)
    end.

  (** traceFilterMain.cpp:31-60 (filter) *)
  Definition trace_filter (fuel : nat) (seed : Z) (rd : R) (c : acache) : res (acache * list Z) :=
    let! (rd, q, _) := read rd new_request in
    filter_loop fuel (fget q F_TIME) seed rd c q [].
End filter.
