(** The scan detector of the trace analyzer: traceAnalyzer/experimental/scanDetector.h.
    A request is its next_access_vtime; its own number is its place in the trace.
    Simplified: the numbers are unbounded; what dump prints is the state.
    (analyzer.cpp:57, the line that creates the detector, is commented out.) *)
From stdpp Require Import gmap list numbers fin_maps.
From Verif Require Import Base.
Open Scope Z_scope.

(** scanDetector.h:25-37 (ScanStream) *)
Record stream : Type := mkStream { st_start : Z; st_next : Z; st_n : Z; st_reqs : list Z }.
Definition new_stream (cur next : Z) : stream := mkStream cur next 1 [cur].

(** scanDetector.h:210-232; [sd_marked] are the places where is_scan_req_vec_ is true,
    n_active_stream_ is the length of scan_stream_vec_ *)
Record sdet : Type := mkSd {
  sd_scan : Z; sd_non : Z; sd_marked : gset Z; sd_vec : list stream; sd_cur : Z; sd_sizes : list Z }.
Definition sd0 : sdet := mkSd 0 0 ∅ [] 0 [].

Section scan.
  (** max_vtime_diff_, min_scan_size_, and the length of is_scan_req_vec_ *)
  Context (diff minsz len : Z).

  (** scanDetector.h:87-103 (is_part_of_scan) *)
  Definition is_part (s : stream) (cur next : Z) : bool :=
    if decide (cur > st_start s + diff + st_n s \/ cur < st_start s - diff - st_n s) then false
    else if decide (next < st_next s - diff - st_n s \/ next > st_next s + diff + st_n s) then false
    else true.

  (** scanDetector.h:120-128: the first stream the request is part of takes it *)
  Fixpoint sd_join (vec : list stream) (cur next : Z) : option (list stream) :=
    match vec with
    | [] => None
    | s :: vec =>
        if is_part s cur next then Some (mkStream (st_start s) (st_next s) (st_n s + 1) (st_reqs s ++ [cur]) :: vec)
        else match sd_join vec cur next with Some vec => Some (s :: vec) | None => None end
    end.

  (** scanDetector.h:139-141: mark the requests of a stream; the vector is not checked *)
  Fixpoint sd_mark (m : gset Z) (l : list Z) : res (gset Z) :=
    match l with
    | [] => Ok m
    | v :: l => if decide (0 <= v < len) then sd_mark ({[v]} ∪ m) l else Err OutOfBounds
    end.

  (** scanDetector.h:132-154: close the streams that ended; a closed one is replaced
      by the last, which is then passed over *)
  Fixpoint sd_close (fuel : nat) (pos : nat) (s : sdet) : res sdet :=
    match fuel with
    | O => Err OutOfFuel
    | S fuel =>
        match sd_vec s !! pos with
        | None => Ok s
        | Some st =>
            if decide (sd_cur s > st_start st + diff + st_n st) then
              let! (sc, non, m) :=
                if decide (st_n st > minsz) then
                  let! m := sd_mark (sd_marked s) (st_reqs st) in Ok (sd_scan s + st_n st, sd_non s, m)
                else Ok (sd_scan s, sd_non s + st_n st, sd_marked s) in
              let n := (length (sd_vec s) - 1)%nat in
              match sd_vec s !! n with
              | None => Err OutOfBounds
              | Some lst => sd_close fuel (S pos) (mkSd sc non m (take n (<[pos := lst]> (sd_vec s))) (sd_cur s) (sd_sizes s ++ [st_n st]))
              end
            else sd_close fuel (S pos) s
        end
    end.

  (** scanDetector.h:105-164 (add_req); -2 aborts *)
  Definition sd_add (s : sdet) (next : Z) : res sdet :=
    if decide (next = -2) then Err AssertFail
    else if decide (next = -1 \/ next = 2 ^ 63 - 1) then
      Ok (mkSd (sd_scan s) (sd_non s + 1) (sd_marked s) (sd_vec s) (sd_cur s + 1) (sd_sizes s))
    else
      match sd_join (sd_vec s) (sd_cur s) next with
      | Some vec => Ok (mkSd (sd_scan s) (sd_non s) (sd_marked s) vec (sd_cur s + 1) (sd_sizes s))
      | None =>
          let! s := if decide (Z.of_nat (length (sd_vec s)) >= diff - 1) then sd_close (S (length (sd_vec s))) 0 s else Ok s in
          Ok (mkSd (sd_scan s) (sd_non s) (sd_marked s) (sd_vec s ++ [new_stream (sd_cur s) next]) (sd_cur s + 1) (sd_sizes s))
      end.
  Fixpoint sd_run (s : sdet) (tr : list Z) : res sdet :=
    match tr with
    | [] => Ok s
    | next :: tr => let! s := sd_add s next in sd_run s tr
    end.
End scan.
