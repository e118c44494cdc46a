(** What segmented FIFO is supposed to do, on the segments of SpecSLRU.v: as
    segmented LRU, except that a hit in the top segment moves nothing, so that
    the top segment is a plain queue. *)
From stdpp Require Import gmap list numbers fin_maps.
From Verif Require Import Base Driver SpecComp SpecSLRU.
Open Scope Z_scope.

(** A hit on an object of segment [i]: to the front of the next higher
    segment, whose overflow cascades down; at the top nothing moves. *)
Definition queue_hit (ms : list Z) (segs : list seg) (id : Z) (i : nat) (sz : Z) : list seg :=
  if decide (S i = length ms) then segs
  else settle ms (S i)
         (<[S i := (id, sz) :: segs !!! S i]> (<[i := without id (segs !!! i)]> segs)).

Definition queue_get (ms : list Z) (cap : Z) (a : sspec) (r : req) : sspec * bool :=
  match locate (r_id r) (ss_segs a) with
  | Some (i, sz) => (mkSS (queue_hit ms (ss_segs a) (r_id r) i sz) (ss_adm a), true)
  | None =>
      let '(adm, ok) := admit (ss_adm a) r in
      if (ok && bool_decide (r_size r <= cap) && bool_decide (r_size r <= ms !!! O))%bool then
        let segs := make_room (length (concat (ss_segs a))) cap (r_size r) (ss_segs a) in
        (mkSS (place ms segs (r_id r) (r_size r)) adm, false)
      else (mkSS (ss_segs a) adm, false)
  end.

(** The answers of the machine; the calls that do not hit are those of
    segmented LRU. *)
Definition queue_call (ms : list Z) (cap : Z) (a : sspec) (c : call) : sspec * obs :=
  match c with
  | CGet r => let '(a, b) := queue_get ms cap a r in (a, OBool b)
  | CFind r true =>
      match locate (r_id r) (ss_segs a) with
      | Some (i, sz) => (mkSS (queue_hit ms (ss_segs a) (r_id r) i sz) (ss_adm a), OBool true)
      | None => (a, OBool false)
      end
  | _ => spec_call ms cap a c
  end.

Fixpoint queue_run (ms : list Z) (cap : Z) (a : sspec) (cs : list call) : sspec * list obs :=
  match cs with
  | [] => (a, [])
  | c :: cs =>
      let '(a, o) := queue_call ms cap a c in
      let '(a, os) := queue_run ms cap a cs in (a, o :: os)
  end.
