(** What the segmented caches built from an array of queues are supposed to
    do, on the segments of SpecSLRU.v.  Here an object is listed with the
    bytes it is charged: its size plus the metadata [md]. *)
From stdpp Require Import gmap list numbers fin_maps.
From Verif Require Import Base Driver SpecComp SpecSLRU SpecSFIFO.
Open Scope Z_scope.

(** A new object goes to the lowest segment with room; if there is none, to
    segment 0, whose oldest objects leave the cache until it fits. *)
Definition place0 (ms : list Z) (segs : list seg) (id w : Z) : list seg :=
  match with_room ms segs w with
  | Some i => <[i := (id, w) :: segs !!! i]> segs
  | None => settle ms O (<[O := (id, w) :: segs !!! O]> segs)
  end.

(** A hit charges the size of the request from now on. *)
Definition v0_hit (ms : list Z) (md : Z) (segs : list seg) (r : req) (i : nat) : list seg :=
  queue_hit ms segs (r_id r) i (r_size r + md).

(** The cache as a machine on segments and admission policy.  [new] says where
    a new object goes, [always] whether every find counts as a hit, even one
    that asks for no update. *)
Section Machine.
  Context (new : list Z -> list seg -> Z -> Z -> list seg) (always : bool).
  Context (ms : list Z) (md cap : Z).

  Definition arr_get (a : sspec) (r : req) : sspec * bool :=
    match locate (r_id r) (ss_segs a) with
    | Some (i, _) => (mkSS (v0_hit ms md (ss_segs a) r i) (ss_adm a), true)
    | None =>
        let '(adm, ok) := admit (ss_adm a) r in
        if (ok && bool_decide (r_size r + md <= cap) && bool_decide (r_size r + md <= ms !!! O))%bool then
          let segs := make_room (length (concat (ss_segs a))) cap (r_size r + md) (ss_segs a) in
          (mkSS (new ms segs (r_id r) (r_size r + md)) adm, false)
        else (mkSS (ss_segs a) adm, false)
    end.

  Definition arr_call (a : sspec) (c : call) : sspec * obs :=
    match c with
    | CGet r => let '(a, b) := arr_get a r in (a, OBool b)
    | CFind r u =>
        match locate (r_id r) (ss_segs a) with
        | Some (i, _) =>
            (if u || always then mkSS (v0_hit ms md (ss_segs a) r i) (ss_adm a) else a, OBool true)
        | None => (a, OBool false)
        end
    | CInsert r =>
        match locate (r_id r) (ss_segs a) with
        | Some _ => (a, OUnit)
        | None =>
            if decide (held (ss_segs a) + (r_size r + md) > cap) then (a, OUnit)
            else (mkSS (new ms (ss_segs a) (r_id r) (r_size r + md)) (ss_adm a), OUnit)
        end
    | CEvict _ => (mkSS (evict_low (ss_segs a)) (ss_adm a), OUnit)
    | CToEvict _ => (a, OVictim (victim (ss_segs a)))
    | CRemove id => (mkSS (map (without id) (ss_segs a)) (ss_adm a),
                     OBool (bool_decide (is_Some (locate id (ss_segs a)))))
    end.

  Fixpoint arr_run (a : sspec) (cs : list call) : sspec * list obs :=
    match cs with
    | [] => (a, [])
    | c :: cs =>
        let '(a, o) := arr_call a c in
        let '(a, os) := arr_run a cs in (a, o :: os)
    end.
End Machine.

(** SLRUv0 *)
Definition v0_run := arr_run place0 false.
(** SFIFOv0: a new object that fits nowhere goes to segment 0, which may then
    be above its limit; every find counts as a hit; metadata is not charged. *)
Definition f0_run (ms : list Z) := arr_run place true ms 0.

(** The calls of the property: the size of an object may change from one
    request to the next, but not whether it fits in a segment of [m] bytes,
    which [small] says; every object is charged for something. *)
Definition size_ok (m md : Z) (small : Z -> Prop) (r : req) : Prop :=
  req_ok md r /\ 0 < r_size r + md /\ (r_size r + md <= m <-> small (r_id r)).
Definition v0_ok (always : bool) (m md : Z) (small : Z -> Prop) (c : call) : Prop :=
  match c with
  | CGet r => size_ok m md small r
  | CFind r u => if u || always then size_ok m md small r else True
  | CInsert r => size_ok m md small r /\ r_size r + md <= m
  | _ => True
  end.
