(** What segmented LRU is supposed to do, on plain lists.  A segment is the
    list of its objects (id, size), most recent first; segment 0 is the lowest. *)
From stdpp Require Import gmap list numbers fin_maps.
From Verif Require Import Base Driver SpecComp.
Open Scope Z_scope.

Notation seg := (list (Z * Z)).

(** The longest part of [l], from the recent end, that fits in [m] bytes, and
    the rest. *)
Fixpoint fit (m : Z) (l : seg) : seg * seg :=
  match l with
  | [] => ([], [])
  | x :: l' =>
      if decide (x.2 <= m) then ((x :: (fit (m - x.2) l').1), (fit (m - x.2) l').2)
      else ([], l)
  end.

(** Overflow: what does not fit in segment [k] moves, in order, on top of the
    segment below, which then overflows in turn; the overflow of segment 0
    leaves the cache. *)
Fixpoint settle (ms : list Z) (k : nat) (segs : list seg) : list seg :=
  let '(keep, over) := fit (ms !!! k) (segs !!! k) in
  match over, k with
  | [], _ => segs
  | _, O => <[O := keep]> segs
  | _, S j => settle ms j (<[j := over ++ segs !!! j]> (<[k := keep]> segs))
  end.

(** The segment and the size of an object. *)
Fixpoint locate (id : Z) (segs : list seg) : option (nat * Z) :=
  match segs with
  | [] => None
  | l :: segs =>
      match list_find (fun x => x.1 = id) l with
      | Some (_, x) => Some (O, x.2)
      | None => (fun y => (S y.1, y.2)) <$> locate id segs
      end
  end.

Definition without (id : Z) (l : seg) : seg := filter (fun x => x.1 <> id) l.

(** A hit on an object of segment [i]: to the front of the next higher
    segment, whose overflow cascades down; at the top, to the front. *)
Definition spec_hit (ms : list Z) (segs : list seg) (id : Z) (i : nat) (sz : Z) : list seg :=
  if decide (S i = length ms) then <[i := (id, sz) :: without id (segs !!! i)]> segs
  else settle ms (S i)
         (<[S i := (id, sz) :: segs !!! S i]> (<[i := without id (segs !!! i)]> segs)).

(** The eviction victim: the least recent object of the lowest non-empty
    segment. *)
Fixpoint victim (segs : list seg) : option Z :=
  match segs with
  | [] => None
  | l :: segs => match last l with Some x => Some x.1 | None => victim segs end
  end.
Fixpoint evict_low (segs : list seg) : list seg :=
  match segs with
  | [] => []
  | l :: segs => match l with [] => l :: evict_low segs | _ => removelast l :: segs end
  end.

Definition held (segs : list seg) : Z := total_bytes (concat segs).

(** Evict until [sz] more bytes fit in [cap]. *)
Fixpoint make_room (n : nat) (cap sz : Z) (segs : list seg) : list seg :=
  match n with
  | O => segs
  | S n => if decide (held segs + sz > cap) then make_room n cap sz (evict_low segs) else segs
  end.

(** A new object goes to the lowest segment with room, to segment 0 if there is
    none. *)
Fixpoint with_room (ms : list Z) (segs : list seg) (sz : Z) : option nat :=
  match ms, segs with
  | m :: ms, l :: segs =>
      if decide (total_bytes l + sz <= m) then Some O else S <$> with_room ms segs sz
  | _, _ => None
  end.
Definition place (ms : list Z) (segs : list seg) (id sz : Z) : list seg :=
  let i := default O (with_room ms segs sz) in <[i := (id, sz) :: segs !!! i]> segs.

(** The cache as a machine on segments and admission policy: for each call the
    next state and the answer. *)
Record sspec : Type := mkSS { ss_segs : list seg; ss_adm : admissioner }.

Definition spec_get (ms : list Z) (cap : Z) (a : sspec) (r : req) : sspec * bool :=
  match locate (r_id r) (ss_segs a) with
  | Some (i, sz) => (mkSS (spec_hit ms (ss_segs a) (r_id r) i sz) (ss_adm a), true)
  | None =>
      let '(adm, ok) := admit (ss_adm a) r in
      if (ok && bool_decide (r_size r <= cap) && bool_decide (r_size r <= ms !!! O))%bool then
        let segs := make_room (length (concat (ss_segs a))) cap (r_size r) (ss_segs a) in
        (mkSS (place ms segs (r_id r) (r_size r)) adm, false)
      else (mkSS (ss_segs a) adm, false)
  end.

Definition spec_call (ms : list Z) (cap : Z) (a : sspec) (c : call) : sspec * obs :=
  match c with
  | CGet r => let '(a, b) := spec_get ms cap a r in (a, OBool b)
  | CFind r u =>
      match locate (r_id r) (ss_segs a) with
      | Some (i, sz) =>
          (if u then mkSS (spec_hit ms (ss_segs a) (r_id r) i sz) (ss_adm a) else a, OBool true)
      | None => (a, OBool false)
      end
  | CInsert r =>
      match locate (r_id r) (ss_segs a) with
      | Some _ => (a, OUnit)
      | None =>
          if decide (held (ss_segs a) + r_size r > cap) then (a, OUnit)
          else (mkSS (place ms (ss_segs a) (r_id r) (r_size r)) (ss_adm a), OUnit)
      end
  | CEvict _ => (mkSS (evict_low (ss_segs a)) (ss_adm a), OUnit)
  | CToEvict _ => (a, OVictim (victim (ss_segs a)))
  | CRemove id => (mkSS (map (without id) (ss_segs a)) (ss_adm a), OBool (bool_decide (is_Some (locate id (ss_segs a)))))
  end.

Fixpoint spec_run (ms : list Z) (cap : Z) (a : sspec) (cs : list call) : sspec * list obs :=
  match cs with
  | [] => (a, [])
  | c :: cs =>
      let '(a, o) := spec_call ms cap a c in
      let '(a, os) := spec_run ms cap a cs in (a, o :: os)
  end.

Definition spec_start (ms : list Z) (adm : admissioner) : sspec :=
  mkSS (replicate (length ms) []) adm.
