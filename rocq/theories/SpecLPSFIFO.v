(** What LP_SFIFO does, on plain lists: segments of objects, newest first, each
    object with its size and the hits counted since it was last moved up. *)
From stdpp Require Import gmap list numbers fin_maps.
From Verif Require Import Base Driver.
Open Scope Z_scope.

Record lob : Type := mkLob { b_id : Z; b_sz : Z; b_fr : Z }.
Notation bseg := (list lob).
Definition bids (l : bseg) : list Z := b_id <$> l.
Definition bbytes (l : bseg) : Z := foldr (fun x acc => b_sz x + acc) 0 l.
Definition bcached (segs : list bseg) (id : Z) : Prop := id ∈ bids (concat segs).
Global Instance bcached_dec segs id : Decision (bcached segs id).
Proof. unfold bcached. apply _. Defined.

(** A request for a cached object: in segment 0 it is marked, above every hit is
    counted. *)
Definition bhit (id : Z) (i : nat) (x : lob) : lob :=
  if decide (b_id x = id) then
    mkLob id (b_sz x) (if decide (i = O) then (if decide (b_fr x = 0) then 1 else b_fr x) else b_fr x + 1)
  else x.
Definition bmark (id : Z) (segs : list bseg) : list bseg := imap (fun i l => bhit id i <$> l) segs.

(** The newest objects that fit in [m] bytes, and the others. *)
Fixpoint spill (m : Z) (l : bseg) : bseg * bseg :=
  match l with
  | [] => ([], [])
  | x :: l' => if decide (b_sz x <= m) then let '(a, b) := spill (m - b_sz x) l' in (x :: a, b) else ([], l)
  end.
(** From segment [k] downwards each segment keeps what fits its limit; the rest
    enters the next lower segment in the same order.  Segment 0 takes all. *)
Fixpoint bsettle (ms : list Z) (k : nat) (segs : list bseg) : list bseg :=
  match k with
  | O => segs
  | S j =>
      let '(a, b) := spill (ms !!! S j) (segs !!! S j) in
      bsettle ms j (<[j := b ++ segs !!! j]> (<[S j := a]> segs))
  end.

(** Eviction looks at the oldest object of segment 0.  Without hits it leaves;
    with n hits it moves to segment n (the top one if there is none) and starts
    counting anew.  The code aborts if segment 0 has no bytes. *)
Definition bevict (ms : list Z) (segs : list bseg) : option (list bseg) :=
  if decide (bbytes (segs !!! O) > 0) then
    match last (segs !!! O) with
    | None => None
    | Some x =>
        let segs := <[O := removelast (segs !!! O)]> segs in
        if decide (b_fr x > 0) then
          let i := Nat.min (Z.to_nat (b_fr x)) (length segs - 1) in
          Some (bsettle ms i (<[i := mkLob (b_id x) (b_sz x) 0 :: segs !!! i]> segs))
        else Some segs
    end
  else None.

Fixpoint broom (fuel : nat) (ms : list Z) (cap w : Z) (segs : list bseg) : option (list bseg) :=
  if decide (bbytes (concat segs) + w > cap) then
    match fuel with
    | O => None
    | S n => match bevict ms segs with Some segs => broom n ms cap w segs | None => None end
    end
  else Some segs.

(** A new object enters the lowest segment with room, segment 0 if there is
    none. *)
Fixpoint bfirst (ms : list Z) (segs : list bseg) (w : Z) : option nat :=
  match ms, segs with
  | m :: ms, l :: segs => if decide (bbytes l + w <= m) then Some O else S <$> bfirst ms segs w
  | _, _ => None
  end.
Definition bplace (ms : list Z) (segs : list bseg) (r : req) : list bseg :=
  let i := default O (bfirst ms segs (r_size r)) in
  <[i := mkLob (r_id r) (r_size r) 0 :: segs !!! i]> segs.

Fixpoint bvictim (segs : list bseg) : option Z :=
  match segs with
  | [] => None
  | l :: segs => if decide (bbytes l > 0) then b_id <$> last l else bvictim segs
  end.

Definition bdrop (id : Z) (segs : list bseg) : list bseg := (fun l => filter (fun x => b_id x <> id) l) <$> segs.

(** The machine; [None] is an abort. *)
Record bspec : Type := mkBS { bs_segs : list bseg; bs_adm : admissioner }.

Definition bget (ms : list Z) (cap : Z) (a : bspec) (r : req) : option (bspec * bool) :=
  if decide (bcached (bs_segs a) (r_id r)) then Some (mkBS (bmark (r_id r) (bs_segs a)) (bs_adm a), true)
  else
    let '(adm, ok) := admit (bs_adm a) r in
    if (ok && bool_decide (r_size r <= cap) && bool_decide (r_size r <= ms !!! O))%bool then
      match broom (2 * length (concat (bs_segs a))) ms cap (r_size r) (bs_segs a) with
      | Some segs => Some (mkBS (bplace ms segs r) adm, false)
      | None => None
      end
    else Some (mkBS (bs_segs a) adm, false).

Definition bcall (ms : list Z) (cap : Z) (a : bspec) (c : call) : option (bspec * obs) :=
  match c with
  | CGet r => match bget ms cap a r with Some (a, b) => Some (a, OBool b) | None => None end
  | CFind r _ =>
      if decide (bcached (bs_segs a) (r_id r)) then Some (mkBS (bmark (r_id r) (bs_segs a)) (bs_adm a), OBool true)
      else Some (a, OBool false)
  | CInsert r =>
      if decide (bcached (bs_segs a) (r_id r)) then Some (a, OUnit)
      else if decide (bbytes (concat (bs_segs a)) + r_size r > cap) then Some (a, OUnit)
      else Some (mkBS (bplace ms (bs_segs a) r) (bs_adm a), OUnit)
  | CRemove id => Some (mkBS (bdrop id (bs_segs a)) (bs_adm a), OBool (bool_decide (bcached (bs_segs a) id)))
  | CEvict _ =>
      if decide (bbytes (concat (bs_segs a)) <= 0) then Some (a, OUnit)
      else match bevict ms (bs_segs a) with Some segs => Some (mkBS segs (bs_adm a), OUnit) | None => None end
  | CToEvict _ => Some (a, OVictim (bvictim (bs_segs a)))
  end.

Fixpoint brun (ms : list Z) (cap : Z) (a : bspec) (cs : list call) : option (bspec * list obs) :=
  match cs with
  | [] => Some (a, [])
  | c :: cs =>
      match bcall ms cap a c with
      | None => None
      | Some (a, o) => match brun ms cap a cs with Some (a, os) => Some (a, o :: os) | None => None end
      end
  end.
