(** What QDLPv0 does, on plain lists.  An object is its id, the bytes charged for
    it and its hits ([lob], SpecLPSFIFO.v). *)
From stdpp Require Import gmap list numbers fin_maps.
From Verif Require Import Base Driver SpecLPSFIFO.
Open Scope Z_scope.

(** [d_f]: the FIFO, newest first.  [d_g]: the ghosts, newest first.  The Clock is
    a circle of objects with a mark: [d_a] are the objects from the hand on to
    the newest one, [d_b] the objects behind the hand, both oldest first.
    [d_hot]: the current request was found among the ghosts. *)
Record qd : Type := mkQD {
  d_f : list lob;
  d_b : list lob;
  d_a : list lob;
  d_g : list lob;
  d_hot : bool;
  d_adm : admissioner
}.
Definition d_k (d : qd) : list lob := d_b d ++ d_a d.
Definition d_held (d : qd) : list lob := d_f d ++ d_k d.

Definition cold (x : lob) : lob := mkLob (b_id x) (b_sz x) 0.

(** A hand that passed the newest object stands on the oldest again. *)
Definition turn (b a : list lob) : list lob * list lob :=
  match a with [] => ([], b) | _ => (b, a) end.
(** Walk over [a]: clear marks, take the first object without one. *)
Fixpoint sweep (b a : list lob) : option (list lob * list lob * lob) :=
  match a with
  | [] => None
  | x :: a' => if decide (b_fr x > 0) then sweep (b ++ [cold x]) a' else Some (turn b a', x)
  end.
(** From the hand to the newest; if all these were marked, on from the oldest. *)
Definition clock_out (b a : list lob) : option (list lob * list lob * lob) :=
  match sweep b a with
  | Some r => Some r
  | None => sweep [] (b ++ (cold <$> a))
  end.
(** Take objects out of the Clock until it fits [m] bytes. *)
Fixpoint clock_fit (n : nat) (m : Z) (b a : list lob) : list lob * list lob :=
  match n with
  | O => (b, a)
  | S n =>
      if decide (bbytes (b ++ a) > m) then
        match clock_out b a with Some (b, a, _) => clock_fit n m b a | None => (b, a) end
      else (b, a)
  end.

(** Eviction.  If the FIFO is over its share [fs], or the Clock is empty, the
    oldest object of the FIFO goes: with a hit it moves to the Clock, which is
    cut back to its share [ks]; without one it leaves the cache and becomes the
    newest ghost, and the oldest ghosts that do not fit [ks] bytes are forgotten.
    Otherwise the Clock gives up one object. *)
Definition d_evict (fs ks : Z) (d : qd) : option qd :=
  if decide (bbytes (d_f d) > fs \/ d_k d = []) then
    match last (d_f d) with
    | None => None
    | Some x =>
        if decide (b_fr x > 0) then
          let '(b, a) := clock_fit (S (S (length (d_k d)))) ks (d_b d) (d_a d ++ [cold x]) in
          Some (mkQD (removelast (d_f d)) b a (d_g d) (d_hot d) (d_adm d))
        else
          Some (mkQD (removelast (d_f d)) (d_b d) (d_a d) (spill ks (x :: d_g d)).1 (d_hot d) (d_adm d))
    end
  else
    match clock_out (d_b d) (d_a d) with
    | None => None
    | Some (b, a, _) => Some (mkQD (d_f d) b a (d_g d) (d_hot d) (d_adm d))
    end.

Fixpoint d_room (n : nat) (fs ks cap w : Z) (d : qd) : option qd :=
  if decide (bbytes (d_held d) + w > cap) then
    match n with
    | O => None
    | S n => match d_evict fs ks d with Some d => d_room n fs ks cap w d | None => None end
    end
  else Some d.

(** An object asked for while it was a ghost enters the Clock, any other one the
    FIFO. *)
Definition d_place (d : qd) (id w : Z) : qd :=
  if d_hot d then mkQD (d_f d) (d_b d) (d_a d ++ [mkLob id w 0]) (d_g d) (d_hot d) (d_adm d)
  else mkQD (mkLob id w 0 :: d_f d) (d_b d) (d_a d) (d_g d) (d_hot d) (d_adm d).

(** A hit: counted in the FIFO, marked in the Clock. *)
Definition bump (id : Z) (x : lob) : lob := if decide (b_id x = id) then mkLob id (b_sz x) (b_fr x + 1) else x.
Definition mark (id : Z) (x : lob) : lob := if decide (b_id x = id) then mkLob id (b_sz x) 1 else x.
Definition without (id : Z) (l : list lob) : list lob := filter (fun x => b_id x <> id) l.

Definition d_lookup (d : qd) (id : Z) : qd * bool :=
  if decide (id ∈ bids (d_held d)) then
    (mkQD (bump id <$> d_f d) (mark id <$> d_b d) (mark id <$> d_a d) (d_g d) (d_hot d) (d_adm d), true)
  else if decide (id ∈ bids (d_g d)) then
    (mkQD (d_f d) (d_b d) (d_a d) (without id (d_g d)) true (d_adm d), false)
  else (d, false).

Definition d_get (fs ks cap md : Z) (d : qd) (r : req) : option (qd * bool) :=
  let d := mkQD (d_f d) (d_b d) (d_a d) (d_g d) false (d_adm d) in
  let '(d, hit) := d_lookup d (r_id r) in
  if hit then Some (d, true)
  else
    let '(adm, ok) := admit (d_adm d) r in
    let d := mkQD (d_f d) (d_b d) (d_a d) (d_g d) (d_hot d) adm in
    if (ok && bool_decide (r_size r + md <= cap))%bool then
      match d_room (2 * length (d_f d) + length (d_k d)) fs ks cap (r_size r + md) d with
      | Some d => Some (d_place d (r_id r) (r_size r + md), false)
      | None => None
      end
    else Some (d, false).

(** [None]: nothing is claimed (the code aborts, or leaves its own data
    structures inconsistent). *)
Definition d_call (fs ks cap md : Z) (d : qd) (c : call) : option (qd * obs) :=
  match c with
  | CGet r => match d_get fs ks cap md d r with Some (d, b) => Some (d, OBool b) | None => None end
  | CFind r u =>
      if u : bool then let '(d, b) := d_lookup d (r_id r) in Some (d, OBool b)
      else Some (d, OBool (bool_decide (r_id r ∈ bids (d_held d))))
  | CInsert r =>
      if decide (r_id r ∈ bids (d_held d)) then Some (d, OUnit)
      else if decide (bbytes (d_held d) + (r_size r + md) > cap) then Some (d, OUnit)
      else if decide (r_id r ∈ bids (d_g d)) then None
      else Some (d_place d (r_id r) (r_size r + md), OUnit)
  | CRemove id =>
      if decide (id ∈ bids (d_k d)) then None
      else Some (mkQD (without id (d_f d)) (d_b d) (d_a d) (without id (d_g d)) (d_hot d) (d_adm d),
                 OBool (bool_decide (id ∈ bids (d_f d ++ d_g d))))
  | CEvict _ =>
      if decide (d_held d = []) then Some (d, OUnit)
      else match d_evict fs ks d with Some d => Some (d, OUnit) | None => None end
  | CToEvict _ =>
      if decide (d_held d = []) then Some (d, OVictim None)
      else match last (d_f d) with Some x => Some (d, OVictim (Some (b_id x))) | None => None end
  end.

Fixpoint d_run (fs ks cap md : Z) (d : qd) (cs : list call) : option (qd * list obs) :=
  match cs with
  | [] => Some (d, [])
  | c :: cs =>
      match d_call fs ks cap md d c with
      | None => None
      | Some (d, o) => match d_run fs ks cap md d cs with Some (d, os) => Some (d, o :: os) | None => None end
      end
  end.
