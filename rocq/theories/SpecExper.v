(** What the experimental statistics mean, on the trace alone. *)
From stdpp Require Import gmap list numbers sorting.
From Verif Require Import Base ModelAnalyzer SpecAnalyzer ModelExper.
Open Scope Z_scope.

Definition in_order (tr : list xreq) : Prop := StronglySorted (fun a b => x_time a <= x_time b) tr.
(** the requests for object [x], each as its number, counted from [i], and its time *)
Fixpoint visits (x i : Z) (tr : list xreq) : list (Z * Z) :=
  match tr with
  | [] => []
  | q :: tr => (if decide (x_id q = x) then [(i, x_time q)] else []) ++ visits x (i + 1) tr
  end.
(** first and last of them *)
Definition first_last (x : Z) (tr : list xreq) : option ((Z * Z) * (Z * Z)) :=
  match visits x 1 tr with [] => None | v :: vs => Some (v, default v (last vs)) end.
(** the time, and the number of requests, from the first request for [x] to the last *)
Definition time_alive (x : Z) (tr : list xreq) : Z :=
  match first_last x tr with Some (v, w) => w.2 - v.2 | None => 0 end.
Definition reqs_alive (x : Z) (tr : list xreq) : Z :=
  match first_last x tr with Some (v, w) => w.1 - v.1 | None => 0 end.
(** first requested on the first day *)
Definition first_day (x : Z) (tr : list xreq) : Prop :=
  exists v w, first_last x tr = Some (v, w) /\ v.2 < 86400.

(** [past] holds the earlier requests, most recent first. *)
Definition uses_of (past : list xreq) (q : xreq) : list xreq := filter (fun y => x_id y = x_id q) past.
(** when the object of [q] was first requested *)
Definition born (past : list xreq) (q : xreq) : Z := x_time (default q (last (uses_of past q))).
(** is the object of [q] one that was created in the day after the warm-up? *)
Definition counted (warm : Z) (past : list xreq) (q : xreq) : Prop :=
  warm <= born past q <= warm + 86400.
#[global] Instance counted_dec warm past q : Decision (counted warm past q).
Proof. unfold counted. apply _. Defined.
(** will it be requested again? *)
Definition again (q : xreq) : Prop := 0 <= x_next q /\ x_next q <> 2 ^ 63 - 1.
#[global] Instance again_dec q : Decision (again q).
Proof. unfold again. apply _. Defined.

(** For every counted request: its age, how often its object was requested before,
    how long ago it was last requested (0 for a first request), and whether it will
    be requested again. *)
Record seen : Type := mkSeen { sn_age : Z; sn_freq : Z; sn_idle : Z; sn_again : bool }.
Definition see (past : list xreq) (q : xreq) : seen :=
  mkSeen (x_time q - born past q) (Z.of_nat (length (uses_of past q)))
         (match head (uses_of past q) with Some y => x_time q - x_time y | None => 0 end) (bool_decide (again q)).
Fixpoint sights (warm : Z) (past : list xreq) (tr : list xreq) : list seen :=
  match tr with
  | [] => []
  | q :: tr => (if decide (counted warm past q) then [see past q] else []) ++ sights warm (q :: past) tr
  end.

(** no object is requested over 80 days or more *)
Fixpoint young (past tr : list xreq) : Prop :=
  match tr with
  | [] => True
  | q :: tr => x_time q - born past q < 86400 * 80 /\ young (q :: past) tr
  end.
