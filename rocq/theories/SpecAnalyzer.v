(** What the numbers of a trace analysis mean, stated on the trace alone.
    Nothing here refers to the analyzer's code except the record types of a
    request. *)
From stdpp Require Import gmap list numbers fin_maps sorting.
From Verif Require Import Base ModelAnalyzer.
Open Scope Z_scope.

Definition zsum (l : list Z) : Z := foldr Z.add 0 l.
(** how many elements satisfy a test *)
Definition cnt {A : Type} (f : A -> bool) (l : list A) : Z :=
  Z.of_nat (length (filter (fun x => f x = true) l)).

(** time since the start [t0] of the trace, and the number of the time window
    of length [tw] it falls in *)
Definition rel (t0 : Z) (q : areq) : Z := a_time q - t0.
Definition win (tw t0 : Z) (q : areq) : Z := rel t0 q / tw.

(** The traces the analyzer accepts: at least one request, ordered by time,
    and no longer than an int can count. *)
Definition trace_ok (tw : Z) (tr : list areq) : Prop :=
  0 < tw /\
  exists q0 rest, tr = q0 :: rest /\
    StronglySorted (fun a b => a_time a <= a_time b) tr /\
    Forall (fun q => (win tw (a_time q0) q + 1) * tw < 2 ^ 31) tr.

(** The start of a trace. *)
Definition start_of (tr : list areq) : Z := a_time (default areq0 (head tr)).

(** The last use of an object: [past] holds the earlier requests, most recent
    first; the number is how many requests lie between. *)
Definition last_use (past : list areq) (id : Z) : option (nat * areq) :=
  list_find (fun q => a_id q = id) past.

(** The time of the first request for the object of [q]. *)
Definition created (t0 : Z) (past : list areq) (q : areq) : Z :=
  rel t0 (default q (last (filter (fun x => a_id x = a_id q) past))).

(** No request of the same time window asked for the same object. *)
Definition fresh_in_window (tw t0 : Z) (past : list areq) (q : areq) : Prop :=
  Forall (fun x => a_id x = a_id q -> win tw t0 x <> win tw t0 q) past.
#[global] Instance fresh_in_window_dec tw t0 past q : Decision (fresh_in_window tw t0 past q).
Proof. unfold fresh_in_window. apply _. Defined.

(** What a request means after the earlier requests [past]. *)
Definition meaning (tw t0 : Z) (past : list areq) (q : areq) : ereq :=
  let u := last_use past (a_id q) in
  mkE (rel t0 q) (a_id q) (a_size q) (a_op q) (a_ttl q)
      (bool_decide (u = None))
      (bool_decide (u <> None) &&
       (bool_decide (a_op q = OP_SET) || bool_decide (a_op q = OP_REPLACE)
        || bool_decide (a_op q = OP_CAS)))
      (bool_decide (fresh_in_window tw t0 past q))
      (created t0 past q)
      (match u with Some (i, _) => Z.of_nat i + 1 | None => -1 end)
      (match u with Some (_, x) => a_time q - a_time x | None => -1 end).

Fixpoint meanings (tw t0 : Z) (past : list areq) (tr : list areq) : list ereq :=
  match tr with
  | [] => []
  | q :: tr => meaning tw t0 past q :: meanings tw t0 (q :: past) tr
  end.

(** The first request for every object, in the order of the trace. *)
Fixpoint first_reqs (past : list areq) (tr : list areq) : list areq :=
  match tr with
  | [] => []
  | q :: tr =>
      match last_use past (a_id q) with None => [q] | Some _ => [] end
      ++ first_reqs (q :: past) tr
  end.

(** For every request that is not the first for its object: the seconds and
    the number of requests since the previous one. *)
Fixpoint gaps (past : list areq) (tr : list areq) : list (Z * Z) :=
  match tr with
  | [] => []
  | q :: tr =>
      match last_use past (a_id q) with
      | None => []
      | Some (i, x) => [(a_time q - a_time x, Z.of_nat i + 1)]
      end ++ gaps (q :: past) tr
  end.

(** The objects of a trace and the number of requests for one of them. *)
Definition objects (tr : list areq) : list Z := remove_dups (a_id <$> tr).
Definition uses (tr : list areq) (id : Z) : Z := cnt (fun q => bool_decide (a_id q = id)) tr.

(** ** Windows *)

(** The requests of time window [i]. *)
Definition in_window (tw t0 i : Z) (tr : list areq) : list areq :=
  filter (fun q => win tw t0 q = i) tr.

(** A request's predecessor's window: [owners 0 [w0; w1; w2]] is
    [[0; w0; w1]]. *)
Fixpoint owners (w : Z) (ws : list Z) : list Z :=
  match ws with
  | [] => []
  | w' :: ws => w :: owners w' ws
  end.
(** The elements of [l] whose predecessor lies in window [i] (the first
    element counts as having one in window 0); [ws] are their windows. *)
Definition after_window {A : Type} (i : Z) (ws : list Z) (l : list A) : list A :=
  (filter (fun p => p.1 = i) (zip (owners 0 ws) l)).*2.

(** A row of counters, padded with zeros. *)
Definition counts_row (row : list Z) (buckets : list nat) : Prop :=
  forall p : nat, default 0 (row !! p) = u32 (cnt (fun b => bool_decide (b = p)) buckets).

(** The window in which an object is first requested. *)
Definition born (tw t0 : Z) (tr : list areq) (id : Z) : option Z :=
  win tw t0 <$> head (filter (fun q => a_id q = id) tr).
(** How many distinct objects born in window [c] are requested in window [w]. *)
Definition survivors (tw t0 w c : Z) (tr : list areq) : Z :=
  Z.of_nat (length (filter (fun id => born tw t0 tr id = Some c)
                           (remove_dups (a_id <$> in_window tw t0 w tr)))).
