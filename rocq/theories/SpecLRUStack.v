(** Specification of LRU by the recency stack: all distinct ids requested so
    far, most recent first. *)
From stdpp Require Import list numbers.
Open Scope Z_scope.

Definition recency_step (st : list Z) (x : Z) : list Z := x :: filter (fun y => y <> x) st.
Definition recency (ids : list Z) : list Z := fold_left recency_step ids [].

(** Stack distance of the next request to [x]: how many other ids were
    requested since the last request to [x]; [None] for a first request. *)
Fixpoint stack_pos (x : Z) (st : list Z) : option nat :=
  match st with
  | [] => None
  | y :: st' => if decide (y = x) then Some 0%nat else S <$> stack_pos x st'
  end.
Definition stack_distance (before : list Z) (x : Z) : option nat := stack_pos x (recency before).
