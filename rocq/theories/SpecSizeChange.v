(** Size changes of a trace, stated on the trace alone. *)
From stdpp Require Import gmap list numbers fin_maps.
From Verif Require Import Base ModelAnalyzer SpecAnalyzer.
Open Scope Z_scope.

Definition writes (q : areq) : Prop := a_op q = OP_SET \/ a_op q = OP_REPLACE \/ a_op q = OP_CAS.
#[global] Instance writes_dec q : Decision (writes q).
Proof. unfold writes. apply _. Defined.
(** the sizes before and after, for every request that writes an object again;
    [past] holds the earlier requests, most recent first *)
Fixpoint changes (past tr : list areq) : list (Z * Z) :=
  match tr with
  | [] => []
  | q :: tr =>
      match last_use past (a_id q) with
      | Some (_, y) => if decide (writes q) then [(a_size y, a_size q)] else []
      | None => []
      end ++ changes (q :: past) tr
  end.
