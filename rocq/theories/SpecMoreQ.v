(** Specifications for LRU_Prob, nop and FIFO_Merge. *)
From stdpp Require Import gmap list numbers fin_maps.
From Verif Require Import Base Driver Abs.
Open Scope Z_scope.

(** LRU with probabilistic promotion.  A use may or may not count as a
    promotion, so whatever the draws: the victim came in no later than the last
    use of any object.  If every hit promotes ([al]) it is LRU, if none does
    ([ne]) it is FIFO. *)
Definition pol_lru_prob (al ne : Prop) : policy := fun m v =>
  forall e id e', m !! v = Some e -> m !! id = Some e' ->
    e_ins e <= e_last e' /\
    (al -> e_last e <= e_last e') /\
    (ne -> e_ins e <= e_ins e').

(** Programs that neither call remove nor to_evict. *)
Definition merge_call (md : Z) (c : call) : Prop :=
  match c with
  | CGet r | CInsert r => req_ok md r
  | CFind _ _ | CEvict _ => True
  | CRemove _ | CToEvict _ => False
  end.

(** [l] rotated so that it starts with [p]. *)
Fixpoint rot_from (p : Z) (pre l : list Z) : list Z :=
  match l with
  | [] => rev pre
  | x :: l' => if decide (x = p) then l ++ rev pre else rot_from p (x :: pre) l'
  end.
Definition rot_to (p : Z) (l : list Z) : list Z := rot_from p [] l.

(** [k] successive evictions. *)
Fixpoint evict_n {S} (O : ops S) (k : nat) (s : S) (r : req) : res S :=
  match k with
  | 0%nat => Ok s
  | Datatypes.S k => let! s := op_evict O s r in evict_n O k s r
  end.
