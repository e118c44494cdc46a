(** What FIFO_Reinsertion does, on one plain list. *)
From stdpp Require Import gmap list numbers fin_maps.
From Verif Require Import Base Driver.
Open Scope Z_scope.

(** What is known of a cached object: id, size, hits (halved at each
    reinsertion), time of the last access, time of the next access. *)
Record rob : Type := mkRob { x_id : Z; x_sz : Z; x_fr : Z; x_last : Z; x_next : Z }.
Definition xids (l : list rob) : list Z := x_id <$> l.
(** bytes charged, [md] for each object on top of its size *)
Fixpoint xbytes (md : Z) (l : list rob) : Z :=
  match l with [] => 0 | x :: l => x_sz x + md + xbytes md l end.

(** How removals and evictions interact: [Fresh], no eviction has left a pointer;
    [Oldest], it points to the oldest object; [Gone], that object was removed by
    the client. *)
Inductive place : Type := Fresh | Oldest | Gone.

(** [e_l]: the objects, oldest first. *)
Record rei : Type := mkRei { e_l : list rob; e_now : Z; e_at : place; e_seed : Z; e_adm : admissioner }.

Definition hit_by (now : Z) (r : req) (x : rob) : rob :=
  if decide (x_id x = r_id r) then mkRob (x_id x) (x_sz x) (x_fr x + 1) now (r_next r) else x.
Definition halve (x : rob) : rob := mkRob (x_id x) (x_sz x) (Z.quot (x_fr x + 1) 2) (x_last x) (x_next x).

Section Spec.
  Context (cap md n_exam n_keep : Z) (policy_none : bool).
  Context (rank : Z -> Z -> list rob -> list rob * Z).

  Definition e_find (d : rei) (r : req) (u : bool) : res (rei * bool) :=
    if decide (r_id r ∈ xids (e_l d)) then
      Ok (if u then mkRei (hit_by (e_now d) r <$> e_l d) (e_now d) (e_at d) (e_seed d) (e_adm d) else d, true)
    else Ok (d, false).
  Definition e_can (d : rei) (r : req) : res (rei * bool) :=
    let '(a, ok) := admit (e_adm d) r in
    Ok (mkRei (e_l d) (e_now d) (e_at d) (e_seed d) a, ok && bool_decide (r_size r + md <= cap))%bool.
  (** The new object is the newest one. *)
  Definition e_insert (d : rei) (r : req) : res rei :=
    if decide (r_id r ∈ xids (e_l d)) then Err DupInsert
    else Ok (mkRei (e_l d ++ [mkRob (r_id r) (r_size r) 0 (e_now d) (r_next r)]) (e_now d) (e_at d) (e_seed d) (e_adm d)).
  (** With at most [n_exam] objects the oldest goes.  Otherwise the [n_exam]
      oldest are ranked; the first [n_exam - n_keep] go, the others become the
      newest ones, the last ranked the newest of all, with half their hits. *)
  Definition e_evict (d : rei) (_ : req) : res rei :=
    match e_at d, e_l d with
    | Gone, _ => Err UseAfterFree
    | _, [] => Err NullDeref
    | _, _ :: l =>
        if decide (Z.of_nat (length (e_l d)) <= n_exam) then
          Ok (mkRei l (e_now d) (match l with [] => Fresh | _ => Oldest end) (e_seed d) (e_adm d))
        else if policy_none then Err AssertFail
        else
          let '(ml, seed) := rank (e_seed d) (e_now d) (take (Z.to_nat n_exam) (e_l d)) in
          Ok (mkRei (drop (Z.to_nat n_exam) (e_l d) ++ (halve <$> drop (Z.to_nat (n_exam - n_keep)) ml))
                (e_now d) Oldest seed (e_adm d))
    end.
  Definition e_remove (d : rei) (id : Z) : res (rei * bool) :=
    if decide (id ∈ xids (e_l d)) then
      let p := match e_at d with
               | Oldest => if decide (head (xids (e_l d)) = Some id) then Gone else Oldest
               | p => p
               end in
      Ok (mkRei (filter (fun x => x_id x <> id) (e_l d)) (e_now d) p (e_seed d) (e_adm d), true)
    else Ok (d, false).

  Definition e_ops : ops rei :=
    mkOps e_find e_can e_insert e_evict (fun _ _ => Err AssertFail) e_remove
      (fun d => xbytes md (e_l d)) (fun d => Z.of_nat (length (e_l d))) (fun _ => cap) (fun _ => md)
      (fun d => mkRei (e_l d) (e_now d + 1) (e_at d) (e_seed d) (e_adm d)).
End Spec.
Definition e_init (adm : admissioner) (seed : Z) : rei := mkRei [] 0 Fresh seed adm.

(** Programs without remove and to_evict. *)
Definition re_call (md : Z) (c : call) : Prop :=
  match c with
  | CGet r | CInsert r => req_ok md r
  | CFind _ _ | CEvict _ => True
  | CRemove _ | CToEvict _ => False
  end.
