(** LIRS as lists: the stack S with the status of each object, the queue Q of
    the resident objects that are not LIR, and the non-resident objects of S in
    the order in which they left the cache.  Lists are newest first. *)
From stdpp Require Import gmap list numbers fin_maps.
From Verif Require Import Base Driver.
Open Scope Z_scope.

Inductive stat := LIR | HIR | NR.
#[global] Instance stat_eq : EqDecision stat. Proof. solve_decision. Defined.

Notation stack := (list (Z * stat)).

Record ispec := mkIS { is_s : stack; is_q : list Z; is_nh : list Z; is_adm : admissioner }.

Definition stat_of (S : stack) (x : Z) : option stat := (list_to_map S : gmap Z stat) !! x.
Definition s_drop (x : Z) (S : stack) : stack := filter (fun p => p.1 <> x) S.
Definition s_mark (x : Z) (t : stat) (S : stack) : stack := (fun p => if decide (p.1 = x) then (x, t) else p) <$> S.
Definition i_drop (x : Z) (l : list Z) : list Z := filter (fun y => y <> x) l.
Definition lirs_of (S : stack) : list Z := (filter (fun p => p.2 = LIR) S).*1.

(** Stack pruning: everything below the lowest LIR object goes. *)
Fixpoint strip (S : stack) : stack :=
  match S with
  | [] => []
  | (x, t) :: S' => if decide (t = LIR) then (x, t) :: S' else strip S'
  end.
Definition pruned (S : stack) : stack := reverse (strip (reverse S)).

Definition resident (a : ispec) (x : Z) : Prop := stat_of (is_s a) x = Some LIR \/ x ∈ is_q a.
Definition unknown (a : ispec) (x : Z) : Prop := stat_of (is_s a) x = None /\ x ∉ is_q a.

Section spec.
  (** [sz]: the size of each object; [h]: the bytes for Q, the rest of [cap] is
      for LIR objects. *)
  Context (sz : Z -> Z) (cap h : Z).

  Definition sum (l : list Z) : Z := foldr (fun x acc => sz x + acc) 0 l.
  Definition lir_bytes (a : ispec) : Z := sum (lirs_of (is_s a)).
  Definition hir_bytes (a : ispec) : Z := sum (is_q a).

  Definition i_prune (a : ispec) : ispec :=
    let S := pruned (is_s a) in
    mkIS S (is_q a) (filter (fun y => y ∈ S.*1) (is_nh a)) (is_adm a).

  (** The oldest object of Q leaves the cache; S remembers it if it is there. *)
  Definition push_out (a : ispec) : ispec :=
    match last (is_q a) with
    | None => a
    | Some v =>
        match stat_of (is_s a) v with
        | None => mkIS (is_s a) (removelast (is_q a)) (is_nh a) (is_adm a)
        | Some _ => mkIS (s_mark v NR (is_s a)) (removelast (is_q a)) (v :: is_nh a) (is_adm a)
        end
    end.

  (** Make room for [need] bytes in Q. *)
  Fixpoint room_q (n : nat) (need : Z) (a : ispec) : ispec :=
    if decide (hir_bytes a + need > h) then
      match n with O => a | Datatypes.S n => room_q n need (push_out a) end
    else a.

  (** The lowest LIR object moves from S to Q. *)
  Definition demote (a : ispec) : ispec :=
    match last (is_s a) with
    | None => a
    | Some (y, _) =>
        let a := mkIS (removelast (is_s a)) (is_q a) (is_nh a) (is_adm a) in
        let a := room_q (length (is_q a)) (sz y) a in
        i_prune (mkIS (is_s a) (y :: is_q a) (is_nh a) (is_adm a))
    end.

  (** Make room for [need] bytes of LIR objects. *)
  Fixpoint room_l (n : nat) (need : Z) (a : ispec) : ispec :=
    if decide (lir_bytes a + need > cap - h) then
      match n with O => a | Datatypes.S n => room_l n need (demote a) end
    else a.

  Definition room_for (x : Z) (a : ispec) : ispec := room_l (length (is_s a)) (sz x) a.

  (** An access: the new state, and whether the object is resident. *)
  Definition i_access (a : ispec) (x : Z) : ispec * bool :=
    match stat_of (is_s a) x with
    | Some LIR => (i_prune (mkIS ((x, LIR) :: s_drop x (is_s a)) (is_q a) (is_nh a) (is_adm a)), true)
    | Some HIR =>
        let a := room_for x (mkIS ((x, HIR) :: s_drop x (is_s a)) (i_drop x (is_q a)) (is_nh a) (is_adm a)) in
        (mkIS (s_mark x LIR (is_s a)) (is_q a) (is_nh a) (is_adm a), true)
    | Some NR => (mkIS ((x, NR) :: s_drop x (is_s a)) (is_q a) (is_nh a) (is_adm a), false)
    | None =>
        if decide (x ∈ is_q a) then
          let a := room_for x (mkIS (is_s a) (x :: i_drop x (is_q a)) (is_nh a) (is_adm a)) in
          (mkIS ((x, HIR) :: is_s a) (is_q a) (is_nh a) (is_adm a), true)
        else (a, false)
    end.

  (** A missed object enters: one that S remembers as LIR; a new one as LIR if
      there is room for it, otherwise as HIR. *)
  Definition i_add (a : ispec) (x : Z) : ispec :=
    match stat_of (is_s a) x with
    | Some _ =>
        let a := room_for x a in
        mkIS (s_mark x LIR (is_s a)) (is_q a) (i_drop x (is_nh a)) (is_adm a)
    | None =>
        if decide (lir_bytes a + sz x <= cap - h) then mkIS ((x, LIR) :: is_s a) (is_q a) (is_nh a) (is_adm a)
        else
          let a := room_q (length (is_q a)) (sz x) a in
          mkIS ((x, HIR) :: is_s a) (x :: is_q a) (is_nh a) (is_adm a)
    end.

  (** The oldest non-resident objects leave S while S is above twice the cache
      size. *)
  Fixpoint trim (n : nat) (a : ispec) : ispec :=
    if decide (sum (is_s a).*1 > 2 * cap) then
      match n, last (is_nh a) with
      | Datatypes.S n, Some v => trim n (mkIS (s_drop v (is_s a)) (is_q a) (removelast (is_nh a)) (is_adm a))
      | _, _ => a
      end
    else a.

  Definition i_get (a : ispec) (r : req) : ispec * bool :=
    let '(a, hit) := i_access a (r_id r) in
    let a :=
      if hit then a
      else
        let '(adm, ok) := admit (is_adm a) r in
        let a := mkIS (is_s a) (is_q a) (is_nh a) adm in
        if (ok && bool_decide (r_size r <= h))%bool then i_add a (r_id r) else a in
    (trim (length (is_nh a)) a, hit).

  Definition i_call (a : ispec) (c : call) : ispec * obs :=
    match c with
    | CGet r => let '(a, b) := i_get a r in (a, OBool b)
    | CFind r u =>
        if u then let '(a, b) := i_access a (r_id r) in (a, OBool b)
        else (a, OBool (bool_decide (stat_of (is_s a) (r_id r) = Some LIR)))
    | CInsert r =>
        if decide (stat_of (is_s a) (r_id r) = None /\ lir_bytes a + hir_bytes a + sz (r_id r) <= cap)
        then (i_add a (r_id r), OUnit) else (a, OUnit)
    | CRemove x =>
        match stat_of (is_s a) x with
        | Some LIR => (i_prune (mkIS (s_drop x (is_s a)) (is_q a) (is_nh a) (is_adm a)), OBool true)
        | Some _ => (mkIS (s_drop x (is_s a)) (i_drop x (is_q a)) (is_nh a) (is_adm a), OBool true)
        | None => (mkIS (is_s a) (i_drop x (is_q a)) (is_nh a) (is_adm a), OBool (bool_decide (x ∈ is_q a)))
        end
    | CEvict r =>
        if decide (stat_of (is_s a) (r_id r) = None /\ r_id r ∉ is_q a /\
                   lir_bytes a + sz (r_id r) > cap - h /\ hir_bytes a + sz (r_id r) > h)
        then (push_out a, OUnit) else (a, OUnit)
    | CToEvict _ => (a, OVictim None)
    end.

  Fixpoint i_run (a : ispec) (cs : list call) : ispec * list obs :=
    match cs with
    | [] => (a, [])
    | c :: cs => let '(a, o) := i_call a c in let '(a, os) := i_run a cs in (a, o :: os)
    end.

  (** Requests: the size of an object does not change. *)
  Definition i_req (r : req) : Prop := r_size r = sz (r_id r) /\ 0 <= sz (r_id r) < 2 ^ 32.

  (** Which calls the refinement covers (PropsLIRS.v shows what happens
      otherwise). *)
  Definition i_ok (a : ispec) (c : call) : Prop :=
    match c with
    | CGet r => i_req r
    | CFind r u => u = true \/ stat_of (is_s a) (r_id r) = Some LIR \/ ~ resident a (r_id r)
    | CInsert r =>
        i_req r /\ r_size r <= h /\
        (stat_of (is_s a) (r_id r) = Some LIR \/
         unknown a (r_id r) /\ (lir_bytes a + r_size r <= cap - h \/ hir_bytes a + r_size r <= h))
    | CRemove x =>
        stat_of (is_s a) x <> Some NR /\
        (stat_of (is_s a) x = Some LIR ->
         is_s a = [(x, LIR)] /\ is_q a = [] \/ exists y, y <> x /\ stat_of (is_s a) y = Some LIR)
    | CEvict r => i_req r /\ r_size r <= h /\ stat_of (is_s a) (r_id r) <> Some NR
    | CToEvict _ => False
    end.

  Fixpoint i_oks (a : ispec) (cs : list call) : Prop :=
    match cs with
    | [] => True
    | c :: cs => i_ok a c /\ i_oks (i_call a c).1 cs
    end.

  (** A hit in Q never pushes out the object that was hit: true when the
      objects that may be cached have one size and Q holds two of them, or when
      Q holds three of the largest. *)
  Definition roomy : Prop := forall x y l,
    0 <= sz x <= h -> 0 <= sz y <= h -> Forall (fun z => 0 <= sz z <= h) l ->
    sum l < sz x -> sz x + sum l + sz y <= h.
End spec.

Definition ispec0 (adm : admissioner) : ispec := mkIS [] [] [] adm.
