(** What LeCaR is supposed to do, on lists of objects. *)
From stdpp Require Import gmap list numbers fin_maps.
From Verif Require Import Base Driver.
Open Scope Z_scope.

(** A cached object: its id, the bytes it is charged (size plus metadata) and
    how often it was accessed since it came in. *)
Record lobj := mkLO { lo_id : Z; lo_w : Z; lo_n : Z }.
(** An evicted object that is remembered, and when it was evicted. *)
Record lghost := mkLG { lg_id : Z; lg_w : Z; lg_t : Z }.

(** The cached objects, most recently used first; the objects evicted by each
    expert, latest first; those evicted by both; the weights; how many random
    choices were made; the clock; the admission policy. *)
Record lspec (W : Type) := mkLS {
  ls_l : list lobj; ls_gl : list lghost; ls_gf : list lghost; ls_both : list Z;
  ls_w : W; ls_draws : nat; ls_now : Z; ls_adm : admissioner }.
Arguments mkLS {W}. Arguments ls_l {W}. Arguments ls_gl {W}. Arguments ls_gf {W}.
Arguments ls_both {W}. Arguments ls_w {W}. Arguments ls_draws {W}. Arguments ls_now {W}.
Arguments ls_adm {W}.

Definition l_bytes (l : list lobj) : Z := foldr (fun x n => lo_w x + n) 0 l.
Definition g_bytes (l : list lghost) : Z := foldr (fun x n => lg_w x + n) 0 l.
Definition l_find (id : Z) (l : list lobj) : option lobj := list_find (fun x => lo_id x = id) l ≫= fun p => Some p.2.
Definition l_drop (id : Z) (l : list lobj) : list lobj := filter (fun x => lo_id x <> id) l.
Definition g_find (id : Z) (l : list lghost) : option lghost := list_find (fun x => lg_id x = id) l ≫= fun p => Some p.2.
Definition g_drop (id : Z) (l : list lghost) : list lghost := filter (fun x => lg_id x <> id) l.

(** The choice of the LRU expert: the least recently used object. *)
Definition lru_choice (l : list lobj) : option lobj := last l.
(** The choice of the LFU expert: among the objects accessed no more often than
    any other, the least recently used. *)
Definition lfu_choice (l : list lobj) : option lobj :=
  last (filter (fun x => Forall (fun y => lo_n x <= lo_n y) l) l).

(** A ghost list keeps its newest members within [m] bytes. *)
Fixpoint keep (m : Z) (g : list lghost) : list lghost :=
  match g with
  | [] => []
  | x :: g => if decide (lg_w x <= m) then x :: keep (m - lg_w x) g else []
  end.

Section Spec.
  Context {W : Type} (upd : bool -> Z -> W -> W) (pick : W -> nat -> bool) (cap md : Z).
  Notation spec := (lspec W).

  Definition set_l (a : spec) (l : list lobj) : spec :=
    mkLS l (ls_gl a) (ls_gf a) (ls_both a) (ls_w a) (ls_draws a) (ls_now a) (ls_adm a).
  Definition set_adm (a : spec) (adm : admissioner) : spec :=
    mkLS (ls_l a) (ls_gl a) (ls_gf a) (ls_both a) (ls_w a) (ls_draws a) (ls_now a) adm.
  Definition tick (a : spec) : spec :=
    mkLS (ls_l a) (ls_gl a) (ls_gf a) (ls_both a) (ls_w a) (ls_draws a) (ls_now a + 1) (ls_adm a).

  (** One access that counts. *)
  Definition l_access (a : spec) (id : Z) : spec * bool :=
    match l_find id (ls_l a) with
    | Some x => (set_l a (mkLO id (lo_w x) (lo_n x + 1) :: l_drop id (ls_l a)), true)
    | None =>
        match g_find id (ls_gl a), g_find id (ls_gf a) with
        | Some g, _ =>
            (mkLS (ls_l a) (g_drop id (ls_gl a)) (ls_gf a) (ls_both a)
               (upd true (ls_now a - lg_t g) (ls_w a)) (ls_draws a) (ls_now a) (ls_adm a), false)
        | None, Some g =>
            (mkLS (ls_l a) (ls_gl a) (g_drop id (ls_gf a)) (ls_both a)
               (upd false (ls_now a - lg_t g) (ls_w a)) (ls_draws a) (ls_now a) (ls_adm a), false)
        | None, None =>
            (mkLS (ls_l a) (ls_gl a) (ls_gf a) (filter (fun y => y <> id) (ls_both a))
               (ls_w a) (ls_draws a) (ls_now a) (ls_adm a), false)
        end
    end.

  Definition l_evict (a : spec) : spec :=
    match lru_choice (ls_l a), lfu_choice (ls_l a) with
    | Some x, Some y =>
        if decide (lo_id x = lo_id y) then
          mkLS (l_drop (lo_id x) (ls_l a)) (ls_gl a) (ls_gf a) (lo_id x :: ls_both a)
            (ls_w a) (ls_draws a) (ls_now a) (ls_adm a)
        else if pick (ls_w a) (ls_draws a) then
          mkLS (l_drop (lo_id x) (ls_l a)) (keep (cap / 2) (mkLG (lo_id x) (lo_w x) (ls_now a) :: ls_gl a))
            (ls_gf a) (ls_both a) (ls_w a) (S (ls_draws a)) (ls_now a) (ls_adm a)
        else
          mkLS (l_drop (lo_id y) (ls_l a)) (ls_gl a) (keep (cap / 2) (mkLG (lo_id y) (lo_w y) (ls_now a) :: ls_gf a))
            (ls_both a) (ls_w a) (S (ls_draws a)) (ls_now a) (ls_adm a)
    | _, _ => a
    end.

  (** Evict until [w] bytes fit. *)
  Fixpoint l_room (n : nat) (w : Z) (a : spec) : spec :=
    match n with
    | O => a
    | S n => if decide (l_bytes (ls_l a) + w > cap) then l_room n w (l_evict a) else a
    end.

  Definition l_insert (a : spec) (r : req) : spec := set_l a (mkLO (r_id r) (r_size r + md) 1 :: ls_l a).

  Definition l_get (a : spec) (r : req) : spec * bool :=
    let '(a, hit) := l_access (tick a) (r_id r) in
    if hit : bool then (a, true)
    else
      let '(adm, ok) := admit (ls_adm a) r in
      let a := set_adm a adm in
      if (ok && bool_decide (r_size r + md <= cap))%bool then
        (l_insert (l_room (length (ls_l a)) (r_size r + md) a) r, false)
      else (a, false).

  Definition cached (a : spec) (id : Z) : bool := bool_decide (is_Some (l_find id (ls_l a))).

  Definition l_call (a : spec) (c : call) : spec * obs :=
    match c with
    | CGet r => let '(a, b) := l_get a r in (a, OBool b)
    | CFind r true => let '(a, b) := l_access a (r_id r) in (a, OBool b)
    | CFind r false => (a, OBool (cached a (r_id r)))
    | CInsert r =>
        if cached a (r_id r) then (a, OUnit)
        else if decide (l_bytes (ls_l a) + (r_size r + md) > cap) then (a, OUnit)
        else (l_insert a r, OUnit)
    | CRemove id => (set_l a (l_drop id (ls_l a)), OBool (cached a id))
    | CEvict _ => (l_evict a, OUnit)
    | CToEvict _ => (a, OUnit)
    end.

  Fixpoint l_run (a : spec) (cs : list call) : spec * list obs :=
    match cs with
    | [] => (a, [])
    | c :: cs =>
        let '(a, o) := l_call a c in
        let '(a, os) := l_run a cs in (a, o :: os)
    end.

  (** The ids of evicted objects that are still remembered. *)
  Definition ghosts (a : spec) : list Z := map lg_id (ls_gl a) ++ map lg_id (ls_gf a) ++ ls_both a.

  (** The calls the property is about: sizes that fit in 32 bits, no object
      accessed 2^22 times while cached, the clock below 2^39, no insert or
      remove aimed at a remembered object, no to_evict. *)
  Definition l_ok (a : spec) (c : call) : Prop :=
    match c with
    | CGet r => req_ok md r /\ ls_now a < 2 ^ 39 - 1 /\
                forall x, l_find (r_id r) (ls_l a) = Some x -> lo_n x < 2 ^ 22 - 1
    | CFind r u => if u : bool then forall x, l_find (r_id r) (ls_l a) = Some x -> lo_n x < 2 ^ 22 - 1 else True
    | CInsert r => req_ok md r /\ r_id r ∉ ghosts a
    | CRemove id => id ∉ ghosts a
    | CEvict _ => True
    | CToEvict _ => False
    end.
  Fixpoint l_oks (a : spec) (cs : list call) : Prop :=
    match cs with
    | [] => True
    | c :: cs => l_ok a c /\ l_oks (l_call a c).1 cs
    end.
End Spec.

Definition lspec0 {W} (w : W) (adm : admissioner) : lspec W := mkLS [] [] [] [] w 0 0 adm.
