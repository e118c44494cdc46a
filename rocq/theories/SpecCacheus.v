(** What Cacheus does, written without its queues, tables and frequency lists.
    Lists of objects are lists of (id, size), youngest first. *)
From stdpp Require Import gmap list numbers fin_maps.
From Verif Require Import Base Driver Abs SpecComp.
Open Scope Z_scope.

(** The longest prefix (the youngest objects) of at most [z] bytes, and the
    others. *)
Fixpoint keep (z : Z) (l : list (Z * Z)) : list (Z * Z) :=
  match l with
  | [] => []
  | x :: l => if decide (x.2 <= z) then x :: keep (z - x.2) l else []
  end.
Definition rest (z : Z) (l : list (Z * Z)) : list (Z * Z) := drop (length (keep z l)) l.

Definition without (id : Z) (l : list (Z * Z)) : list (Z * Z) := filter (fun x => x.1 <> id) l.

(** Lowest frequency; among those the most recently used. *)
Definition pol_cr (m : gmap Z entry) (v : Z) : Prop :=
  forall e id' e', m !! v = Some e -> m !! id' = Some e' ->
    e_cnt e < e_cnt e' \/ (e_cnt e = e_cnt e' /\ e_last e' <= e_last e).

Section Spec.
  Context {W : Type} (reweigh : bool -> bool -> W -> W) (relearn : Z -> W -> W) (draw : W -> bool * W) (cap : Z).

  (** [cs_m] has the frequency ([e_cnt]) and the time of the last access
      ([e_last]) of every cached object.  [cs_past] is the frequency an object
      had when it left the cache the last time. *)
  Record cst : Type := mkCst {
    cs_R    : list (Z * Z);     (* reused objects *)
    cs_S    : list (Z * Z);     (* others *)
    cs_H    : list (Z * Z);     (* the history *)
    cs_m    : gmap Z entry;
    cs_past : Z -> Z;
    cs_gl   : list (Z * Z);     (* evicted by the choice of SR_LRU *)
    cs_gf   : list (Z * Z);     (* evicted by the choice of CR_LFU *)
    cs_t    : Z;                (* hits and insertions so far *)
    cs_n    : Z;                (* requests so far *)
    cs_hits : Z;                (* hits in this learning interval *)
    cs_w    : W;
    cs_adm  : admissioner
  }.

  Definition cs_init (adm : admissioner) (w : W) : cst := mkCst [] [] [] ∅ (fun _ => 0) [] [] 0 0 0 w adm.

  (** A hit moves the object to the head of R; what R has no room for moves to
      the head of S. *)
  Definition cs_hit (a : cst) (r : req) (e : entry) : cst :=
    let R := without (r_id r) (cs_R a) in
    mkCst ((r_id r, e_size e) :: keep (cap / 2 - e_size e) R)
          (rest (cap / 2 - e_size e) R ++ without (r_id r) (cs_S a))
          (cs_H a) (<[r_id r := touch (cs_t a) r e]> (cs_m a)) (cs_past a) (cs_gl a) (cs_gf a)
          (cs_t a + 1) (cs_n a) (cs_hits a + 1) (cs_w a) (cs_adm a).

  (** A miss: the experts whose list has the object are blamed. *)
  Definition cs_miss (a : cst) (id : Z) : cst :=
    mkCst (cs_R a) (cs_S a) (cs_H a) (cs_m a) (cs_past a) (without id (cs_gl a)) (without id (cs_gf a))
          (cs_t a) (cs_n a) (cs_hits a)
          (reweigh (bool_decide (id ∈ (cs_gl a).*1)) (bool_decide (id ∈ (cs_gf a).*1)) (cs_w a)) (cs_adm a).

  (** An object that the history has goes to the head of R with one more than its
      old frequency, any other to the head of S with frequency 1; what S then has
      no room for goes to the history, which keeps less than [cap] bytes. *)
  Definition cs_insert (a : cst) (r : req) : cst :=
    let z := r_size r in
    let old := bool_decide (r_id r ∈ (cs_H a).*1) in
    let R := if old then (r_id r, z) :: keep (cap / 2 - z) (cs_R a) else cs_R a in
    let S := if old then rest (cap / 2 - z) (cs_R a) ++ cs_S a else (r_id r, z) :: cs_S a in
    let out := rest (cap / 2) S in
    let f := if old then cs_past a (r_id r) + 1 else 1 in
    mkCst R (keep (cap / 2) S) (keep (cap - 1) (out ++ without (r_id r) (cs_H a)))
          (filter (fun x => x.1 ∉ out.*1) (<[r_id r := mkEntry z (cs_t a) (cs_t a) f (r_next r) z]> (cs_m a)))
          (fun id => if decide (id ∈ out.*1) then match cs_m a !! id with Some e => e_cnt e | None => 0 end else cs_past a id)
          (cs_gl a) (cs_gf a) (cs_t a + 1) (cs_n a) (cs_hits a) (cs_w a) (cs_adm a).

  (** One object leaves: the oldest of R and S, or an object of the lowest
      frequency, by the draw; the history has its frequency, and the expert's
      list has it unless the experts agree. *)
  Definition cs_evict (a b : cst) : Prop :=
    exists vl vf e, let '(lru, w) := draw (cs_w a) in let v := if lru : bool then vl else vf in
      last (cs_R a ++ cs_S a).*1 = Some vl /\ is_Some (cs_m a !! vf) /\ pol_cr (cs_m a) vf /\ cs_m a !! v = Some e /\
      b = mkCst (without v (cs_R a)) (without v (cs_S a)) ((v, e_size e) :: keep (cap - 1 - e_size e) (cs_H a))
            (delete v (cs_m a)) (fun id => if decide (id = v) then e_cnt e else cs_past a id)
            (if decide (vl <> vf /\ lru = true) then (v, e_size e) :: keep (cap / 2 - e_size e) (cs_gl a) else cs_gl a)
            (if decide (vl <> vf /\ lru = false) then (v, e_size e) :: keep (cap / 2 - e_size e) (cs_gf a) else cs_gf a)
            (cs_t a) (cs_n a) (cs_hits a) w (cs_adm a).

  (** Evictions until [z] more bytes fit. *)
  Inductive cs_room (z : Z) : cst -> cst -> Prop :=
  | room_enough a : total_bytes (cs_R a ++ cs_S a) + z <= cap -> cs_room z a a
  | room_more a b c : total_bytes (cs_R a ++ cs_S a) + z > cap -> cs_evict a b -> cs_room z b c -> cs_room z a c.

  Definition cs_tick (a : cst) : cst :=
    mkCst (cs_R a) (cs_S a) (cs_H a) (cs_m a) (cs_past a) (cs_gl a) (cs_gf a) (cs_t a) (cs_n a + 1) (cs_hits a) (cs_w a) (cs_adm a).
  Definition cs_set_adm (a : cst) (adm : admissioner) : cst :=
    mkCst (cs_R a) (cs_S a) (cs_H a) (cs_m a) (cs_past a) (cs_gl a) (cs_gf a) (cs_t a) (cs_n a) (cs_hits a) (cs_w a) adm.

  (** After every [cap] requests the learning rate is updated. *)
  Definition cs_learn (a : cst) : cst :=
    if decide (cs_n a mod cap = 0) then
      mkCst (cs_R a) (cs_S a) (cs_H a) (cs_m a) (cs_past a) (cs_gl a) (cs_gf a) (cs_t a) (cs_n a) 0
            (relearn (cs_hits a / cap) (cs_w a)) (cs_adm a)
    else a.

  Inductive cs_get (a : cst) (r : req) : cst -> bool -> Prop :=
  | get_hit e : cs_m a !! r_id r = Some e -> cs_get a r (cs_learn (cs_hit (cs_tick a) r e)) true
  | get_refused adm : cs_m a !! r_id r = None -> admit (cs_adm a) r = (adm, false) ->
      cs_get a r (cs_learn (cs_set_adm (cs_miss (cs_tick a) (r_id r)) adm)) false
  | get_large adm : cs_m a !! r_id r = None -> admit (cs_adm a) r = (adm, true) -> r_size r > cap ->
      cs_get a r (cs_learn (cs_set_adm (cs_miss (cs_tick a) (r_id r)) adm)) false
  | get_bypass adm b : cs_m a !! r_id r = None -> admit (cs_adm a) r = (adm, true) -> cap / 2 < r_size r <= cap ->
      cs_room (r_size r) (cs_set_adm (cs_miss (cs_tick a) (r_id r)) adm) b -> cs_get a r (cs_learn b) false
  | get_insert adm b : cs_m a !! r_id r = None -> admit (cs_adm a) r = (adm, true) -> r_size r <= cap / 2 ->
      cs_room (r_size r) (cs_set_adm (cs_miss (cs_tick a) (r_id r)) adm) b -> cs_get a r (cs_learn (cs_insert b r)) false.

  Inductive cs_step (a : cst) : call -> cst -> obs -> Prop :=
  | st_get r b h : cs_get a r b h -> cs_step a (CGet r) b (OBool h)
  | st_look r : cs_step a (CFind r false) a (OBool (bool_decide (is_Some (cs_m a !! r_id r))))
  | st_find_hit r e : cs_m a !! r_id r = Some e -> cs_step a (CFind r true) (cs_hit a r e) (OBool true)
  | st_find_miss r : cs_m a !! r_id r = None -> cs_step a (CFind r true) (cs_miss a (r_id r)) (OBool false)
  | st_empty r : cs_m a = ∅ -> cs_step a (CEvict r) a OUnit
  | st_evict r b : cs_m a <> ∅ -> cs_evict a b -> cs_step a (CEvict r) b OUnit.

  Inductive cs_run (a : cst) : list call -> cst -> list obs -> Prop :=
  | run_nil : cs_run a [] a []
  | run_cons c cs b o d os : cs_step a c b o -> cs_run b cs d os -> cs_run a (c :: cs) d (o :: os).

  (** The calls: requests of at least one byte; no direct insertion, removal or
      to_evict. *)
  Definition cs_call (c : call) : Prop :=
    match c with
    | CGet r => 1 <= r_size r < 2 ^ 32
    | CFind _ _ | CEvict _ => True
    | _ => False
    end.
End Spec.
Arguments cst : clear implicits.
