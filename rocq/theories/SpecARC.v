(** ARC as in the paper (Megiddo and Modha, FAST 2003, figure 4), with sizes:
    lists of (id, bytes charged), most recently used first. *)
From stdpp Require Import gmap list numbers fin_maps.
From Coq Require Import QArith.
From Verif Require Import Base Driver.
Open Scope Z_scope.

Record ARC : Type := mkARC {
  T1 : list (Z * Z);   (* seen once recently *)
  B1 : list (Z * Z);   (* evicted from T1 *)
  T2 : list (Z * Z);   (* seen at least twice recently *)
  B2 : list (Z * Z);   (* evicted from T2 *)
  p  : Q               (* target size of T1 *)
}.

(** bytes in a list *)
Definition wt (l : list (Z * Z)) : Z := foldr (fun x acc => x.2 + acc) 0 l.

Definition qmax (x y : Q) : Q := if Qle_bool x y then y else x.
Definition qmin (x y : Q) : Q := if Qle_bool y x then y else x.

Section Spec.
  (** [rnd] rounds to floating point; [cap] is the cache size. *)
  Context (rnd : Q -> Q) (cap : Z).

  Definition flt (n : Z) : Q := rnd (inject_Z n).
  (** how far a hit in a ghost list of [b] bytes, the other one having [a],
      moves the target: max(a/b, 1) *)
  Definition bump (a b : Z) : Q := qmax (rnd (flt a / flt b)%Q) 1.
  Definition up (q : Q) (a b : Z) : Q := qmin (rnd (q + bump a b)%Q) (flt cap).
  Definition down (q : Q) (a b : Z) : Q := qmax (rnd (q - bump a b)%Q) 0.

  (** T1 is above its target, or on target and the request is in B2. *)
  Definition over (inB2 : bool) (a : ARC) : Prop :=
    Qlt (p a) (flt (wt (T1 a))) \/ (Qeq (flt (wt (T1 a))) (p a) /\ inB2 = true).

  (** REPLACE: the LRU end of T1 goes to B1 if T1 is over its target or T2 is
      empty, otherwise that of T2 to B2. *)
  Inductive REPLACE (inB2 : bool) (a : ARC) : ARC -> Prop :=
  | replace_T1 l x : T1 a = l ++ [x] -> over inB2 a \/ T2 a = [] ->
      REPLACE inB2 a (mkARC l (x :: B1 a) (T2 a) (B2 a) (p a))
  | replace_T2 l x : T2 a = l ++ [x] -> ~ (T1 a <> [] /\ over inB2 a) ->
      REPLACE inB2 a (mkARC (T1 a) (B1 a) l (x :: B2 a) (p a)).

  (** Case IV: a request of [n] bytes that is in no list. *)
  Inductive CASE4 (n : Z) (a : ARC) : ARC -> Prop :=
  | case4_A1 l x a' : wt (T1 a) + wt (B1 a) + n > cap -> B1 a = l ++ [x] ->
      REPLACE false (mkARC (T1 a) l (T2 a) (B2 a) (p a)) a' -> CASE4 n a a'
  | case4_A2 l x : wt (T1 a) + wt (B1 a) + n > cap -> B1 a = [] -> T1 a = l ++ [x] ->
      CASE4 n a (mkARC l [] (T2 a) (B2 a) (p a))
  | case4_B1 l x a' : wt (T1 a) + wt (B1 a) + n <= cap ->
      wt (T1 a) + wt (B1 a) + wt (T2 a) + wt (B2 a) >= 2 * cap -> B2 a = l ++ [x] ->
      REPLACE false (mkARC (T1 a) (B1 a) (T2 a) l (p a)) a' -> CASE4 n a a'
  | case4_B2 a' : wt (T1 a) + wt (B1 a) + n <= cap ->
      wt (T1 a) + wt (B1 a) + wt (T2 a) + wt (B2 a) < 2 * cap \/ B2 a = [] ->
      REPLACE false a a' -> CASE4 n a a'.

  (** Evict with [ev] until [n] more bytes fit. *)
  Inductive ROOM (n : Z) (ev : ARC -> ARC -> Prop) : ARC -> ARC -> Prop :=
  | room_fits a : wt (T1 a) + wt (T2 a) + n <= cap -> ROOM n ev a a
  | room_evict a a1 a2 : wt (T1 a) + wt (T2 a) + n > cap -> ev a a1 -> ROOM n ev a1 a2 -> ROOM n ev a a2.

  (** A request for [id], which charges [n] bytes; true is a hit. *)
  Inductive REQUEST (id n : Z) (a : ARC) : bool -> ARC -> Prop :=
  | hit_T1 l1 c l2 : T1 a = l1 ++ (id, c) :: l2 ->
      REQUEST id n a true (mkARC (l1 ++ l2) (B1 a) ((id, c) :: T2 a) (B2 a) (p a))
  | hit_T2 l1 c l2 : T2 a = l1 ++ (id, c) :: l2 ->
      REQUEST id n a true (mkARC (T1 a) (B1 a) ((id, c) :: l1 ++ l2) (B2 a) (p a))
  | hit_B1 l1 c l2 a' : B1 a = l1 ++ (id, c) :: l2 ->
      ROOM n (REPLACE false)
        (mkARC (T1 a) (l1 ++ l2) (T2 a) (B2 a) (up (p a) (wt (B2 a)) (wt (B1 a)))) a' ->
      REQUEST id n a false (mkARC (T1 a') (B1 a') ((id, n) :: T2 a') (B2 a') (p a'))
  | hit_B2 l1 c l2 a' : B2 a = l1 ++ (id, c) :: l2 ->
      ROOM n (REPLACE true)
        (mkARC (T1 a) (B1 a) (T2 a) (l1 ++ l2) (down (p a) (wt (B1 a)) (wt (B2 a)))) a' ->
      REQUEST id n a false (mkARC (T1 a') (B1 a') ((id, n) :: T2 a') (B2 a') (p a'))
  | miss a' : id ∉ (T1 a ++ B1 a ++ T2 a ++ B2 a).*1 ->
      ROOM n (CASE4 n) a a' ->
      REQUEST id n a false (mkARC ((id, n) :: T1 a') (B1 a') (T2 a') (B2 a') (p a')).

  Inductive REQUESTS (md : Z) : ARC -> list req -> list bool -> ARC -> Prop :=
  | reqs_nil a : REQUESTS md a [] [] a
  | reqs_cons a r b a1 rs bs a2 : REQUEST (r_id r) (r_size r + md) a b a1 ->
      REQUESTS md a1 rs bs a2 -> REQUESTS md a (r :: rs) (b :: bs) a2.
End Spec.

Definition ARC_start : ARC := mkARC [] [] [] [] 0%Q.

(** Calls ARC survives: gets of objects that charge at least one byte, find
    with update, remove, and evict or to_evict for a request that fits the
    cache.  PropsARC.v refutes the property for the others. *)
Definition ARC_call (cap md : Z) (c : call) : Prop :=
  match c with
  | CGet r => req_ok md r /\ 0 < r_size r + md
  | CFind _ u => u = true
  | CInsert _ => False
  | CRemove _ => True
  | CEvict r | CToEvict r => r_size r + md <= cap
  end.

(** What the proofs need to know about the rounding of double arithmetic. *)
Record rounding (rnd : Q -> Q) : Prop := {
  rnd_mono : forall x y, (x <= y)%Q -> (rnd x <= rnd y)%Q;
  rnd_zero : (rnd 0 == 0)%Q;
  rnd_idem : forall x, (rnd (rnd x) == rnd x)%Q
}.
