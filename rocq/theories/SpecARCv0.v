(** ARC with ghost lists that hold at most the cache size each, on plain lists
    of (id, bytes charged), most recently used first.  The record and the
    arithmetic of the target are those of SpecARC.v. *)
From stdpp Require Import gmap list numbers fin_maps.
From Coq Require Import QArith.
From Verif Require Import Base Driver SpecARC.
Open Scope Z_scope.

(** The longest part of [l], from the recent end, that fits in [m] bytes. *)
Fixpoint within (m : Z) (l : list (Z * Z)) : list (Z * Z) :=
  match l with
  | [] => []
  | x :: l => if decide (x.2 <= m) then x :: within (m - x.2) l else []
  end.

Section Spec.
  Context (rnd : Q -> Q) (cap : Z).

  (** [x] becomes the most recent ghost; the oldest ghosts make room for it. *)
  Definition remember (x : Z * Z) (l : list (Z * Z)) : list (Z * Z) := x :: within (cap - x.2) l.

  (** REPLACE of SpecARC.v with bounded ghost lists *)
  Inductive REPLACE0 (inB2 : bool) (a : ARC) : ARC -> Prop :=
  | replace0_T1 l x : T1 a = l ++ [x] -> over rnd inB2 a \/ T2 a = [] ->
      REPLACE0 inB2 a (mkARC l (remember x (B1 a)) (T2 a) (B2 a) (p a))
  | replace0_T2 l x : T2 a = l ++ [x] -> ~ (T1 a <> [] /\ over rnd inB2 a) ->
      REPLACE0 inB2 a (mkARC (T1 a) (B1 a) l (remember x (B2 a)) (p a)).

  (** Case IV for a request that needs [m] bytes: B2 is cut until the four
      lists hold less than twice the cache size. *)
  Inductive CASE40 (m : Z) (a : ARC) : ARC -> Prop :=
  | case40_A1 l x a' : wt (T1 a) + wt (B1 a) + m > cap -> B1 a = l ++ [x] ->
      REPLACE0 false (mkARC (T1 a) l (T2 a) (B2 a) (p a)) a' -> CASE40 m a a'
  | case40_A2 l x : wt (T1 a) + wt (B1 a) + m > cap -> B1 a = [] -> T1 a = l ++ [x] ->
      CASE40 m a (mkARC l [] (T2 a) (B2 a) (p a))
  | case40_B a' : wt (T1 a) + wt (B1 a) + m <= cap ->
      REPLACE0 false (mkARC (T1 a) (B1 a) (T2 a)
        (within (2 * cap - 1 - (wt (T1 a) + wt (B1 a) + wt (T2 a))) (B2 a)) (p a)) a' -> CASE40 m a a'.

  (** A request for [id], which charges [n] bytes and needs room for [m]; true
      is a hit. *)
  Inductive REQUEST0 (id n m : Z) (a : ARC) : bool -> ARC -> Prop :=
  | hit0_T1 l1 c l2 : T1 a = l1 ++ (id, c) :: l2 ->
      REQUEST0 id n m a true (mkARC (l1 ++ l2) (B1 a) ((id, c) :: T2 a) (B2 a) (p a))
  | hit0_T2 l1 c l2 : T2 a = l1 ++ (id, c) :: l2 ->
      REQUEST0 id n m a true (mkARC (T1 a) (B1 a) ((id, c) :: l1 ++ l2) (B2 a) (p a))
  | hit0_B1 l1 c l2 a' : B1 a = l1 ++ (id, c) :: l2 ->
      ROOM cap m (REPLACE0 false)
        (mkARC (T1 a) (l1 ++ l2) (T2 a) (B2 a) (up rnd cap (p a) (wt (B2 a)) (wt (B1 a)))) a' ->
      REQUEST0 id n m a false (mkARC (T1 a') (B1 a') ((id, n) :: T2 a') (B2 a') (p a'))
  | hit0_B2 l1 c l2 a' : B2 a = l1 ++ (id, c) :: l2 ->
      ROOM cap m (REPLACE0 true)
        (mkARC (T1 a) (B1 a) (T2 a) (l1 ++ l2) (down rnd (p a) (wt (B1 a)) (wt (B2 a)))) a' ->
      REQUEST0 id n m a false (mkARC (T1 a') (B1 a') ((id, n) :: T2 a') (B2 a') (p a'))
  | miss0 a' : id ∉ (T1 a ++ B1 a ++ T2 a ++ B2 a).*1 ->
      ROOM cap m (CASE40 m) a a' ->
      REQUEST0 id n m a false (mkARC ((id, n) :: T1 a') (B1 a') (T2 a') (B2 a') (p a')).

  (** Requests charge [size + md] and need room for [size + omd]. *)
  Inductive REQUESTS0 (md omd : Z) : ARC -> list req -> list bool -> ARC -> Prop :=
  | reqs0_nil a : REQUESTS0 md omd a [] [] a
  | reqs0_cons a r b a1 rs bs a2 : REQUEST0 (r_id r) (r_size r + md) (r_size r + omd) a b a1 ->
      REQUESTS0 md omd a1 rs bs a2 -> REQUESTS0 md omd a (r :: rs) (b :: bs) a2.
End Spec.

(** Calls ARCv0 survives: requests for an id always have the same size, and
    objects charge at least one byte; evict only for a request that needs at
    least one byte and fits the cache. *)
Definition ARC0_call (cap md omd : Z) (size_of : Z -> Z) (c : call) : Prop :=
  match c with
  | CGet r => req_ok md r /\ 0 < r_size r + md /\ r_size r = size_of (r_id r)
  | CFind r _ => req_ok md r /\ r_size r = size_of (r_id r)
  | CInsert _ => False
  | CRemove _ => True
  | CEvict r => 0 < r_size r + omd <= cap
  | CToEvict _ => True
  end.
