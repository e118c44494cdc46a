(** Specification vocabulary for the trace readers (C29, C30, C31).  Nothing
    here refers to mmap offsets: a trace is a list of records and a reader is a
    cursor into that list. *)
From stdpp Require Import gmap list numbers fin_maps.
From Verif Require Import Base.
Open Scope Z_scope.

(** The [n]-byte little-endian (two's complement) encoding of an integer. *)
Fixpoint le_bytes (n : nat) (x : Z) : list Z :=
  match n with
  | O => []
  | S n' => x mod 256 :: le_bytes n' (x / 256)
  end.

(** The [n] records of [isz] bytes stored one after the other. *)
Fixpoint chop (isz n : nat) (bytes : list Z) : list (list Z) :=
  match n with
  | O => []
  | S n' => take isz bytes :: chop isz n' (drop isz bytes)
  end.

(** ** A cursor over a list of records

    [keep r] tells whether a record is delivered when it is met while reading
    ([false] for the zero-size requests that readers drop).  [cap] is the
    user's limit on the number of read requests; limits of one or less mean
    "no limit". *)
Section cursor.
  Context {R : Type}.

  (** Position of the first kept record, counted from the head of [l]. *)
  Fixpoint first_kept (keep : R -> bool) (l : list R) : option (nat * R) :=
    match l with
    | [] => None
    | r :: l' =>
        if keep r then Some (O, r)
        else (fun x => (S x.1, x.2)) <$> first_kept keep l'
    end.

  Record cursor : Type := mkCur {
    c_pos : nat;     (* number of records before the next one to read *)
    c_cnt : Z;       (* read calls so far *)
    c_fwd : bool     (* reading forward *)
  }.

  Context (recs : list R) (keep : bool -> R -> bool) (cap : Z).

  Definition capped (s : cursor) : Prop := 1 < cap /\ cap <= c_cnt s.

  (** One read call: the next kept record, if there is one and the limit is
      not reached. *)
  Definition cur_read (s : cursor) (ans : option R) (s' : cursor) : Prop :=
    c_fwd s' = c_fwd s /\
    ((length recs <= c_pos s)%nat \/ capped s ->
       ans = None /\ c_pos s' = c_pos s /\ c_cnt s' = c_cnt s) /\
    ((c_pos s < length recs)%nat /\ ~ capped s ->
       c_cnt s' = c_cnt s + 1 /\
       match first_kept (keep (c_fwd s)) (drop (c_pos s) recs) with
       | Some (k, r) => ans = Some r /\ c_pos s' = (c_pos s + k + 1)%nat
       | None => ans = None /\ c_pos s' = length recs
       end).

  Definition cur_back (s : cursor) (ans : bool) (s' : cursor) : Prop :=
    c_cnt s' = c_cnt s /\ c_fwd s' = c_fwd s /\
    match c_pos s with
    | O => ans = false /\ c_pos s' = O
    | S p => ans = true /\ c_pos s' = p
    end.

  Definition cur_back2 (s : cursor) (ans : bool) (s' : cursor) : Prop :=
    c_cnt s' = c_cnt s /\ c_fwd s' = c_fwd s /\
    ans = bool_decide (2 <= c_pos s)%nat /\ c_pos s' = (c_pos s - 2)%nat.

  Definition cur_skip (s : cursor) (N : nat) (ans : nat) (s' : cursor) : Prop :=
    c_cnt s' = c_cnt s /\ c_fwd s' = c_fwd s /\
    ans = Nat.min N (length recs - c_pos s) /\ c_pos s' = (c_pos s + ans)%nat.
End cursor.

(** Every [k]-th element of a list: the elements at (1-based) positions
    k, 2k, 3k, ... *)
Definition every_kth {A} (k : nat) (l l' : list A) : Prop :=
  length l' = (length l / k)%nat /\
  forall i, (i < length l')%nat -> l' !! i = l !! ((i + 1) * k - 1)%nat.
