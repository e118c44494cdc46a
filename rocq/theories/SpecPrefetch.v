(** Specification of prefetching: the abstract cache of Abs.v, with requests
    that the prefetcher adds after each request of the client. *)
From stdpp Require Import gmap list numbers fin_maps.
From Verif Require Import Base Driver Abs.
Open Scope Z_scope.

Section Fill.
  Context (pol : policy) (cap md : Z).

  (** Bring in one object: nothing if it is there; otherwise policy victims
      leave until it fits. *)
  Inductive abs_fill : abs -> req -> abs -> Prop :=
  | F_there a r : is_Some (a_m a !! r_id r) -> abs_fill a r a
  | F_load t m a r m' :
      m !! r_id r = None -> evict_to pol cap md (r_size r + md) m m' ->
      abs_fill (mkAbs t m a) r (mkAbs (t + 1) (<[r_id r := fresh t r]> m') a).

  Inductive abs_fills : abs -> list req -> abs -> Prop :=
  | F_nil a : abs_fills a [] a
  | F_cons a r a' rs a'' : abs_fill a r a' -> abs_fills a' rs a'' -> abs_fills a (r :: rs) a''.

  (** [want h r l]: after the requests [h], oldest first, the request [r] makes
      the prefetcher ask for [l].  The answers to the client come from the
      cache as it is when the request arrives. *)
  Context (want : list req -> req -> list req -> Prop).
  Inductive abs_prun : list req -> abs -> list req -> list bool -> abs -> Prop :=
  | P_nil h a : abs_prun h a [] [] a
  | P_cons h a r b a1 l a2 rs bs a3 :
      abs_step pol cap md a (CGet r) (OBool b) a1 ->
      want h r l -> abs_fills a1 l a2 ->
      abs_prun (h ++ [r]) a2 rs bs a3 ->
      abs_prun h a (r :: rs) (b :: bs) a3.
End Fill.

(** ** OBL: one block lookahead *)

(** The [k] requests before [r] are for the [k] blocks before it, in order. *)
Definition sequential (k : nat) (h : list req) (r : req) : Prop :=
  (k <= length h)%nat /\
  forall i, (i < k)%nat -> exists q, h !! (length h - 1 - i)%nat = Some q /\ r_id q = r_id r - 1 - Z.of_nat i.

(** The trace so far is the blocks 0, 1, ..., k - 1. *)
Definition from_zero (k : nat) (h : list req) (r : req) : Prop :=
  r_id r = Z.of_nat k - 1 /\ map r_id h = seqZ 0 (Z.of_nat k - 1).

(** The next block, when the accesses are sequential; a trace that starts at
    block 0 is taken to be sequential one request early. *)
Definition obl_want (k : nat) (bs : Z) (h : list req) (r : req) (l : list req) : Prop :=
  ((sequential k h r \/ from_zero k h r) /\ exists q, l = [q] /\ r_id q = r_id r + 1 /\ r_size q = bs) \/
  (~ (sequential k h r \/ from_zero k h r) /\ l = []).

(** ** PG: the probability graph *)

(** Positions of [y] in [h] that are followed by at least [L] requests. *)
Definition windows (L : nat) (h : list req) (y : Z) : list nat :=
  filter (fun i => (r_id <$> h !! i) = Some y /\ (i + L < length h)%nat) (seq 0 (length h)).

(** How often [b] is requested in a list. *)
Definition times (b : Z) (h : list req) : Z := Z.of_nat (length (filter (fun q => r_id q = b) h)).

(** How often [b] comes within [L] requests after [y]. *)
Definition follows (L : nat) (h : list req) (y b : Z) : Z :=
  foldr (fun i n => times b (take L (drop (i + 1) h)) + n) 0 (windows L h y).

(** All the requests in these windows. *)
Definition followers (L : nat) (h : list req) (y : Z) : Z :=
  Z.of_nat L * Z.of_nat (length (windows L h y)).

(** The last request for the object of [q] in [h] has the size of [q]. *)
Definition last_size (h : list req) (q : req) : Prop :=
  exists i q', h !! i = Some q' /\ r_id q' = r_id q /\ r_size q' = r_size q /\
    forall j q'', (i < j)%nat -> h !! j = Some q'' -> r_id q'' <> r_id q.

(** Every object that is asked for has been requested before, with its last
    size; and, as long as the graph of the requests cannot fill the metadata
    allowance [max], its share of the requests in the windows of [r] is above
    the threshold. *)
Definition pg_want (L : nat) (max : Z) (above : Z -> Z -> bool) (h : list req) (r : req) (l : list req) : Prop :=
  Forall (fun q => last_size (h ++ [r]) q /\
    (32 * (Z.of_nat L + 1) * Z.of_nat (length (h ++ [r])) < max ->
     above (follows L (h ++ [r]) (r_id r) (r_id q)) (followers L (h ++ [r]) (r_id r)) = true)) l.
