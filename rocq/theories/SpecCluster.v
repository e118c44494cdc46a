(** Specification of consistent hashing and of a cluster of cache servers. *)
From stdpp Require Import gmap list numbers fin_maps.
From Verif Require Import Base Driver Abs SpecApi ModelRing.
Open Scope Z_scope.

(** The circle has 2^32 places; how far it is clockwise from [h] to [p]. *)
Definition dist (h p : Z) : Z := (p - h) mod 2 ^ 32.

(** Of the points [V], one of server [s] is the first from [h] on clockwise. *)
Definition owns (V : vnode -> Prop) (h : Z) (s : nat) : Prop :=
  exists p, V (mkVn p s) /\ forall v, V v -> dist h p <= dist h (vn_point v).

(** [l]: the owner of [h]; then its owner if the first had no points; then its
    owner if neither had; and so on, [n] servers. *)
Inductive chain (h : Z) : (vnode -> Prop) -> nat -> list nat -> Prop :=
| chain_nil V : chain h V 0 []
| chain_cons V n s l : owns V h s -> chain h (fun v => V v /\ vn_server v <> s) n l -> chain h V (S n) (s :: l).

(** The points of the servers when server i gets [kss !! i] hashes: four words
    of the digest of the text "i-k" for each k. *)
Definition placed (digest : list Z -> list Z) (kss : list nat) (v : vnode) : Prop :=
  exists ks k j, kss !! vn_server v = Some ks /\ (k < ks)%nat /\ (j < 4)%nat /\
    vn_point v = word (digest (dec (vn_server v) ++ [45] ++ dec k)) j.

(** Nobody shares a point with another server. *)
Definition apart (V : vnode -> Prop) : Prop := forall v v', V v -> V v' -> vn_point v = vn_point v' -> vn_server v = vn_server v'.

(** What is known of md5 and qsort. *)
Definition byte_digest (digest : list Z -> list Z) : Prop := forall key, Forall (fun b => 0 <= b < 256) (digest key).
Definition sorts (sort : list vnode -> list vnode) : Prop := forall l, sort l ≡ₚ l /\
  forall i j v w, (i <= j)%nat -> sort l !! i = Some v -> sort l !! j = Some w -> vn_point v <= vn_point w.

(** The numbers of hashes fill the array of 160 points per server exactly. *)
Definition full (kss : list nat) : Prop := sum_list kss = (40 * length kss)%nat.

(** ** A server: one cache behind the other *)

(** The requests that were not hits, and the answers of the next level put in
    their places. *)
Definition misses (rs : list req) (bs : list bool) : list req := (filter (fun p => p.2 = false) (zip rs bs)).*1.
Fixpoint merge (bs bs' : list bool) : list bool :=
  match bs, bs' with
  | [], _ => []
  | true :: bs, bs' => true :: merge bs bs'
  | false :: bs, b :: bs' => b :: merge bs bs'
  | false :: bs, [] => false :: merge bs []
  end.

(** A level: policy, capacity, metadata per object, and what it holds.  Level
    1 sees all requests, level 2 the misses of level 1, and so on. *)
Record level : Type := mkLv { lv_pol : policy; lv_cap : Z; lv_md : Z; lv_a : abs }.
Definition with_a (l : level) (a : abs) : level := mkLv (lv_pol l) (lv_cap l) (lv_md l) a.
Inductive levels_run : list level -> list req -> list bool -> list level -> Prop :=
| levels_nil rs : levels_run [] rs (replicate (length rs) false) []
| levels_cons l ls rs bs a bs' ls' :
    abs_run (lv_pol l) (lv_cap l) (lv_md l) (lv_a l) (CGet <$> rs) (OBool <$> bs) a ->
    levels_run ls (misses rs bs) bs' ls' ->
    levels_run (l :: ls) rs (merge bs bs') (with_a l a :: ls').

(** What a cache shows to the outside is what the level holds; and it fits. *)
Definition shows {S : Type} (c : ops S * S) (l : level) : Prop :=
  (forall id, resident c.1 c.2 id <-> is_Some (a_m (lv_a l) !! id)) /\
  (forall id, absent c.1 c.2 id <-> a_m (lv_a l) !! id = None) /\
  op_nobj c.1 c.2 = Z.of_nat (size (a_m (lv_a l))) /\
  op_occupied c.1 c.2 = msum (lv_md l) (a_m (lv_a l)) /\ 0 <= op_occupied c.1 c.2 <= lv_cap l.

(** ** A cluster *)

(** The requests of a trace that go to server [i], with their answers. *)
Definition goes (route : Z -> res nat) (i : nat) (r : req) : bool :=
  match route (r_id r) with Ok j => bool_decide (j = i) | Err _ => false end.
Definition part (route : Z -> res nat) (i : nat) (rs : list req) : list req := filter (fun r => goes route i r = true) rs.
Definition answers (route : Z -> res nat) (i : nat) (rs : list req) (bs : list bool) : list bool :=
  (filter (fun p => goes route i p.1 = true) (zip rs bs)).*2.
