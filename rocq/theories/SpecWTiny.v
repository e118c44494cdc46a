(** What an eviction of W-TinyLFU is supposed to do, and what it needs from its
    main cache, in terms of the main cache's own public operations. *)
From stdpp Require Import gmap list numbers fin_maps.
From Verif Require Import Base Driver SpecComp ModelFilter.
Open Scope Z_scope.

(** The bytes of the objects of a map from id to size. *)
Definition zsum (L : gmap Z Z) : Z := map_fold (fun _ z acc => z + acc) 0 L.

(** A main cache: [MR m L] says that in state [m] the resident objects are [L]
    (id to size).  [good] are the sizes it can cope with, [fitm] those of them it
    accepts.  [over]: it can be given an
    object for which it has no room; [plain]: an insert never drops other
    objects; [rem]: remove works. *)
Record main_ok {M} (O : ops M) (msz : Z) (good fitm : Z -> Prop) (over plain rem : bool)
    (MR : M -> gmap Z Z -> Prop) : Prop := {
  mi_fit z : fitm z -> z <= msz;
  mi_size m L : MR m L -> op_size O m = msz;
  mi_occ m L : MR m L -> op_occupied O m = zsum L;
  mi_nobj m L : MR m L -> op_nobj O m = Z.of_nat (size L);
  mi_nonneg m L id z : MR m L -> L !! id = Some z -> 0 <= z;
  mi_within m L : MR m L -> over = false -> zsum L <= msz;
  mi_find_false m L r : MR m L -> op_find O m r false = Ok (m, bool_decide (is_Some (L !! r_id r)));
  mi_find_true m L r : MR m L -> exists m' L',
    op_find O m r true = Ok (m', bool_decide (is_Some (L !! r_id r))) /\ MR m' L' /\ L' ⊆ L /\
    (is_Some (L !! r_id r) -> is_Some (L' !! r_id r)) /\ (plain = true \/ L !! r_id r = None -> L' = L);
  mi_can m L r : MR m L -> good (r_size r) -> exists m' b, op_can_insert O m r = Ok (m', b) /\ (b = true <-> fitm (r_size r)) /\ MR m' L;
  mi_insert m L r : MR m L -> L !! r_id r = None -> req_ok 0 r -> fitm (r_size r) ->
    over = true \/ zsum L + r_size r <= msz ->
    exists m' L1, op_insert O m r = Ok m' /\ MR m' (<[r_id r := r_size r]> L1) /\ L1 ⊆ L /\ (plain = true -> L1 = L);
  mi_evict m L r : MR m L -> L <> ∅ -> exists m1 v m2,
    op_to_evict O m r = Ok (m1, Some v) /\ MR m1 L /\ is_Some (L !! v) /\
    op_evict O m r = Ok m2 /\ MR m2 (delete v L) /\
    exists m3, op_evict O m1 r = Ok m3 /\ MR m3 (delete v L);
  mi_remove m L id : rem = true -> MR m L ->
    exists m', op_remove O m id = Ok (m', bool_decide (is_Some (L !! id))) /\ MR m' (delete id L)
}.

Section Contest.
  Context {M : Type} (O : ops M) (h1 h2 : Z -> Z) (r : req).

  (** [contest W m k gone W' m' k']: an eviction with the window [W] (id and
      size, most recently used first), the main cache [m] and the frequency
      sketch [k].  As long as the window holds bytes its least recently used
      object is the candidate: it moves to the main cache when there is room
      for it; otherwise it meets the object the main cache would evict: with a
      strictly larger estimate it takes its place, and the eviction goes on;
      else it leaves the cache, and the eviction ends.  When the window holds no
      bytes the main cache evicts.  Each candidate is counted once more in the
      sketch.  [gone] are the objects chosen to leave the cache. *)
  Inductive contest : list (Z * Z) -> M -> cbf -> list Z -> list (Z * Z) -> M -> cbf -> Prop :=
  | contest_room W v z m k rq m1 k1 e gone W' m' k' :
      total_bytes (W ++ [(v, z)]) > 0 -> op_occupied O m + z <= op_size O m ->
      r_id rq = v -> r_size rq = z -> op_insert O m rq = Ok m1 -> cbf_add h1 h2 k v = Ok (k1, e) ->
      contest W m1 k1 gone W' m' k' ->
      contest (W ++ [(v, z)]) m k gone W' m' k'
  | contest_win W v z m k u ma ka kb a b rq mb m1 k1 e gone W' m' k' :
      total_bytes (W ++ [(v, z)]) > 0 -> op_occupied O m + z > op_size O m ->
      op_to_evict O m r = Ok (ma, Some u) ->
      cbf_estimate h1 h2 k v = Ok (ka, a) -> cbf_estimate h1 h2 k u = Ok (kb, b) -> a > b ->
      r_id rq = v -> r_size rq = z ->
      op_evict O ma r = Ok mb -> op_insert O mb rq = Ok m1 -> cbf_add h1 h2 k v = Ok (k1, e) ->
      contest W m1 k1 gone W' m' k' ->
      contest (W ++ [(v, z)]) m k (u :: gone) W' m' k'
  | contest_lose W v z m k u ma ka kb a b k1 e :
      total_bytes (W ++ [(v, z)]) > 0 -> op_occupied O m + z > op_size O m ->
      op_to_evict O m r = Ok (ma, Some u) ->
      cbf_estimate h1 h2 k v = Ok (ka, a) -> cbf_estimate h1 h2 k u = Ok (kb, b) -> a <= b ->
      cbf_add h1 h2 k v = Ok (k1, e) ->
      contest (W ++ [(v, z)]) m k [v] W ma k1
  | contest_main W m k u ma m1 :
      total_bytes W <= 0 -> op_to_evict O m r = Ok (ma, Some u) -> op_evict O m r = Ok m1 ->
      contest W m k [u] W m1 k.
End Contest.
