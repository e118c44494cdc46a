(** Specifications of the properties of single caches, in terms of the public
    calls only (get / find / remove / evict / to_evict and the counters). *)
From stdpp Require Import gmap list numbers fin_maps.
From Verif Require Import Base Driver Abs.
Open Scope Z_scope.

Section Spec.
  Context {S : Type} (O : ops S) (s0 : S) (cap md : Z) (adm : admissioner).
  (** the requests that clients may ask to be cached *)
  Context (P : req -> Prop).

  (** [s] is the state after some client program run from the fresh cache. *)
  Definition reaches (s : S) : Prop :=
    exists cs fuel os, Forall (call_ok P) cs /\ (length cs <= fuel)%nat /\
      run O fuel s0 cs = Ok (s, os).

  (** A lookup that does not update the cache says that [id] is there. *)
  Definition resident (s : S) (id : Z) : Prop :=
    forall r, r_id r = id -> exists s', op_find O s r false = Ok (s', true).
  Definition absent (s : S) (id : Z) : Prop :=
    forall r, r_id r = id -> exists s', op_find O s r false = Ok (s', false).

  (** C01: the cache never holds more than its capacity. *)
  Definition spec_capacity : Prop :=
    forall s, reaches s -> 0 <= op_occupied O s <= cap.

  (** C02: for every client program there is a run of the abstract cache
      (Abs.v) with the same answers, and at its end the two counters are the
      number of objects held and the bytes charged for them. *)
  Definition spec_accounting (pol : policy) : Prop :=
    forall cs fuel, Forall (call_ok P) cs -> (length cs <= fuel)%nat ->
    exists s os a, run O fuel s0 cs = Ok (s, os) /\
      abs_run pol cap md (abs_init adm) cs os a /\
      op_occupied O s = msum md (a_m a) /\
      op_nobj O s = Z.of_nat (size (a_m a)) /\
      (forall id, is_Some (a_m a !! id) -> resident s id) /\
      (forall id, a_m a !! id = None -> absent s id).

  (** C03: a request hits exactly when the object is there. *)
  Definition spec_hit_iff_resident : Prop :=
    forall s, reaches s -> forall id,
      (resident s id \/ absent s id) /\
      forall r fuel, r_id r = id -> P r -> op_nobj O s <= Z.of_nat fuel ->
        exists s1 s2 h, cache_get_base O fuel s r = Ok (s1, h) /\
          op_find O s r true = Ok (s2, h) /\
          (h = true <-> resident s id) /\ (h = false <-> absent s id).

  (** C04: a lookup without update changes nothing at all. *)
  Definition spec_find_pure : Prop :=
    forall s, reaches s -> forall r, exists b, op_find O s r false = Ok (s, b).

  (** C05: remove takes out exactly the named object and says whether it was
      there; nothing else changes. *)
  Definition spec_remove_exact : Prop :=
    forall s, reaches s -> forall id, exists s' b, op_remove O s id = Ok (s', b) /\
      (b = true <-> resident s id) /\ absent s' id /\
      (forall j, j <> id -> (resident s' j <-> resident s j)) /\
      op_nobj O s' = op_nobj O s - (if b then 1 else 0) /\
      (b = false -> op_occupied O s' = op_occupied O s).

  (** C06: without an admission policy, a missed object that fits is there
      after the get, only victims leave, and nothing leaves when there was
      room; one that is too large leaves the cache alone. *)
  Definition spec_admit_on_miss : Prop :=
    adm = AdmNone ->
    forall s, reaches s -> forall r fuel, P r -> op_nobj O s <= Z.of_nat fuel ->
      absent s (r_id r) ->
      exists s', cache_get_base O fuel s r = Ok (s', false) /\
        (r_size r + md <= cap ->
           resident s' (r_id r) /\
           (forall j, resident s' j -> j = r_id r \/ resident s j) /\
           (op_occupied O s + r_size r + md <= cap ->
              (forall j, resident s j -> resident s' j) /\
              op_occupied O s' = op_occupied O s + (r_size r + md) /\
              op_nobj O s' = op_nobj O s + 1)) /\
        (cap < r_size r + md ->
           (forall j, resident s' j <-> resident s j) /\
           op_occupied O s' = op_occupied O s /\ op_nobj O s' = op_nobj O s).

  (** C07: every client program runs to completion: no NULL dereference, no
      use after free, no failed assertion, no endless loop. *)
  Definition spec_total : Prop :=
    forall cs fuel, Forall (call_ok P) cs -> (length cs <= fuel)%nat ->
    exists s os, run O fuel s0 cs = Ok (s, os).

  (** C36: the announced victim is the one evicted, and it alone. *)
  Definition spec_announced_victim : Prop :=
    forall s, reaches s -> op_nobj O s > 0 -> forall r r',
      exists s1 v s2 s3, op_to_evict O s r = Ok (s1, Some v) /\ resident s v /\
        (forall j, resident s1 j <-> resident s j) /\
        op_evict O s1 r' = Ok s2 /\ op_evict O s r = Ok s3 /\
        (forall j, resident s2 j <-> resident s j /\ j <> v) /\
        (forall j, resident s3 j <-> resident s j /\ j <> v) /\
        op_nobj O s2 = op_nobj O s - 1 /\ op_nobj O s3 = op_nobj O s - 1.

  (** The policy: in every reachable state the evicted object is one the
      policy allows, for the ledger that the client's own calls define. *)
  Definition spec_policy (pol : policy) : Prop :=
    forall cs fuel, Forall (call_ok P) cs -> (length cs <= fuel)%nat ->
    exists s os a, run O fuel s0 cs = Ok (s, os) /\
      abs_run pol cap md (abs_init adm) cs os a /\
      (a_m a <> ∅ -> forall r, exists v s1 s2,
         op_to_evict O s r = Ok (s1, Some v) /\ op_evict O s r = Ok s2 /\
         is_Some (a_m a !! v) /\ pol (a_m a) v /\
         forall j, resident s2 j <-> is_Some (a_m a !! j) /\ j <> v).

  (** All of them together. *)
  Definition spec_api (pol : policy) : Prop :=
    (* C01 *) spec_capacity /\
    (* C02 *) spec_accounting pol /\
    (* C03 *) spec_hit_iff_resident /\
    (* C04 *) spec_find_pure /\
    (* C05 *) spec_remove_exact /\
    (* C06 *) spec_admit_on_miss /\
    (* C07 *) spec_total /\
    (* C36 *) spec_announced_victim /\
    spec_policy pol.
End Spec.
