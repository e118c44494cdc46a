(** The API properties of SpecApi.v for caches whose documented contract leaves
    out some calls (for instance to_evict = assert(false)): the same statements,
    for the client programs that only make calls allowed by [Q]. *)
From stdpp Require Import gmap list numbers fin_maps.
From Verif Require Import Base Driver Abs SpecApi SpecComp.
Open Scope Z_scope.

Section Spec.
  Context {S : Type} (O : ops S) (s0 : S) (cap md : Z) (adm : admissioner).
  Context (Q : call -> Prop).

  (** C01 *)
  Definition weak_capacity : Prop :=
    forall s, comp_reaches O s0 Q s -> 0 <= op_occupied O s <= cap.

  (** C02, C07: every client program completes; there is a run of the abstract
      cache with the same answers; and at the end the counters and lookups are
      those of the abstract cache. *)
  Definition weak_accounting (pol : policy) : Prop :=
    forall cs fuel, Forall Q cs -> (length cs <= fuel)%nat ->
    exists s os a, run O fuel s0 cs = Ok (s, os) /\
      abs_run pol cap md (abs_init adm) cs os a /\
      op_occupied O s = msum md (a_m a) /\
      op_nobj O s = Z.of_nat (size (a_m a)) /\
      (forall id, is_Some (a_m a !! id) -> resident O s id) /\
      (forall id, a_m a !! id = None -> absent O s id).

  (** C03 *)
  Definition weak_hit_iff_resident : Prop :=
    forall s, comp_reaches O s0 Q s -> forall id,
      (resident O s id \/ absent O s id) /\
      forall r fuel, r_id r = id -> Q (CGet r) -> op_nobj O s <= Z.of_nat fuel ->
        exists s1 h, cache_get_base O fuel s r = Ok (s1, h) /\
          (h = true <-> resident O s id) /\ (h = false <-> absent O s id).

  (** C04 *)
  Definition weak_find_pure : Prop :=
    forall s, comp_reaches O s0 Q s -> forall r, exists b, op_find O s r false = Ok (s, b).

  (** C05 *)
  Definition weak_remove_exact : Prop :=
    forall s, comp_reaches O s0 Q s -> forall id, Q (CRemove id) ->
      exists s' b, op_remove O s id = Ok (s', b) /\
      (b = true <-> resident O s id) /\ absent O s' id /\
      (forall j, j <> id -> (resident O s' j <-> resident O s j)) /\
      op_nobj O s' = op_nobj O s - (if b then 1 else 0) /\
      (b = false -> op_occupied O s' = op_occupied O s).

  (** C06 *)
  Definition weak_admit_on_miss : Prop :=
    adm = AdmNone ->
    forall s, comp_reaches O s0 Q s -> forall r fuel, Q (CGet r) -> op_nobj O s <= Z.of_nat fuel ->
      absent O s (r_id r) ->
      exists s', cache_get_base O fuel s r = Ok (s', false) /\
        (r_size r + md <= cap ->
           resident O s' (r_id r) /\
           (forall j, resident O s' j -> j = r_id r \/ resident O s j) /\
           (op_occupied O s + r_size r + md <= cap ->
              (forall j, resident O s j -> resident O s' j) /\
              op_occupied O s' = op_occupied O s + (r_size r + md) /\
              op_nobj O s' = op_nobj O s + 1)) /\
        (cap < r_size r + md ->
           (forall j, resident O s' j <-> resident O s j) /\
           op_occupied O s' = op_occupied O s /\ op_nobj O s' = op_nobj O s).

  (** An eviction takes out exactly one object, one that the policy allows. *)
  Definition weak_policy (pol : policy) : Prop :=
    forall cs fuel, Forall Q cs -> (length cs <= fuel)%nat ->
    exists s os a, run O fuel s0 cs = Ok (s, os) /\
      abs_run pol cap md (abs_init adm) cs os a /\
      (a_m a <> ∅ -> forall r, Q (CEvict r) -> exists v s2, op_evict O s r = Ok s2 /\
         is_Some (a_m a !! v) /\ pol (a_m a) v /\
         forall j, resident O s2 j <-> is_Some (a_m a !! j) /\ j <> v).

  Definition weak_api (pol : policy) : Prop :=
    weak_capacity /\ weak_accounting pol /\ weak_hit_iff_resident /\ weak_find_pure /\
    weak_remove_exact /\ weak_admit_on_miss /\ weak_policy pol.
End Spec.
