(** Specification vocabulary for the caches built from several queues (2Q,
    S3-FIFO, QDLP, SLRU, ARC ...), in terms of the public calls. *)
From stdpp Require Import gmap list numbers fin_maps.
From Verif Require Import Base Driver SpecApi.
Open Scope Z_scope.

(** The client calls of the property: get, find, remove and evict; insert is
    reached through get only, and to_evict is not implemented by these caches
    (it is assert(false)).  [G id size] restricts the sizes that requests for
    an id may have; [md] is the metadata charged per object. *)
Definition comp_call (G : Z -> Z -> Prop) (md : Z) (c : call) : Prop :=
  match c with
  | CGet r => req_ok md r /\ G (r_id r) (r_size r)
  | CFind _ _ | CRemove _ | CEvict _ => True
  | CInsert _ | CToEvict _ => False
  end.
(** The same without evict: then evictions happen inside get only. *)
Definition comp_call_noevict (G : Z -> Z -> Prop) (md : Z) (c : call) : Prop :=
  comp_call G md c /\ match c with CEvict _ => False | _ => True end.

Section Comp.
  Context {S : Type} (O : ops S).

  (** [s] is the state after some client program with calls in [Q]. *)
  Definition comp_reaches (s0 : S) (Q : call -> Prop) (s : S) : Prop :=
    exists cs fuel os, Forall Q cs /\ (length cs <= fuel)%nat /\ run O fuel s0 cs = Ok (s, os).

  (** [L] lists the resident objects with the size charged for each. *)
  Definition ledger (L : list (Z * Z)) (G : Z -> Z -> Prop) (s : S) : Prop :=
    NoDup L.*1 /\
    (forall id, resident O s id <-> id ∈ L.*1) /\
    (forall id, absent O s id <-> id ∉ L.*1) /\
    op_nobj O s = Z.of_nat (length L) /\
    Forall (fun x => G x.1 x.2) L.

  Definition total_bytes (L : list (Z * Z)) : Z := foldr (fun x acc => x.2 + acc) 0 L.

  Lemma run_app (fuel : nat) s cs1 cs2 s1 os1 :
    run O fuel s cs1 = Ok (s1, os1) ->
    run O fuel s (cs1 ++ cs2) = (let! (s2, os2) := run O fuel s1 cs2 in Ok (s2, os1 ++ os2)).
  Proof.
    revert s os1. induction cs1 as [|c cs1 IH]; intros s os1 H; cbn in *.
    - injection H as <- <-. by destruct (run O fuel s cs2) as [[? ?]|].
    - destruct (step O fuel s c) as [[s' o]|]; cbn in *; [|done].
      destruct (run O fuel s' cs1) as [[s'' os]|] eqn:E; cbn in *; [|done].
      injection H as <- <-. rewrite (IH _ _ E). by destruct (run O fuel s'' cs2) as [[? ?]|].
  Qed.
End Comp.
