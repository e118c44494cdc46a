(** C10: an LRU cache holds the top of the recency stack, so larger caches
    include smaller ones. *)
From stdpp Require Import gmap list numbers fin_maps.
From Verif Require Import Base Driver Abs AbsFacts Sim PSim SpecApi ApiFacts ModelQueue QueueFacts
  SimQueue SpecLRUStack LRUStack PropsCore.
Open Scope Z_scope.

(** [n = cap / (sz + md)] objects of size [sz] fit.  After any sequence of
    requests of that size the cache holds exactly the [n] most recently
    requested ids, and request [i] hit iff its stack distance was below [n]. *)
Theorem C10_lru_stack (b : bool) cap sz rs fuel :
  let md := if b then 16 else 0 in
  let n := Z.to_nat (cap / (sz + md)) in
  0 <= cap -> 0 < sz + md ->
  Forall (fun r => r_size r = sz /\ req_ok md r) rs -> (length rs <= fuel)%nat ->
  exists s os, run lru_ops fuel (lru_init b cap AdmNone) (map CGet rs) = Ok (s, os) /\
    (forall id, resident lru_ops s id <-> id ∈ take n (recency (map r_id rs))) /\
    (forall i r, rs !! i = Some r -> exists h, os !! i = Some (OBool h) /\
       (h = true <-> exists d, stack_distance (map r_id (take i rs)) (r_id r) = Some d /\ (d < n)%nat)).
Proof.
  intros md n Hcap Hsz Hrs Hf. destruct rs as [|r0 rs0]; [|set (rs := r0 :: rs0) in *].
  - eexists _, _. split; [done|]. split.
    + intros id. change (lru_init b cap AdmNone) with (q_init cap md AdmNone). rewrite (resident_iff pol_lru lru_ops cap md (req_ok md) (qrel e_last cap md) (lru_sim cap md)
        _ _ id (q_init_rel e_last cap md AdmNone)). cbn. rewrite lookup_empty, take_nil.
      split; [by intros []|by inversion 1].
    + intros i r. by rewrite lookup_nil.
  - destruct (lru_stack_run cap md sz Hsz rs (lru_init b cap AdmNone) (abs_init AdmNone) fuel [])
      as (s & os & Hr & Hq & Hos); auto.
    { apply abs_init_ok; [done|]. by apply md_bool. }
    { apply q_init_rel. }
    { intros id e. cbn. by rewrite lookup_empty. }
    { unfold rs in Hf. cbn in Hf. lia. }
    { constructor. }
    { by rewrite take_nil. }
    exists s, os. split; [done|]. split.
    + destruct (reaches_rel pol_lru lru_ops cap md AdmNone (req_ok md) (qrel e_last cap md) (lru_init b cap AdmNone)
        (lru_sim cap md) (q_init_rel e_last cap md AdmNone) Hcap (md_bool b 16 ltac:(lia)) s) as (a & HR & _).
      { exists (map CGet rs), fuel, os. split_and!; [|by rewrite map_length|done].
        apply Forall_map. eapply Forall_impl; [exact Hrs|]. by intros r [_ ?]. }
      intros id. rewrite (resident_iff pol_lru lru_ops cap md (req_ok md) (qrel e_last cap md) (lru_sim cap md) _ _ id HR).
      destruct HR as (_ & [_ H2] & _). rewrite <- H2, Hq. done.
    + intros i r Hi. rewrite (Hos i r Hi). eexists. split; [done|].
      rewrite bool_decide_eq_true, <- stack_pos_take. done.
Qed.

Theorem C10_lru_inclusion (b : bool) cap1 cap2 sz rs fuel s1 os1 s2 os2 :
  let md := if b then 16 else 0 in
  0 <= cap1 <= cap2 -> 0 < sz + md ->
  Forall (fun r => r_size r = sz /\ req_ok md r) rs -> (length rs <= fuel)%nat ->
  run lru_ops fuel (lru_init b cap1 AdmNone) (map CGet rs) = Ok (s1, os1) ->
  run lru_ops fuel (lru_init b cap2 AdmNone) (map CGet rs) = Ok (s2, os2) ->
  (forall id, resident lru_ops s1 id -> resident lru_ops s2 id) /\
  (forall i, os1 !! i = Some (OBool true) -> os2 !! i = Some (OBool true)).
Proof.
  intros md Hcap Hsz Hrs Hf Hr1 Hr2.
  destruct (C10_lru_stack b cap1 sz rs fuel) as (s1' & os1' & Hr1' & Hres1 & Hhit1); auto; [lia|].
  destruct (C10_lru_stack b cap2 sz rs fuel) as (s2' & os2' & Hr2' & Hres2 & Hhit2); auto; [lia|].
  rewrite Hr1 in Hr1'. rewrite Hr2 in Hr2'. injection Hr1' as <- <-. injection Hr2' as <- <-.
  fold md in Hres1, Hhit1, Hres2, Hhit2.
  assert (Hn : (Z.to_nat (cap1 / (sz + md)) <= Z.to_nat (cap2 / (sz + md)))%nat).
  { apply Z2Nat.inj_le; [apply Z.div_pos; lia|apply Z.div_pos; lia|]. apply Z.div_le_mono; lia. }
  split.
  - intros id. rewrite Hres1, Hres2. rewrite <- !stack_pos_take. intros (d & Hd & ?). exists d. split; [done|lia].
  - intros i Hi. assert (Hlen : (i < length rs)%nat).
    { assert (Hl : length os1 = length (map CGet rs)) by (eapply run_length; eauto).
      apply lookup_lt_Some in Hi. rewrite Hl, map_length in Hi. done. }
    apply lookup_lt_is_Some in Hlen as [r Hri].
    destruct (Hhit1 i r Hri) as (h1 & Ho1 & Hh1). destruct (Hhit2 i r Hri) as (h2 & Ho2 & Hh2).
    rewrite Hi in Ho1. injection Ho1 as <-. destruct (proj1 Hh1 eq_refl) as (d & Hd & Hlt).
    rewrite Ho2. f_equal. f_equal. apply Hh2. exists d. split; [done|lia].
Qed.

(** Six requests of size 1: capacity 2 hits twice, capacity 3 also the last. *)
Definition ex_trace (ids : list Z) : list req := map ex_req ids.
Example ex_inclusion :
  Forall (fun r => r_size r = 1 /\ req_ok 0 r) (ex_trace [1; 2; 1; 3; 3; 2]) /\
  (let! (s, os) := run lru_ops 6 (lru_init false 2 AdmNone) (map CGet (ex_trace [1; 2; 1; 3; 3; 2])) in
   Ok (q_q s, os)) =
  Ok ([2; 3], [OBool false; OBool false; OBool true; OBool false; OBool true; OBool false]) /\
  (let! (s, os) := run lru_ops 6 (lru_init false 3 AdmNone) (map CGet (ex_trace [1; 2; 1; 3; 3; 2])) in
   Ok (q_q s, os)) =
  Ok ([2; 3; 1], [OBool false; OBool false; OBool true; OBool false; OBool true; OBool true]) /\
  recency [1; 2; 1; 3; 3; 2] = [2; 3; 1].
Proof.
  split_and!; [|vm_compute; reflexivity..].
  repeat (apply Forall_cons; split; [cbn; unfold req_ok; cbn; lia|]). constructor.
Qed.
