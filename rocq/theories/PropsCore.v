(** Properties of the single-queue caches and LFU, for every client program.
    Each theorem is an instance of a specification in SpecApi.v / SpecRing.v. *)
From stdpp Require Import gmap list numbers fin_maps.
From Verif Require Import Base Driver Abs AbsFacts Sim PSim SpecApi ApiFacts ModelQueue QueueFacts
  ClockFacts SimQueue SimClock SimSieve SimMRU ModelLFU SimLFU SpecRing RingFacts.
Open Scope Z_scope.

(** Requests for a unit-size object, and a client program that hits, misses,
    evicts and removes. *)
Definition ex_req (id : Z) : req := mkReq id 1 0 0 0.
Definition ex_calls : list call :=
  [CGet (ex_req 1); CGet (ex_req 2); CGet (ex_req 3); CGet (ex_req 1); CGet (ex_req 4);
   CFind (ex_req 2) false; CRemove 3; CToEvict (ex_req 9); CGet (ex_req 5)].

Example ex_calls_ok : Forall (call_ok (req_ok 0)) ex_calls.
Proof. unfold ex_calls. repeat (apply Forall_cons; split; [cbn; unfold req_ok; cbn; lia || done|]). constructor. Qed.

(** The same program on three-object caches: FIFO evicts 1 for 4, LRU, Clock,
    Sieve and LFU evict 2. *)
Definition ex_answers {S} (O : ops S) (s : S) : res (list obs * Z * Z) :=
  let! (s, os) := run O 9 s ex_calls in Ok (os, op_occupied O s, op_nobj O s).
Example ex_fifo : ex_answers fifo_ops (fifo_init 3 AdmNone)
  = Ok ([OBool false; OBool false; OBool false; OBool true; OBool false; OBool true; OBool true;
         OVictim (Some 2); OBool false], 3, 3).
Proof. vm_compute. reflexivity. Qed.
Example ex_lru : ex_answers lru_ops (lru_init false 3 AdmNone)
  = Ok ([OBool false; OBool false; OBool false; OBool true; OBool false; OBool false; OBool true;
         OVictim (Some 1); OBool false], 3, 3).
Proof. vm_compute. reflexivity. Qed.
Example ex_clock : ex_answers (clock_ops 1) (clock_init 3 AdmNone)
  = Ok ([OBool false; OBool false; OBool false; OBool true; OBool false; OBool false; OBool true;
         OVictim (Some 1); OBool false], 3, 3).
Proof. vm_compute. reflexivity. Qed.
Example ex_sieve : ex_answers sieve_ops (sieve_init false 3 AdmNone)
  = Ok ([OBool false; OBool false; OBool false; OBool true; OBool false; OBool false; OBool true;
         OVictim (Some 4); OBool false], 3, 3).
Proof. vm_compute. reflexivity. Qed.
Example ex_lfu : ex_answers lfu_ops (lfu_init false 3 AdmNone)
  = Ok ([OBool false; OBool false; OBool false; OBool true; OBool false; OBool false; OBool true;
         OVictim (Some 4); OBool false], 3, 3).
Proof. vm_compute. reflexivity. Qed.

(** So the state quantified over below is one of a cache that evicted. *)
Example ex_reaches : exists s, reaches lru_ops (lru_init false 3 AdmNone) (req_ok 0) s /\
  op_nobj lru_ops s = 3 /\ resident lru_ops s 1 /\ absent lru_ops s 2.
Proof.
  pose proof ex_lru as H. unfold ex_answers in H.
  destruct (run lru_ops 9 (lru_init false 3 AdmNone) ex_calls) as [[s os]|] eqn:E; [|done].
  exists s. split; [exists ex_calls, 9%nat, os; split; [apply ex_calls_ok|split; [cbn; lia|done]]|].
  vm_compute in E. injection E as <- <-. split; [done|].
  split; intros [i ? ? ? ?] Hi; cbn [r_id] in Hi; subst i; eexists; vm_compute; reflexivity.
Qed.

Lemma md_bool (b : bool) k : 0 <= k -> 0 <= (if b then k else 0).
Proof. destruct b; lia. Qed.

Theorem C01_capacity cap adm : 0 <= cap ->
  (* FIFO *) spec_capacity fifo_ops (fifo_init cap adm) cap (req_ok 0) /\
  (* LRU *) (forall (b : bool), spec_capacity lru_ops (lru_init b cap adm) cap (req_ok (if b then 16 else 0))) /\
  (* Clock *) (forall (mf : Z), 0 <= mf -> spec_capacity (clock_ops mf) (clock_init cap adm) cap (req_ok 0)) /\
  (* Sieve *) (forall (b : bool), spec_capacity sieve_ops (sieve_init b cap adm) cap (req_ok (if b then 1 else 0))) /\
  (* LFU *) (forall (b : bool), spec_capacity lfu_ops (lfu_init b cap adm) cap (req_ok (if b then 16 else 0))).
Proof.
  intros Hcap. split_and!.
  - eapply api_capacity; [exact (fifo_sim cap 0)|exact (q_init_rel e_ins cap 0 adm)|done|done].
  - intros b. eapply api_capacity; [exact (lru_sim cap _)|exact (q_init_rel e_last cap _ adm)|done|by apply md_bool].
  - intros mf Hmf. eapply api_capacity; [exact (clock_sim mf cap 0 Hmf)|exact (clock_init_rel mf cap 0 adm)|done|done].
  - intros b. eapply api_capacity; [exact (sieve_sim cap _)|exact (sieve_init_rel cap _ adm)|done|by apply md_bool].
  - intros b. eapply api_capacity; [exact (lfu_sim cap _)|exact (lfu_init_rel cap _ b adm eq_refl)|done|by apply md_bool].
Qed.

Theorem C02_accounting cap adm : 0 <= cap ->
  (* FIFO *) spec_accounting fifo_ops (fifo_init cap adm) cap 0 adm (req_ok 0) pol_fifo /\
  (* LRU *) (forall (b : bool), spec_accounting lru_ops (lru_init b cap adm) cap (if b then 16 else 0) adm (req_ok (if b then 16 else 0)) pol_lru) /\
  (* Clock *) (forall (mf : Z), 0 <= mf -> spec_accounting (clock_ops mf) (clock_init cap adm) cap 0 adm (req_ok 0) pol_any) /\
  (* Sieve *) (forall (b : bool), spec_accounting sieve_ops (sieve_init b cap adm) cap (if b then 1 else 0) adm (req_ok (if b then 1 else 0)) pol_any) /\
  (* LFU *) (forall (b : bool), spec_accounting lfu_ops (lfu_init b cap adm) cap (if b then 16 else 0) adm (req_ok (if b then 16 else 0)) pol_lfu).
Proof.
  intros Hcap. split_and!.
  - eapply api_accounting; [exact (fifo_sim cap 0)|exact (q_init_rel e_ins cap 0 adm)|done|done].
  - intros b. eapply api_accounting; [exact (lru_sim cap _)|exact (q_init_rel e_last cap _ adm)|done|by apply md_bool].
  - intros mf Hmf. eapply api_accounting; [exact (clock_sim mf cap 0 Hmf)|exact (clock_init_rel mf cap 0 adm)|done|done].
  - intros b. eapply api_accounting; [exact (sieve_sim cap _)|exact (sieve_init_rel cap _ adm)|done|by apply md_bool].
  - intros b. eapply api_accounting; [exact (lfu_sim cap _)|exact (lfu_init_rel cap _ b adm eq_refl)|done|by apply md_bool].
Qed.

Theorem C03_hit_iff_resident cap adm : 0 <= cap ->
  (* FIFO *) spec_hit_iff_resident fifo_ops (fifo_init cap adm) (req_ok 0) /\
  (* LRU *) (forall (b : bool), spec_hit_iff_resident lru_ops (lru_init b cap adm) (req_ok (if b then 16 else 0))) /\
  (* Clock *) (forall (mf : Z), 0 <= mf -> spec_hit_iff_resident (clock_ops mf) (clock_init cap adm) (req_ok 0)) /\
  (* Sieve *) (forall (b : bool), spec_hit_iff_resident sieve_ops (sieve_init b cap adm) (req_ok (if b then 1 else 0))) /\
  (* LFU *) (forall (b : bool), spec_hit_iff_resident lfu_ops (lfu_init b cap adm) (req_ok (if b then 16 else 0))).
Proof.
  intros Hcap. split_and!.
  - eapply api_hit_iff_resident; [exact (fifo_sim cap 0)|exact (q_init_rel e_ins cap 0 adm)|done|done].
  - intros b. eapply api_hit_iff_resident; [exact (lru_sim cap _)|exact (q_init_rel e_last cap _ adm)|done|by apply md_bool].
  - intros mf Hmf. eapply api_hit_iff_resident; [exact (clock_sim mf cap 0 Hmf)|exact (clock_init_rel mf cap 0 adm)|done|done].
  - intros b. eapply api_hit_iff_resident; [exact (sieve_sim cap _)|exact (sieve_init_rel cap _ adm)|done|by apply md_bool].
  - intros b. eapply api_hit_iff_resident; [exact (lfu_sim cap _)|exact (lfu_init_rel cap _ b adm eq_refl)|done|by apply md_bool].
Qed.

Theorem C04_find_pure cap adm : 0 <= cap ->
  (* FIFO *) spec_find_pure fifo_ops (fifo_init cap adm) (req_ok 0) /\
  (* LRU *) (forall (b : bool), spec_find_pure lru_ops (lru_init b cap adm) (req_ok (if b then 16 else 0))) /\
  (* Clock *) (forall (mf : Z), 0 <= mf -> spec_find_pure (clock_ops mf) (clock_init cap adm) (req_ok 0)) /\
  (* Sieve *) (forall (b : bool), spec_find_pure sieve_ops (sieve_init b cap adm) (req_ok (if b then 1 else 0))) /\
  (* LFU *) (forall (b : bool), spec_find_pure lfu_ops (lfu_init b cap adm) (req_ok (if b then 16 else 0))).
Proof.
  intros Hcap. split_and!.
  - eapply api_find_pure; [exact (fifo_sim cap 0)|exact (q_init_rel e_ins cap 0 adm)|done|done].
  - intros b. eapply api_find_pure; [exact (lru_sim cap _)|exact (q_init_rel e_last cap _ adm)|done|by apply md_bool].
  - intros mf Hmf. eapply api_find_pure; [exact (clock_sim mf cap 0 Hmf)|exact (clock_init_rel mf cap 0 adm)|done|done].
  - intros b. eapply api_find_pure; [exact (sieve_sim cap _)|exact (sieve_init_rel cap _ adm)|done|by apply md_bool].
  - intros b. eapply api_find_pure; [exact (lfu_sim cap _)|exact (lfu_init_rel cap _ b adm eq_refl)|done|by apply md_bool].
Qed.

Theorem C05_remove_exact cap adm : 0 <= cap ->
  (* FIFO *) spec_remove_exact fifo_ops (fifo_init cap adm) (req_ok 0) /\
  (* LRU *) (forall (b : bool), spec_remove_exact lru_ops (lru_init b cap adm) (req_ok (if b then 16 else 0))) /\
  (* Clock *) (forall (mf : Z), 0 <= mf -> spec_remove_exact (clock_ops mf) (clock_init cap adm) (req_ok 0)) /\
  (* Sieve *) (forall (b : bool), spec_remove_exact sieve_ops (sieve_init b cap adm) (req_ok (if b then 1 else 0))) /\
  (* LFU *) (forall (b : bool), spec_remove_exact lfu_ops (lfu_init b cap adm) (req_ok (if b then 16 else 0))).
Proof.
  intros Hcap. split_and!.
  - eapply api_remove_exact; [exact (fifo_sim cap 0)|exact (q_init_rel e_ins cap 0 adm)|done|done].
  - intros b. eapply api_remove_exact; [exact (lru_sim cap _)|exact (q_init_rel e_last cap _ adm)|done|by apply md_bool].
  - intros mf Hmf. eapply api_remove_exact; [exact (clock_sim mf cap 0 Hmf)|exact (clock_init_rel mf cap 0 adm)|done|done].
  - intros b. eapply api_remove_exact; [exact (sieve_sim cap _)|exact (sieve_init_rel cap _ adm)|done|by apply md_bool].
  - intros b. eapply api_remove_exact; [exact (lfu_sim cap _)|exact (lfu_init_rel cap _ b adm eq_refl)|done|by apply md_bool].
Qed.

Theorem C06_admit_on_miss cap adm : 0 <= cap ->
  (* FIFO *) spec_admit_on_miss fifo_ops (fifo_init cap adm) cap 0 adm (req_ok 0) /\
  (* LRU *) (forall (b : bool), spec_admit_on_miss lru_ops (lru_init b cap adm) cap (if b then 16 else 0) adm (req_ok (if b then 16 else 0))) /\
  (* Clock *) (forall (mf : Z), 0 <= mf -> spec_admit_on_miss (clock_ops mf) (clock_init cap adm) cap 0 adm (req_ok 0)) /\
  (* Sieve *) (forall (b : bool), spec_admit_on_miss sieve_ops (sieve_init b cap adm) cap (if b then 1 else 0) adm (req_ok (if b then 1 else 0))) /\
  (* LFU *) (forall (b : bool), spec_admit_on_miss lfu_ops (lfu_init b cap adm) cap (if b then 16 else 0) adm (req_ok (if b then 16 else 0))).
Proof.
  intros Hcap. split_and!.
  - eapply api_admit_on_miss; [exact (fifo_sim cap 0)|exact (q_init_rel e_ins cap 0 adm)|done|done].
  - intros b. eapply api_admit_on_miss; [exact (lru_sim cap _)|exact (q_init_rel e_last cap _ adm)|done|by apply md_bool].
  - intros mf Hmf. eapply api_admit_on_miss; [exact (clock_sim mf cap 0 Hmf)|exact (clock_init_rel mf cap 0 adm)|done|done].
  - intros b. eapply api_admit_on_miss; [exact (sieve_sim cap _)|exact (sieve_init_rel cap _ adm)|done|by apply md_bool].
  - intros b. eapply api_admit_on_miss; [exact (lfu_sim cap _)|exact (lfu_init_rel cap _ b adm eq_refl)|done|by apply md_bool].
Qed.

Theorem C07_get_total cap adm : 0 <= cap ->
  (* FIFO *) spec_total fifo_ops (fifo_init cap adm) (req_ok 0) /\
  (* LRU *) (forall (b : bool), spec_total lru_ops (lru_init b cap adm) (req_ok (if b then 16 else 0))) /\
  (* Clock *) (forall (mf : Z), 0 <= mf -> spec_total (clock_ops mf) (clock_init cap adm) (req_ok 0)) /\
  (* Sieve *) (forall (b : bool), spec_total sieve_ops (sieve_init b cap adm) (req_ok (if b then 1 else 0))) /\
  (* LFU *) (forall (b : bool), spec_total lfu_ops (lfu_init b cap adm) (req_ok (if b then 16 else 0))).
Proof.
  intros Hcap. split_and!.
  - eapply api_total; [exact (fifo_sim cap 0)|exact (q_init_rel e_ins cap 0 adm)|done|done].
  - intros b. eapply api_total; [exact (lru_sim cap _)|exact (q_init_rel e_last cap _ adm)|done|by apply md_bool].
  - intros mf Hmf. eapply api_total; [exact (clock_sim mf cap 0 Hmf)|exact (clock_init_rel mf cap 0 adm)|done|done].
  - intros b. eapply api_total; [exact (sieve_sim cap _)|exact (sieve_init_rel cap _ adm)|done|by apply md_bool].
  - intros b. eapply api_total; [exact (lfu_sim cap _)|exact (lfu_init_rel cap _ b adm eq_refl)|done|by apply md_bool].
Qed.

Theorem C36_announced_victim cap adm : 0 <= cap ->
  (* FIFO *) spec_announced_victim fifo_ops (fifo_init cap adm) (req_ok 0) /\
  (* LRU *) (forall (b : bool), spec_announced_victim lru_ops (lru_init b cap adm) (req_ok (if b then 16 else 0))) /\
  (* Clock *) (forall (mf : Z), 0 <= mf -> spec_announced_victim (clock_ops mf) (clock_init cap adm) (req_ok 0)) /\
  (* Sieve *) (forall (b : bool), spec_announced_victim sieve_ops (sieve_init b cap adm) (req_ok (if b then 1 else 0))) /\
  (* LFU *) (forall (b : bool), spec_announced_victim lfu_ops (lfu_init b cap adm) (req_ok (if b then 16 else 0))).
Proof.
  intros Hcap. split_and!.
  - eapply api_announced_victim; [exact (fifo_sim cap 0)|exact (q_init_rel e_ins cap 0 adm)|done|done].
  - intros b. eapply api_announced_victim; [exact (lru_sim cap _)|exact (q_init_rel e_last cap _ adm)|done|by apply md_bool].
  - intros mf Hmf. eapply api_announced_victim; [exact (clock_sim mf cap 0 Hmf)|exact (clock_init_rel mf cap 0 adm)|done|done].
  - intros b. eapply api_announced_victim; [exact (sieve_sim cap _)|exact (sieve_init_rel cap _ adm)|done|by apply md_bool].
  - intros b. eapply api_announced_victim; [exact (lfu_sim cap _)|exact (lfu_init_rel cap _ b adm eq_refl)|done|by apply md_bool].
Qed.

(** ** Replacement policies *)

(** C08: FIFO evicts in order of insertion (pol_fifo, Abs.v), whatever the
    client looked up in between. *)
Theorem C08_fifo_order cap adm : 0 <= cap ->
  spec_policy fifo_ops (fifo_init cap adm) cap 0 adm (req_ok 0) pol_fifo.
Proof. intros. eapply api_policy; [exact (fifo_sim cap 0)|exact (q_init_rel e_ins cap 0 adm)|done|done]. Qed.

(** C09: LRU evicts the least recently used object. *)
Theorem C09_lru_order cap adm (b : bool) : 0 <= cap ->
  spec_policy lru_ops (lru_init b cap adm) cap (if b then 16 else 0) adm (req_ok (if b then 16 else 0)) pol_lru.
Proof.
  intros. eapply api_policy; [exact (lru_sim cap _)|exact (q_init_rel e_last cap _ adm)|done|by apply md_bool].
Qed.

(** C13: LFU evicts a least frequently used object, the one that has had that
    count for longest. *)
Theorem C13_lfu_order cap adm (b : bool) : 0 <= cap ->
  spec_policy lfu_ops (lfu_init b cap adm) cap (if b then 16 else 0) adm (req_ok (if b then 16 else 0)) pol_lfu.
Proof.
  intros. eapply api_policy; [exact (lfu_sim cap _)|exact (lfu_init_rel cap _ b adm eq_refl)|done|by apply md_bool].
Qed.

(** The policies leave no choice: insertion and use times are all different,
    so the victim that FIFO, LRU and LFU may evict is unique. *)
Theorem C08_victim_unique pol cap md adm cs os a v v' : 0 <= cap -> 0 <= md ->
  abs_run pol cap md (abs_init adm) cs os a -> Forall (call_ok (req_ok md)) cs ->
  is_Some (a_m a !! v) -> is_Some (a_m a !! v') ->
  (pol_fifo (a_m a) v -> pol_fifo (a_m a) v' -> v = v') /\
  (pol_lru (a_m a) v -> pol_lru (a_m a) v' -> v = v') /\
  (pol_lfu (a_m a) v -> pol_lfu (a_m a) v' -> v = v').
Proof.
  intros Hcap Hmd Hr Hc [e He] [e' He'].
  destruct (abs_run_ok _ _ _ _ _ _ _ Hr Hc (abs_init_ok _ _ _ Hcap Hmd)) as (_ & _ & Hu & _).
  split_and!; intros H1 H2.
  - pose proof (H1 _ _ _ He He'). pose proof (H2 _ _ _ He' He). apply (Hu v v' e e'); auto; left; lia.
  - pose proof (H1 _ _ _ He He'). pose proof (H2 _ _ _ He' He). apply (Hu v v' e e'); auto; right; lia.
  - pose proof (H1 _ _ _ He He'). pose proof (H2 _ _ _ He' He). apply (Hu v v' e e'); auto; right; lia.
Qed.

(** Non-vacuity of the policy theorems: after three gets and a hit, FIFO, LRU
    and LFU announce different victims. *)
Definition ex_victim {S} (O : ops S) (s : S) (ids : list Z) : res (option Z) :=
  let! (s, _) := run O (length ids) s (map (fun i => CGet (ex_req i)) ids) in
  let! (_, v) := op_to_evict O s (ex_req 0) in Ok v.
Example ex_victim_fifo : ex_victim fifo_ops (fifo_init 3 AdmNone) [1; 2; 2; 3; 1] = Ok (Some 1).
Proof. vm_compute. reflexivity. Qed.
Example ex_victim_lru : ex_victim lru_ops (lru_init false 3 AdmNone) [1; 2; 2; 3; 1] = Ok (Some 2).
Proof. vm_compute. reflexivity. Qed.
Example ex_victim_lfu : ex_victim lfu_ops (lfu_init false 3 AdmNone) [1; 2; 2; 3; 1] = Ok (Some 3).
Proof. vm_compute. reflexivity. Qed.

(** C11: Clock.  In every reachable state the eviction is the one of the sweep
    specification (SpecRing.v), and a use, an insertion and a removal do to
    the ring what the specification says. *)
Theorem C11_clock_sweep mf cap adm s : 0 <= mf -> 0 <= cap ->
  reaches (clock_ops mf) (clock_init cap adm) (req_ok 0) s ->
  (q_q s <> [] -> forall r, exists v s',
     op_to_evict (clock_ops mf) s r = Ok (s, Some v) /\ op_evict (clock_ops mf) s r = Ok s' /\
     clock_evict_spec (clock_view s) v (clock_view s')) /\
  (forall r u, exists s' h, op_find (clock_ops mf) s r u = Ok (s', h) /\
     clock_view s' = if u then ring_at (r_id r) (fun k => Z.min mf (k + 1)) (clock_view s)
                     else clock_view s) /\
  (forall r s', absent (clock_ops mf) s (r_id r) -> req_ok 0 r ->
     op_insert (clock_ops mf) s r = Ok s' -> clock_view s' = clock_view s ++ [(r_id r, 0)]) /\
  (forall id, exists s' b, op_remove (clock_ops mf) s id = Ok (s', b) /\
     clock_view s' = ring_drop id (clock_view s)).
Proof.
  intros Hmf Hcap Hs. split_and!.
  - exact (clock_ring_evict mf cap adm Hmf Hcap s Hs).
  - intros r u. exact (clock_ring_find mf cap adm Hmf Hcap s r u Hs).
  - intros r s'. exact (clock_ring_insert mf cap adm Hmf Hcap s r s' Hs).
  - intros id. exact (clock_ring_remove mf cap adm Hmf Hcap s id Hs).
Qed.

(** A ring of three with counters 1, 2, 1: the sweep goes round once. *)
Definition ex_view {S A} (O : ops S) (view : S -> A) (s : S) (cs : list call) : res A :=
  let! (s, _) := run O (length cs) s cs in Ok (view s).
Definition gets (ids : list Z) : list call := map (fun i => CGet (ex_req i)) ids.
Example ex_clock_ring :
  ex_view (clock_ops 3) clock_view (clock_init 3 AdmNone) (gets [1; 2; 3; 1; 2; 2; 3])
  = Ok [(1, 1); (2, 2); (3, 1)] /\
  ex_view (clock_ops 3) clock_view (clock_init 3 AdmNone) (gets [1; 2; 3; 1; 2; 2; 3] ++ [CEvict (ex_req 0)])
  = Ok [(2, 1); (3, 0)] /\
  ex_view (clock_ops 3) clock_view (clock_init 3 AdmNone) (gets [1; 2; 3; 1; 1; 2; 2; 3] ++ [CEvict (ex_req 0)])
  = Ok [(1, 0); (2, 0)].
Proof. vm_compute. done. Qed.

(** C12: Sieve. *)
Theorem C12_sieve_sweep (b : bool) cap adm s : 0 <= cap ->
  reaches sieve_ops (sieve_init b cap adm) (req_ok (if b then 1 else 0)) s ->
  (v_q s <> [] -> forall r, exists v s',
     op_to_evict sieve_ops s r = Ok (s, Some v) /\ op_evict sieve_ops s r = Ok s' /\
     sieve_evict_spec (sieve_view s) (v_ptr s) v (sieve_view s') (v_ptr s')) /\
  (forall r u, exists s' h, op_find sieve_ops s r u = Ok (s', h) /\ v_ptr s' = v_ptr s /\
     sieve_view s' = if u then ring_at (r_id r) (fun _ => 1) (sieve_view s) else sieve_view s) /\
  (forall r s', absent sieve_ops s (r_id r) -> req_ok (if b then 1 else 0) r ->
     op_insert sieve_ops s r = Ok s' ->
     v_ptr s' = v_ptr s /\ sieve_view s' = sieve_view s ++ [(r_id r, 0)]) /\
  (forall id, exists s' h, op_remove sieve_ops s id = Ok (s', h) /\
     sieve_view s' = ring_drop id (sieve_view s) /\
     (v_ptr s <> Some id -> v_ptr s' = v_ptr s) /\
     (v_ptr s = Some id -> exists u w, ring_ids (sieve_view s) = u ++ id :: w /\ v_ptr s' = head w)).
Proof.
  intros Hcap Hs. split_and!.
  - exact (sieve_ring_evict b cap adm Hcap s Hs).
  - intros r u. exact (sieve_ring_find b cap adm Hcap s r u Hs).
  - intros r s'. exact (sieve_ring_insert b cap adm Hcap s r s' Hs).
  - intros id. exact (sieve_ring_remove b cap adm Hcap s id Hs).
Qed.

(** The hand is in the middle of the queue, marks on both sides of it; the
    next eviction wraps around. *)
Example ex_sieve_ring :
  ex_view sieve_ops (fun s => (sieve_view s, v_ptr s)) (sieve_init false 4 AdmNone)
    (gets [1; 2; 3; 4; 1; 5; 3; 4; 5]) = Ok ([(1, 0); (3, 1); (4, 1); (5, 1)], Some 3) /\
  ex_view sieve_ops (fun s => (sieve_view s, v_ptr s)) (sieve_init false 4 AdmNone)
    (gets [1; 2; 3; 4; 1; 5; 3; 4; 5; 6]) = Ok ([(3, 0); (4, 0); (5, 0); (6, 0)], Some 3).
Proof. vm_compute. done. Qed.

(** C14, full statement: [spec_total mru_ops ...] and [spec_policy ... pol_mru].
    The first half is false: with one object cached an eviction dereferences
    NULL (MRU.c:177-183). *)
Theorem C14_mru_total_refuted :
  exists cs, Forall (call_ok (req_ok 0)) cs /\ run mru_ops 2 (mru_init 1 AdmNone) cs = Err NullDeref.
Proof.
  exists (gets [1; 2]). split; [|vm_compute; reflexivity].
  repeat (apply Forall_cons; split; [cbn; unfold req_ok; cbn; lia|]). constructor.
Qed.

(** What holds: client programs that complete behave as an MRU cache. *)
Theorem C14_mru_order_partial cap adm : 0 <= cap ->
  spec_when_ok mru_ops (mru_init cap adm) cap 0 adm pol_mru.
Proof.
  intros Hcap. eapply ps_when_ok; [exact (mru_psim cap 0)|exact (q_init_rel e_last cap 0 adm)|done|done].
Qed.

(** And the crash happens exactly when at most one object is cached. *)
Theorem C14_mru_crash_iff cap adm cs fuel s os : 0 <= cap -> Forall (call_ok (req_ok 0)) cs ->
  run mru_ops fuel (mru_init cap adm) cs = Ok (s, os) -> forall r,
  (op_nobj mru_ops s <= 1 <-> op_evict mru_ops s r = Err NullDeref) /\
  (2 <= op_nobj mru_ops s <-> exists s', op_evict mru_ops s r = Ok s').
Proof.
  intros Hcap Hc Hr r.
  destruct (ps_run _ _ _ _ _ (mru_psim cap 0) fuel cs _ _ s os (abs_init_ok cap 0 adm Hcap ltac:(done))
              (q_init_rel e_last cap 0 adm) Hc Hr) as ([t m a] & _ & HR & Hok).
  rewrite (ps_nobj _ _ _ _ _ (mru_psim cap 0) _ _ HR). cbn.
  destruct (mru_evict_crash cap 0 s t m a r Hok HR) as [H1 H2]. cbn in *.
  rewrite <- H1, <- H2. split; lia.
Qed.

Example ex_mru : ex_victim mru_ops (mru_init 3 AdmNone) [1; 2; 2; 3; 1; 4] = Ok (Some 4) /\
  ex_view mru_ops q_q (mru_init 3 AdmNone) (gets [1; 2; 2; 3; 1; 4]) = Ok [4; 3; 2].
Proof. vm_compute. done. Qed.

(** C02/C34 beyond the 32-bit bound of [req_ok]: the size of an object is
    stored in 32 bits (cacheObj.h:140), so a cache may hold an object larger
    than itself in its own books, and eviction subtracts a 32-bit sum
    (cache.c:330), so the byte counter can drift. *)
Theorem C34_size_truncated_refuted : exists r s,
  0 <= r_size r <= 2 ^ 33 /\
  cache_get_base lru_ops 1 (lru_init false (2 ^ 33) AdmNone) r = Ok (s, false) /\
  op_occupied lru_ops s <> r_size r.
Proof.
  exists (mkReq 1 (2 ^ 32 + 7) 0 0 0). eexists. split; [cbn; lia|]. split; [vm_compute; reflexivity|].
  vm_compute. done.
Qed.

Theorem C02_counter_drift_refuted : exists r s,
  0 <= r_size r < 2 ^ 32 /\
  run lru_ops 2 (lru_init true (2 ^ 33) AdmNone) [CGet r; CRemove (r_id r)] = Ok (s, [OBool false; OBool true]) /\
  op_nobj lru_ops s = 0 /\ op_occupied lru_ops s <> 0.
Proof.
  exists (mkReq 1 (2 ^ 32 - 1) 0 0 0). eexists. split; [cbn; lia|]. split; [vm_compute; reflexivity|].
  vm_compute. done.
Qed.

(** Within the bound, what is charged is the request's own size. *)
Theorem C34_size_faithful cap adm (b : bool) : 0 <= cap ->
  spec_accounting lru_ops (lru_init b cap adm) cap (if b then 16 else 0) adm (req_ok (if b then 16 else 0)) pol_lru.
Proof. intros Hcap. by apply C02_accounting. Qed.
