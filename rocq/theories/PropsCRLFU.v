(** C72: CR_LFU as a cache of its own (cache/eviction/CR_LFU.c without the other
    expert): it evicts a least frequently used object, among these the most
    recently used ([pol_cr], SpecCacheus.v). *)
From stdpp Require Import gmap list numbers fin_maps.
From Verif Require Import Base Driver Abs AbsFacts Sim SpecApi ApiFacts ModelQueue ModelLFU SimLFU ModelTwoQ
  ModelCacheus SpecCacheus CRFacts PropsCore.
Open Scope Z_scope.

Definition cr_rel (cap md : Z) (s : lfu_state) (a : abs) : Prop :=
  crok cap md s (a_t a) (a_m a) /\ c_adm (l_c s) = a_adm a.

Section CRLFU.
  Context (cap md : Z) (Hmd : 0 <= md).

  Lemma cr_sim : simulation pol_cr cr_ops cap md (req_ok md) (cr_rel cap md).
  Proof using All.
    split.
    - done.
    - intros s a [[] _]. done.
    - intros s a [[] _]. done.
    - intros s a [[] _]. done.
    - intros s a [[] _]. done.
    - intros s a [[] ?]. by split.
    - intros s t m a [HC ?]. split; [|done]. cbn in *. eapply crok_later; [| |exact HC]; [done|lia].
    - intros s a r [HC _]. cbn. by eapply cr_find_false.
    - intros s t m a r e _ [HC Ha] He. cbn in *. destruct (cr_find_hit cap md Hmd _ _ _ _ _ HC He) as (s' & Hf & HC' & Hc).
      exists s'. split; [done|]. split; [done|]. rewrite Hc. cbn. unfold cache_find_base. by destruct (c_tbl (l_c s) !! r_id r).
    - intros s a r [HC Ha] Hn. cbn. exists s. split; [by eapply cr_find_miss|done].
    - intros s t m a r [HC Ha]. cbn in *. unfold cr_can_insert, cache_can_insert_default. rewrite Ha.
      destruct HC as [C1 C2 C3 C4 C5 C6 C7 C8]. destruct (admit a r) as [adm ok]. rewrite C1, C2.
      destruct ok; cbn [fst snd andb]; [destruct (decide (r_size r + md > cap)) as [Hd|Hd]|].
      + rewrite bool_decide_eq_false_2 by lia. eexists. split; [reflexivity|]. by split.
      + rewrite bool_decide_eq_true_2 by lia. eexists. split; [reflexivity|]. by split.
      + eexists. split; [reflexivity|]. by split.
    - intros s t m a r _ [HC Ha] Hn Hr _. cbn in *.
      destruct (cr_insert_spec cap md Hmd s t m None r HC Hn Hr) as (s' & Hi & HC' & _); [done|by left|].
      exists s'. split; [done|]. split; [exact HC'|]. cbn.
      unfold cr_insert, cache_insert_base in Hi. rewrite (crok_none cap md Hmd _ _ _ _ HC Hn) in Hi. cbn in Hi. by injection Hi as <-.
    - intros s t m a r _ [HC Ha] Hne. cbn in *.
      destruct (cr_to_evict_spec cap md Hmd s t m r HC Hne) as (v & e & Hte & He & Hp).
      destruct (cr_evict_spec cap md Hmd s t m None None v e r HC Hte He eq_refl) as (s' & Hev & HC' & _ & _ & Hadm & _).
      exists s, v, s'. rewrite Hev. cbn [rbind].
      assert (HR : cr_rel cap md s' (mkAbs t (delete v m) a)) by (split; [done|cbn; congruence]).
      split; [done|]. split; [by split|]. split; [by eexists|]. split; [done|]. split; [done|]. split; [done|].
      intros _. exists s'. by split.
    - intros s t m a id _ [HC Ha]. cbn in *. destruct (m !! id) as [e|] eqn:E.
      + destruct (cr_remove_hit cap md Hmd s t m None None id e HC E eq_refl) as (s' & -> & HC' & _ & Hadm & _). cbn.
        exists s'. split; [done|]. split; [done|cbn; congruence].
      + rewrite (cr_remove_miss cap md Hmd _ _ _ _ _ HC E). cbn. exists s. split; [done|].
        rewrite delete_notin by done. by split.
  Qed.

  Lemma cr_init_rel (b : bool) adm : md = (if b then 16 else 0) -> cr_rel cap md (cr_init b cap adm) (abs_init adm).
  Proof using All. intros E. split; [by apply cr_init_ok|done]. Qed.
End CRLFU.

(** All client programs: capacity, accounting, hits, removal, admission,
    totality, the announced victim and the policy (SpecApi.v). *)
Theorem C72_crlfu cap adm (b : bool) : 0 <= cap ->
  spec_api cr_ops (cr_init b cap adm) cap (if b then 16 else 0) adm (req_ok (if b then 16 else 0)) pol_cr.
Proof.
  intros Hcap. assert (0 <= if b then 16 else 0) as Hmd by (by apply md_bool).
  eapply api_all; [exact (cr_sim cap _ Hmd)|exact (cr_init_rel cap _ Hmd b adm eq_refl)|done|done].
Qed.

(** The policy leaves no choice. *)
Theorem C72_victim_unique cap md adm cs os a v v' : 0 <= cap -> 0 <= md ->
  abs_run pol_cr cap md (abs_init adm) cs os a -> Forall (call_ok (req_ok md)) cs ->
  is_Some (a_m a !! v) -> is_Some (a_m a !! v') -> pol_cr (a_m a) v -> pol_cr (a_m a) v' -> v = v'.
Proof.
  intros Hcap Hmd Hr Hc [e He] [e' He'].
  destruct (abs_run_ok _ _ _ _ _ _ _ Hr Hc (abs_init_ok _ _ _ Hcap Hmd)) as (_ & _ & Hu & _).
  intros H1 H2. pose proof (H1 _ _ _ He He'). pose proof (H2 _ _ _ He' He). apply (Hu v v' e e'); auto; right; lia.
Qed.

(** LFU and CR_LFU evict from the two ends of the same bucket. *)
Example crlfu_ex : ex_answers cr_ops (cr_init false 3 AdmNone)
  = Ok ([OBool false; OBool false; OBool false; OBool true; OBool false; OBool true; OBool false;
         OVictim (Some 4); OBool false], 3, 3).
Proof. vm_compute. reflexivity. Qed.
Example crlfu_victim_ex : ex_victim cr_ops (cr_init false 3 AdmNone) [1; 2; 2; 3; 1; 3] = Ok (Some 3) /\
  ex_victim lfu_ops (lfu_init false 3 AdmNone) [1; 2; 2; 3; 1; 3] = Ok (Some 2).
Proof. split; vm_compute; reflexivity. Qed.

(** An eviction that finds no object dereferences a null pointer: after the last
    object left no frequency is the lowest. *)
Theorem C72_empty_refuted r : exists s,
  reaches cr_ops (cr_init false 1 AdmNone) (req_ok 0) s /\ op_nobj cr_ops s = 0 /\
  op_evict cr_ops s r = Err NullDeref /\ op_to_evict cr_ops s r = Err NullDeref.
Proof.
  destruct (run cr_ops 2 (cr_init false 1 AdmNone) [CGet (ex_req 1); CEvict (ex_req 0)]) as [[s os]|] eqn:E;
    [|vm_compute in E; discriminate].
  exists s. split.
  - exists [CGet (ex_req 1); CEvict (ex_req 0)], 2%nat, os. split; [|by split].
    repeat (apply Forall_cons; split; [cbn; unfold req_ok; cbn; lia || done|]). constructor.
  - vm_compute in E. injection E as <- <-. split; [done|]. split; vm_compute; reflexivity.
Qed.
