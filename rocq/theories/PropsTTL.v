(** C35: expired objects.  The build with TTL support is the default build as
    long as no request refers to an object that may have expired, and find
    without update reports expired objects as absent; but a get on an expired
    object always crashes. *)
From stdpp Require Import gmap list numbers fin_maps.
From Verif Require Import Base Driver ModelQueue ModelLFU ModelTTL.
Open Scope Z_scope.

(** The request of a call that may look an object up. *)
Definition asks (c : call) : option req :=
  match c with CGet r | CFind r _ | CInsert r => Some r | _ => None end.

(** Past its time to live: strictly later than the time of the request that
    cached it plus its ttl (0: no expiry). *)
Definition still_alive (def : Z) (cached now : req) : Prop :=
  exp_of def cached = 0 \/ r_time now <= exp_of def cached.

(** No request of the program comes after the expiry set by an earlier request
    for the same object. *)
Definition never_expired (def : Z) (cs : list call) : Prop :=
  forall i j c c' r r', (i < j)%nat -> cs !! i = Some c -> cs !! j = Some c' ->
    asks c = Some r -> asks c' = Some r' -> r_id r = r_id r' -> still_alive def r r'.

Section Generic.
  Context {S : Type} (O : ops S) (has : S -> Z -> bool).
  Notation T := (ttl_ops O has).

  Definition fresh (def : Z) (past : list req) (t : ttl S) : Prop :=
    t_def t = def /\
    forall id e, t_exp t !! id = Some e -> exists r, r ∈ past /\ r_id r = id /\ e = exp_of def r.

  Lemma fresh_more def past past' t : fresh def past t -> past ⊆ past' -> fresh def past' t.
  Proof.
    intros [A B] H. split; [done|]. intros id e He. destruct (B id e He) as (r & C & D).
    exists r. split; [by apply H|done].
  Qed.

  Lemma fresh_not_expired def past t r : fresh def past t ->
    (forall r', r' ∈ past -> r_id r' = r_id r -> still_alive def r' r) -> expired (t_exp t) r = false.
  Proof.
    intros [A B] H. unfold expired. destruct (t_exp t !! r_id r) as [e|] eqn:E; [|done].
    destruct (B _ _ E) as (r' & C & D & ->). apply bool_decide_eq_false_2.
    destruct (H r' C D) as [->|F]; [tauto|lia].
  Qed.

  Lemma fresh_find def past t r u : fresh def past t ->
    (forall r', r' ∈ past -> r_id r' = r_id r -> still_alive def r' r) ->
    op_find T t r u = (let! (s, b) := op_find O (t_s t) r u in Ok (mkTTL s (t_exp t) (t_def t), b)).
  Proof.
    intros F H. cbn. unfold ttl_find. rewrite (fresh_not_expired def past t r F H), andb_false_r. done.
  Qed.

  Lemma ttl_evict_loop r fuel : forall t,
    evict_loop T fuel t r =
      (let! s := evict_loop O fuel (t_s t) r in Ok (mkTTL s (t_exp t) (t_def t))).
  Proof.
    induction fuel as [|n IH]; intros t; cbn; case_decide; cbn; try done; try (by destruct t).
    destruct (op_evict O (t_s t) r) as [s|]; cbn [rbind]; [|done]. rewrite IH. done.
  Qed.

  Lemma fresh_insert def past t r s : fresh def past t ->
    fresh def (r :: past) (mkTTL s (<[r_id r := exp_of (t_def t) r]> (t_exp t)) (t_def t)).
  Proof.
    intros [A B]. split; [done|]. cbn. intros id e He. apply lookup_insert_Some in He as [[<- <-]|[_ He]].
    - exists r. rewrite A. split; [left|done].
    - destruct (B _ _ He) as (r' & C & D). exists r'. split; [by right|done].
  Qed.

  Lemma ttl_step def past t c fuel s' o : fresh def past t ->
    (forall r r', asks c = Some r -> r' ∈ past -> r_id r' = r_id r -> still_alive def r' r) ->
    step O fuel (t_s t) c = Ok (s', o) ->
    exists t', step T fuel t c = Ok (t', o) /\ t_s t' = s' /\
      fresh def (match asks c with Some r => r :: past | None => past end) t'.
  Proof.
    intros F Hal E. destruct c as [r|r u|r|id|r|r]; cbn [asks] in *.
    - cbn [step] in *. unfold cache_get_base in *.
      set (t1 := op_tick T t). assert (F1 : fresh def past t1) by exact F.
      rewrite (fresh_find def past t1 r true F1) by (intros; by apply Hal).
      change (t_s t1) with (op_tick O (t_s t)).
      destruct (op_find O (op_tick O (t_s t)) r true) as [[s1 [|]]|]; cbn [rbind] in *; [| |done].
      + injection E as <- <-. eexists. split; [done|]. split; [done|].
        eapply fresh_more; [exact F|]. intros x Hx. by right.
      + cbn [op_can_insert ttl_ops t_s].
        destruct (op_can_insert O s1 r) as [[s2 [|]]|]; cbn [rbind] in *; [| |done].
        * rewrite ttl_evict_loop. cbn [t_s].
          destruct (evict_loop O fuel s2 r) as [s3|]; cbn [rbind] in *; [|done].
          cbn [op_insert ttl_ops ttl_insert]. unfold ttl_insert. cbn [t_s].
          destruct (op_insert O s3 r) as [s4|]; cbn [rbind] in *; [|done].
          injection E as <- <-. eexists. split; [done|]. split; [done|].
          by apply (fresh_insert def past t1 r).
        * injection E as <- <-. eexists. split; [done|]. split; [done|].
          eapply fresh_more; [exact F|]. intros x Hx. by right.
    - cbn [step] in *. rewrite (fresh_find def past t r u F) by (intros; by apply Hal).
      destruct (op_find O (t_s t) r u) as [[s1 b]|]; cbn [rbind] in *; [|done].
      injection E as <- <-. eexists. split; [done|]. split; [done|].
      eapply fresh_more; [exact F|]. intros x Hx. by right.
    - cbn [step] in *. rewrite (fresh_find def past t r false F) by (intros; by apply Hal).
      destruct (op_find O (t_s t) r false) as [[s1 b]|]; cbn [rbind] in *; [|done].
      assert (F' : fresh def (r :: past) t) by (eapply fresh_more; [exact F|intros x Hx; by right]).
      destruct b; [injection E as <- <-; by exists t|].
      cbn [op_occupied op_md op_size ttl_ops]. case_decide; [injection E as <- <-; by exists t|].
      cbn [op_insert ttl_ops]. unfold ttl_insert.
      destruct (op_insert O (t_s t) r) as [s4|]; cbn [rbind] in *; [|done].
      injection E as <- <-. eexists. split; [done|]. split; [done|]. by apply (fresh_insert def past t r).
    - cbn in *. destruct (op_remove O (t_s t) id) as [[s1 b]|]; cbn [rbind] in *; [|done].
      injection E as <- <-. eexists. done.
    - cbn in *. case_decide; [injection E as <- <-; by exists t|].
      destruct (op_evict O (t_s t) r) as [s1|]; cbn [rbind] in *; [|done].
      injection E as <- <-. eexists. done.
    - cbn in *. case_decide; [injection E as <- <-; by exists t|].
      destruct (op_to_evict O (t_s t) r) as [[s1 v]|]; cbn [rbind] in *; [|done].
      injection E as <- <-. eexists. done.
  Qed.

  Lemma ttl_run def cs : forall past t fuel s' os, fresh def past t ->
    (forall r r' c j, cs !! j = Some c -> asks c = Some r -> r' ∈ past -> r_id r' = r_id r ->
       still_alive def r' r) ->
    never_expired def cs ->
    run O fuel (t_s t) cs = Ok (s', os) ->
    exists t', run T fuel t cs = Ok (t', os) /\ t_s t' = s'.
  Proof.
    induction cs as [|c cs IH]; intros past t fuel s' os F Hal Hne E; cbn [run] in *.
    - injection E as <- <-. by exists t.
    - destruct (step O fuel (t_s t) c) as [[s1 o]|] eqn:Es; cbn [rbind] in E; [|done].
      destruct (run O fuel s1 cs) as [[s2 os2]|] eqn:Er; cbn [rbind] in E; [|done].
      injection E as <- <-.
      destruct (ttl_step def past t c fuel s1 o F) as (t1 & E1 & <- & F1); [|done|].
      { intros r r' Hr. by apply (Hal r r' c 0%nat). }
      rewrite E1. cbn [rbind].
      destruct (IH _ t1 fuel s2 os2 F1) as (t2 & E2 & <-); [| |done|].
      + intros r r' c' j Hj Hr Hin Hid. destruct (asks c) as [r0|] eqn:E0.
        * apply elem_of_cons in Hin as [->|Hin].
          -- by apply (Hne 0%nat (Datatypes.S j) c c' r0 r); [lia| | | | |].
          -- by apply (Hal r r' c' (Datatypes.S j)).
        * by apply (Hal r r' c' (Datatypes.S j)).
      + intros i j c1 c2 r1 r2 Hij H1 H2. apply (Hne (Datatypes.S i) (Datatypes.S j) c1 c2); [lia|done|done].
      + rewrite E2. cbn [rbind]. by exists t2.
  Qed.

  (** While nothing requested has expired, the TTL build answers as the default
      build does. *)
  Theorem ttl_until_expiry s0 def cs fuel s os :
    never_expired def cs -> run O fuel s0 cs = Ok (s, os) ->
    exists t, run T fuel (ttl_init s0 def) cs = Ok (t, os) /\ t_s t = s.
  Proof.
    intros Hne E. apply (ttl_run def cs [] (ttl_init s0 def) fuel s os); [|intros * _ _ H; inversion H|done|done].
    split; [done|]. intros id e H. cbn in H. by rewrite lookup_empty in H.
  Qed.

  (** find without update sees an expired object as absent and changes nothing. *)
  Theorem ttl_find_expired t r e :
    t_exp t !! r_id r = Some e -> e <> 0 -> e < r_time r -> has (t_s t) (r_id r) = true ->
    op_find T t r false = Ok (t, false).
  Proof.
    intros He H0 Hlt Hh. cbn. unfold ttl_find. rewrite Hh. unfold expired. rewrite He.
    by rewrite bool_decide_eq_true_2.
  Qed.

  Theorem ttl_get_expired t r e fuel :
    t_exp t !! r_id r = Some e -> e <> 0 -> e < r_time r ->
    has (op_tick O (t_s t)) (r_id r) = true ->
    (forall er, op_remove O (op_tick O (t_s t)) (r_id r) <> Err er) ->
    cache_get_base T fuel t r = Err NullDeref.
  Proof.
    intros He H0 Hlt Hh Hr. unfold cache_get_base. cbn [op_find op_tick ttl_ops]. unfold ttl_find.
    cbn [t_s t_exp]. rewrite Hh. unfold expired. rewrite He, bool_decide_eq_true_2 by done. cbn [andb].
    destruct (op_remove O _ _) as [x|er] eqn:E; cbn [rbind]; [done|]. by destruct (Hr er).
  Qed.
End Generic.

(** hashtable_find for each modelled algorithm. *)
Definition q_has (s : qstate) (id : Z) : bool := bool_decide (is_Some (c_tbl (q_c s) !! id)).
Definition v_has (s : sieve_state) (id : Z) : bool := bool_decide (is_Some (c_tbl (v_c s) !! id)).
Definition l_has (s : lfu_state) (id : Z) : bool := bool_decide (is_Some (c_tbl (l_c s) !! id)).

(** [same_until_expiry O has s0]: every program on which nothing requested has
    expired runs as in the default build. *)
Definition same_until_expiry {S} (O : ops S) (has : S -> Z -> bool) (s0 : S) : Prop :=
  forall def cs fuel s os, never_expired def cs -> run O fuel s0 cs = Ok (s, os) ->
    exists t, run (ttl_ops O has) fuel (ttl_init s0 def) cs = Ok (t, os) /\ t_s t = s.

Theorem C35_until_expiry_partial : forall cap adm md maxf,
  same_until_expiry fifo_ops q_has (fifo_init cap adm) /\
  same_until_expiry lru_ops q_has (lru_init md cap adm) /\
  same_until_expiry mru_ops q_has (mru_init cap adm) /\
  same_until_expiry (clock_ops maxf) q_has (clock_init cap adm) /\
  same_until_expiry sieve_ops v_has (sieve_init md cap adm) /\
  same_until_expiry lfu_ops l_has (lfu_init md cap adm).
Proof. intros. split_and!; intros ? ? ? ? ? ? ?; by eapply ttl_until_expiry. Qed.

(** [find_hides_expired]: in every state, looking an expired object up without
    update reports a miss and changes nothing. *)
Definition find_hides_expired {S} (O : ops S) (has : S -> Z -> bool) : Prop :=
  forall t r e, t_exp t !! r_id r = Some e -> e <> 0 -> e < r_time r ->
    has (t_s t) (r_id r) = true -> op_find (ttl_ops O has) t r false = Ok (t, false).

Theorem C35_find_expired : forall maxf,
  find_hides_expired fifo_ops q_has /\ find_hides_expired lru_ops q_has /\
  find_hides_expired mru_ops q_has /\ find_hides_expired (clock_ops maxf) q_has /\
  find_hides_expired sieve_ops v_has /\ find_hides_expired lfu_ops l_has.
Proof. intros. split_and!; intros ? ? ? ? ? ? ?; by eapply ttl_find_expired. Qed.

(** [get_expired_crashes]: in every state, a get on a cached object that has
    expired writes through a NULL pointer. *)
Definition get_expired_crashes {S} (O : ops S) (has : S -> Z -> bool) : Prop :=
  forall t r e fuel, t_exp t !! r_id r = Some e -> e <> 0 -> e < r_time r ->
    has (t_s t) (r_id r) = true -> cache_get_base (ttl_ops O has) fuel t r = Err NullDeref.

Lemma q_remove_has s id er : q_has s id = true -> q_remove s id <> Err er.
Proof.
  unfold q_has, q_remove, cache_remove_obj_base. intros H. apply bool_decide_eq_true in H as [o ->]. done.
Qed.

Theorem C35_get_expired_refuted : forall maxf,
  get_expired_crashes fifo_ops q_has /\ get_expired_crashes lru_ops q_has /\
  get_expired_crashes mru_ops q_has /\ get_expired_crashes (clock_ops maxf) q_has /\
  get_expired_crashes sieve_ops v_has.
Proof.
  intros. split_and!; intros t r e fuel H1 H2 H3 H4; eapply ttl_get_expired; eauto; intros er.
  - by apply q_remove_has.
  - by apply q_remove_has.
  - by apply q_remove_has.
  - by apply q_remove_has.
  - cbn. unfold sieve_remove, cache_remove_obj_base. unfold v_has in H4. cbn.
    apply bool_decide_eq_true in H4 as [o ->]. done.
Qed.

(** For LFU too, from a fresh cache: a get crashes whenever it is made, later
    than its expiry, on the object that the previous get cached. *)
Definition rq (id time lifetime : Z) : req := mkReq id 1 time 0 lifetime.

Theorem C35_lfu_get_expired_refuted :
  run (ttl_ops lfu_ops l_has) 5 (ttl_init (lfu_init false 10 AdmNone) 0)
    [CGet (rq 1 100 10); CGet (rq 2 105 0); CGet (rq 1 111 10)] = Err NullDeref.
Proof. vm_compute. reflexivity. Qed.

(** A time to live that runs past 2^32 seconds wraps: the object is taken for
    expired although it is not, and the next get crashes. *)
Theorem C35_expiry_wraps_refuted :
  run (ttl_ops lru_ops q_has) 5 (ttl_init (lru_init false 10 AdmNone) 0)
    [CGet (rq 1 (2 ^ 32 - 10) 100); CGet (rq 1 (2 ^ 32 - 9) 100)] = Err NullDeref.
Proof. vm_compute. reflexivity. Qed.

Definition ex_obs {S} (x : res (S * list obs)) : option (list obs) :=
  match x with Ok (_, os) => Some os | Err _ => None end.

(** A program that never touches an expired object, and one that does. *)
Example C35_ex_alive :
  never_expired 0 [CGet (rq 1 100 10); CGet (rq 2 105 0); CGet (rq 1 110 10)] /\
  ex_obs (run (ttl_ops lru_ops q_has) 5 (ttl_init (lru_init false 10 AdmNone) 0)
    [CGet (rq 1 100 10); CGet (rq 2 105 0); CGet (rq 1 110 10)])
  = Some [OBool false; OBool false; OBool true].
Proof.
  split; [|vm_compute; reflexivity].
  intros i j c c' r r' Hij Hi Hj Hr Hr' Hid.
  destruct i as [|[|[|i]]]; cbn in Hi; try discriminate; injection Hi as <-; cbn in Hr; injection Hr as <-;
    (destruct j as [|[|[|j]]]; [lia| | |]); cbn in Hj; try discriminate; try lia;
    injection Hj as <-; cbn in Hr'; injection Hr' as <-; cbn in Hid; try discriminate.
  right. vm_compute. discriminate.
Qed.
Example C35_ex_expired :
  run (ttl_ops lru_ops q_has) 5 (ttl_init (lru_init false 10 AdmNone) 0)
    [CGet (rq 1 100 10); CGet (rq 2 105 0); CGet (rq 1 111 10)] = Err NullDeref.
Proof. vm_compute. reflexivity. Qed.
