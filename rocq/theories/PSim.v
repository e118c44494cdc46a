(** Partial simulation: for algorithms that can crash.  Every call that
    returns normally does what the abstract cache does. *)
From stdpp Require Import gmap list numbers fin_maps.
From Verif Require Import Base Driver Abs AbsFacts Sim SpecApi.
Open Scope Z_scope.

Record psimulation {S} (pol : policy) (O : ops S) (cap md : Z) (R : S -> abs -> Prop) : Prop := {
  ps_size s a : R s a -> op_size O s = cap;
  ps_md s a : R s a -> op_md O s = md;
  ps_occ s a : R s a -> op_occupied O s = msum md (a_m a);
  ps_nobj s a : R s a -> op_nobj O s = Z.of_nat (size (a_m a));
  ps_tick s a : R s a -> R (op_tick O s) a;
  ps_clock s t m a : R s (mkAbs t m a) -> R s (mkAbs (t + 1) m a);
  ps_find_false s a r s' b : R s a -> op_find O s r false = Ok (s', b) ->
    s' = s /\ b = bool_decide (is_Some (a_m a !! r_id r));
  ps_find_hit s t m a r e s' b : abs_ok cap md (mkAbs t m a) -> R s (mkAbs t m a) ->
    m !! r_id r = Some e -> op_find O s r true = Ok (s', b) ->
    b = true /\ R s' (mkAbs (t + 1) (<[r_id r := touch t r e]> m) a);
  ps_find_miss s a r s' b : R s a -> a_m a !! r_id r = None ->
    op_find O s r true = Ok (s', b) -> b = false /\ R s' a;
  ps_can s t m a r s' b : R s (mkAbs t m a) -> op_can_insert O s r = Ok (s', b) ->
    b = (admit a r).2 && bool_decide (r_size r + md <= cap) /\ R s' (mkAbs t m (admit a r).1);
  ps_insert s t m a r s' : abs_ok cap md (mkAbs t m a) -> R s (mkAbs t m a) ->
    m !! r_id r = None -> req_ok md r -> msum md m + (r_size r + md) <= cap ->
    op_insert O s r = Ok s' ->
    R s' (mkAbs (t + 1) (<[r_id r := fresh t r]> m) a);
  ps_evict s t m a r s' : abs_ok cap md (mkAbs t m a) -> R s (mkAbs t m a) -> m <> ∅ ->
    op_evict O s r = Ok s' ->
    exists v, is_Some (m !! v) /\ pol m v /\ R s' (mkAbs t (delete v m) a);
  ps_to_evict s t m a r s' o : abs_ok cap md (mkAbs t m a) -> R s (mkAbs t m a) -> m <> ∅ ->
    op_to_evict O s r = Ok (s', o) ->
    exists v, o = Some v /\ is_Some (m !! v) /\ pol m v /\ R s' (mkAbs t m a);
  ps_remove s t m a id s' b : abs_ok cap md (mkAbs t m a) -> R s (mkAbs t m a) ->
    op_remove O s id = Ok (s', b) ->
    b = bool_decide (is_Some (m !! id)) /\ R s' (mkAbs t (delete id m) a)
}.

(** What a crashing cache still guarantees: a client program that completes
    has the answers of the abstract cache, within the capacity and with exact
    counters. *)
Definition spec_when_ok {S} (O : ops S) (s0 : S) (cap md : Z) (adm : admissioner) (pol : policy) : Prop :=
  forall cs fuel s os, Forall (call_ok (req_ok md)) cs -> run O fuel s0 cs = Ok (s, os) ->
  exists a, abs_run pol cap md (abs_init adm) cs os a /\
    op_occupied O s = msum md (a_m a) /\ 0 <= op_occupied O s <= cap /\
    op_nobj O s = Z.of_nat (size (a_m a)) /\
    (forall r s' b, op_find O s r false = Ok (s', b) -> s' = s /\ (b = true <-> is_Some (a_m a !! r_id r))) /\
    (forall r s' v, a_m a <> ∅ -> op_to_evict O s r = Ok (s', v) ->
       exists id, v = Some id /\ is_Some (a_m a !! id) /\ pol (a_m a) id).

Lemma rbind_ok {A B} (x : res A) (f : A -> res B) b : rbind x f = Ok b -> exists a, x = Ok a /\ f a = Ok b.
Proof. destruct x; cbn; [eauto|done]. Qed.

Section PSim.
  Context {S : Type} (pol : policy) (O : ops S) (cap md : Z) (R : S -> abs -> Prop).
  Context (HS : psimulation pol O cap md R).

  Lemma ps_evict_loop fuel : forall s t m a r s',
    abs_ok cap md (mkAbs t m a) -> R s (mkAbs t m a) -> r_size r + md <= cap ->
    evict_loop O fuel s r = Ok s' ->
    exists m', evict_to pol cap md (r_size r + md) m m' /\ R s' (mkAbs t m' a).
  Proof.
    induction fuel as [|fuel IH]; intros s t m a r s' Hok HR Hfit; cbn;
      rewrite (ps_size _ _ _ _ _ HS _ _ HR), (ps_md _ _ _ _ _ HS _ _ HR),
        (ps_occ _ _ _ _ _ HS _ _ HR); cbn; destruct (decide _) as [Hgt|Hle]; [done| | |].
    - intros [= <-]. exists m. split; [|done]. constructor. lia.
    - intros (s1 & He & Hl)%rbind_ok.
      assert (m <> ∅) as Hne. { intros ->. rewrite msum_empty in Hgt. lia. }
      destruct (ps_evict _ _ _ _ _ HS _ _ _ _ _ _ Hok HR Hne He) as (v & Hv & Hpol & HR1).
      destruct (IH s1 t (delete v m) a r s') as (m' & Hev & HR'); auto; [by apply abs_ok_delete|].
      exists m'. split; [|done]. eapply ev_more; eauto. lia.
    - intros [= <-]. exists m. split; [|done]. constructor. lia.
  Qed.

  Lemma ps_step fuel s a c s' o :
    abs_ok cap md a -> R s a -> call_ok (req_ok md) c -> step O fuel s c = Ok (s', o) ->
    exists a', abs_step pol cap md a c o a' /\ R s' a'.
  Proof.
    intros Hok HR Hc Hst. destruct a as [t m ad]. destruct c; cbn in *.
    - apply rbind_ok in Hst as ([s1 b] & Hg & [= <- <-]). unfold cache_get_base in Hg.
      pose proof (ps_tick _ _ _ _ _ HS _ _ HR) as HR0.
      apply rbind_ok in Hg as ([s2 hit] & Hfi & Hg).
      destruct (m !! r_id r) as [e|] eqn:E.
      + destruct (ps_find_hit _ _ _ _ _ HS _ _ _ _ _ _ _ _ Hok HR0 E Hfi) as (-> & HR2).
        injection Hg as <- <-. eexists. split; [|exact HR2]. by constructor.
      + destruct (ps_find_miss _ _ _ _ _ HS _ _ _ _ _ HR0 E Hfi) as (-> & HR2).
        apply rbind_ok in Hg as ([s3 ok] & Hca & Hg).
        destruct (ps_can _ _ _ _ _ HS _ _ _ _ _ _ _ HR2 Hca) as (-> & HR3).
        destruct (admit ad r) as [ad' ok'] eqn:Ead. cbn in *. destruct ok'; cbn in Hg.
        * destruct (decide (r_size r + md <= cap)) as [Hle|Hgt].
          -- rewrite bool_decide_true in Hg by done.
             assert (Hok3 : abs_ok cap md (mkAbs t m ad')) by (by eapply abs_ok_adm).
             apply rbind_ok in Hg as (s4 & Hl & Hg). apply rbind_ok in Hg as (s5 & Hi & [= <- <-]).
             destruct (ps_evict_loop _ _ _ _ _ _ _ Hok3 HR3 Hle Hl) as (m' & Hev & HR4).
             destruct (evict_to_ok _ _ _ _ _ _ _ ad' Hev Hok3) as (Hok4 & Hfit & Hsub & _).
             assert (Hn : m' !! r_id r = None).
             { destruct (m' !! r_id r) eqn:E'; [|done].
               rewrite (lookup_weaken _ _ _ _ E' Hsub) in E. done. }
             pose proof (ps_insert _ _ _ _ _ HS _ _ _ _ _ _ Hok4 HR4 Hn Hc Hfit Hi) as HR5.
             eexists. split; [|exact HR5]. eapply AGetMiss; eauto.
          -- rewrite bool_decide_false in Hg by done. injection Hg as <- <-.
             eexists. split; [eapply AGetTooBig; eauto; lia|]. eapply ps_clock; eauto.
        * injection Hg as <- <-. eexists. split; [eapply AGetRefused; eauto|]. eapply ps_clock; eauto.
    - apply rbind_ok in Hst as ([s1 b] & Hf & [= <- <-]). destruct upd.
      + destruct (m !! r_id r) as [e|] eqn:E.
        * destruct (ps_find_hit _ _ _ _ _ HS _ _ _ _ _ _ _ _ Hok HR E Hf) as (-> & HR2).
          eexists. split; [|exact HR2]. by constructor.
        * destruct (ps_find_miss _ _ _ _ _ HS _ _ _ _ _ HR E Hf) as (-> & HR2).
          eexists. split; [by constructor|]. eapply ps_clock; eauto.
      + destruct (ps_find_false _ _ _ _ _ HS _ _ _ _ _ HR Hf) as (-> & ->).
        eexists. split; [apply AFind|]. eapply ps_clock; eauto.
    - apply rbind_ok in Hst as ([s1 b] & Hf & Hst).
      destruct (ps_find_false _ _ _ _ _ HS _ _ _ _ _ HR Hf) as (-> & ->). cbn in *.
      destruct (m !! r_id r) as [e|] eqn:E.
      + rewrite bool_decide_true in Hst by eauto. injection Hst as <- <-.
        eexists. split; [apply AInsertSkip; left; rewrite E; eauto|]. eapply ps_clock; eauto.
      + rewrite bool_decide_false in Hst by (by intros []).
        rewrite (ps_size _ _ _ _ _ HS _ _ HR), (ps_md _ _ _ _ _ HS _ _ HR),
          (ps_occ _ _ _ _ _ HS _ _ HR) in Hst; cbn in Hst.
        destruct (decide _) as [Hgt|Hle].
        * injection Hst as <- <-. eexists. split; [apply AInsertSkip; right; lia|]. eapply ps_clock; eauto.
        * apply rbind_ok in Hst as (s2 & Hi & [= <- <-]).
          eexists. split; [apply AInsert; auto; lia|]. eapply ps_insert; eauto. lia.
    - apply rbind_ok in Hst as ([s1 b] & Hr & [= <- <-]).
      destruct (ps_remove _ _ _ _ _ HS _ _ _ _ _ _ _ Hok HR Hr) as (-> & HR1).
      eexists. split; [apply ARemove|]. eapply ps_clock; eauto.
    - rewrite (ps_nobj _ _ _ _ _ HS _ _ HR) in Hst. cbn in Hst. destruct (decide _) as [Hz|Hnz].
      + injection Hst as <- <-. assert (m = ∅) as -> by (apply map_size_empty_inv; lia).
        eexists. split; [apply AEvictEmpty|]. eapply ps_clock; eauto.
      + apply rbind_ok in Hst as (s1 & He & [= <- <-]).
        assert (m <> ∅) as Hne by (intros ->; rewrite map_size_empty in Hnz; lia).
        destruct (ps_evict _ _ _ _ _ HS _ _ _ _ _ _ Hok HR Hne He) as (v & Hv & Hpol & HR1).
        eexists. split; [by apply AEvict|]. eapply ps_clock; eauto.
    - rewrite (ps_nobj _ _ _ _ _ HS _ _ HR) in Hst. cbn in Hst. destruct (decide _) as [Hz|Hnz].
      + injection Hst as <- <-. assert (m = ∅) as -> by (apply map_size_empty_inv; lia).
        eexists. split; [apply AToEvictEmpty|]. eapply ps_clock; eauto.
      + apply rbind_ok in Hst as ([s1 v] & He & [= <- <-]).
        assert (m <> ∅) as Hne by (intros ->; rewrite map_size_empty in Hnz; lia).
        destruct (ps_to_evict _ _ _ _ _ HS _ _ _ _ _ _ _ Hok HR Hne He) as (v' & -> & Hv & Hpol & HR1).
        eexists. split; [by apply AToEvict|]. eapply ps_clock; eauto.
  Qed.

  Lemma ps_run fuel cs : forall s a s' os,
    abs_ok cap md a -> R s a -> Forall (call_ok (req_ok md)) cs -> run O fuel s cs = Ok (s', os) ->
    exists a', abs_run pol cap md a cs os a' /\ R s' a' /\ abs_ok cap md a'.
  Proof.
    induction cs as [|c cs IH]; intros s a s' os Hok HR Hc Hr; cbn in Hr.
    - injection Hr as <- <-. eexists. split_and!; [constructor|done|done].
    - inversion Hc; subst.
      apply rbind_ok in Hr as ([s1 o] & Hs & Hr). apply rbind_ok in Hr as ([s2 os'] & Hr & [= <- <-]).
      destruct (ps_step _ _ _ _ _ _ Hok HR H1 Hs) as (a1 & Ha & HR1).
      destruct (IH s1 a1 s2 os') as (a2 & Har & HR2 & Hok2); auto; [by eapply abs_step_ok|].
      eexists. split_and!; [|done|done]. econstructor; eauto.
  Qed.

  Lemma ps_when_ok s0 adm : R s0 (abs_init adm) -> 0 <= cap -> 0 <= md ->
    spec_when_ok O s0 cap md adm pol.
  Proof.
    intros H0 Hcap Hmd cs fuel s os Hc Hr.
    destruct (ps_run fuel cs s0 (abs_init adm) s os) as (a & Ha & HR & Hok); auto.
    { by apply abs_init_ok. }
    exists a. split; [done|]. rewrite (ps_occ _ _ _ _ _ HS _ _ HR), (ps_nobj _ _ _ _ _ HS _ _ HR).
    split_and!; try done; try apply Hok.
    - intros r s' b Hf. destruct (ps_find_false _ _ _ _ _ HS _ _ _ _ _ HR Hf) as (-> & ->).
      by rewrite bool_decide_eq_true.
    - intros r s' v Hne Hte. destruct a as [t m ad].
      destruct (ps_to_evict _ _ _ _ _ HS _ _ _ _ _ _ _ Hok HR Hne Hte) as (id & ? & ? & ? & _). eauto.
  Qed.
End PSim.
