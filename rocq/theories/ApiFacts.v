(** Any operation table that simulates an abstract cache has the properties of
    SpecApi.v. *)
From stdpp Require Import gmap list numbers fin_maps.
From Verif Require Import Base Driver Abs AbsFacts Sim SpecApi.
Open Scope Z_scope.

Section Api.
  Context {S : Type} (pol : policy) (O : ops S) (cap md : Z) (adm : admissioner) (P : req -> Prop).
  Context (R : S -> abs -> Prop) (s0 : S).
  Context (HS : simulation pol O cap md P R) (H0 : R s0 (abs_init adm)).
  Context (Hcap : 0 <= cap) (Hmd : 0 <= md).

  Lemma api_run cs fuel : Forall (call_ok P) cs -> (length cs <= fuel)%nat ->
    exists s os a, run O fuel s0 cs = Ok (s, os) /\
      abs_run pol cap md (abs_init adm) cs os a /\ R s a /\ abs_ok cap md a.
  Proof.
    intros. eapply sim_run; eauto. by apply abs_init_ok.
  Qed.

  Lemma reaches_rel s : reaches O s0 P s -> exists a, R s a /\ abs_ok cap md a.
  Proof.
    intros (cs & fuel & os & Hc & Hf & Hr).
    destruct (api_run cs fuel Hc Hf) as (s' & os' & a & Hr' & _ & HR & Hok).
    rewrite Hr in Hr'. injection Hr' as <- <-. eauto.
  Qed.

  Lemma abs_run_adm cs os a0 a : abs_run pol cap md a0 cs os a -> a_adm a0 = AdmNone -> a_adm a = AdmNone.
  Proof.
    induction 1 as [|a1 c o a1' cs os a'' Hs Hr IH]; intros Ha; [done|]. apply IH.
    clear -Hs Ha. destruct Hs; cbn in *; subst; try done; cbn in *; congruence.
  Qed.

  Lemma reaches_rel_adm s : reaches O s0 P s -> adm = AdmNone ->
    exists t m, R s (mkAbs t m AdmNone) /\ abs_ok cap md (mkAbs t m AdmNone).
  Proof.
    intros (cs & fuel & os & Hc & Hf & Hr) Ha.
    destruct (api_run cs fuel Hc Hf) as (s' & os' & a & Hr' & Har & HR & Hok).
    rewrite Hr in Hr'. injection Hr' as <- <-.
    pose proof (abs_run_adm _ _ _ _ Har Ha) as Hadm. destruct a as [t m ad]. cbn in Hadm.
    subst ad. eauto.
  Qed.

  Lemma resident_iff s a id : R s a -> resident O s id <-> is_Some (a_m a !! id).
  Proof.
    intros HR. split.
    - intros H. destruct (H (mkReq id 0 0 0 0) eq_refl) as (s' & Hf).
      rewrite (sim_find_false _ _ _ _ _ _ HS _ _ _ HR) in Hf. cbn in Hf.
      injection Hf as _ Hb. by apply bool_decide_eq_true in Hb.
    - intros H r <-. rewrite (sim_find_false _ _ _ _ _ _ HS _ _ _ HR).
      eexists. by rewrite bool_decide_true.
  Qed.

  Lemma absent_iff s a id : R s a -> absent O s id <-> a_m a !! id = None.
  Proof.
    intros HR. split.
    - intros H. destruct (H (mkReq id 0 0 0 0) eq_refl) as (s' & Hf).
      rewrite (sim_find_false _ _ _ _ _ _ HS _ _ _ HR) in Hf. cbn in Hf.
      injection Hf as _ Hb. apply bool_decide_eq_false in Hb. by apply eq_None_not_Some.
    - intros H r <-. rewrite (sim_find_false _ _ _ _ _ _ HS _ _ _ HR).
      eexists. rewrite bool_decide_false; [done|]. rewrite H. by intros [].
  Qed.

  Lemma api_capacity : spec_capacity O s0 cap P.
  Proof.
    intros s Hs. destruct (reaches_rel s Hs) as (a & HR & Hok).
    rewrite (sim_occ _ _ _ _ _ _ HS _ _ HR). apply Hok.
  Qed.

  Lemma api_accounting : spec_accounting O s0 cap md adm P pol.
  Proof.
    intros cs fuel Hc Hf. destruct (api_run cs fuel Hc Hf) as (s & os & a & Hr & Ha & HR & Hok).
    exists s, os, a. split_and!; auto.
    - by apply (sim_occ _ _ _ _ _ _ HS).
    - by apply (sim_nobj _ _ _ _ _ _ HS).
    - intros id. by apply resident_iff.
    - intros id. by apply absent_iff.
  Qed.

  Lemma api_hit_iff_resident : spec_hit_iff_resident O s0 P.
  Proof.
    intros s Hs id. destruct (reaches_rel s Hs) as (a & HR & Hok). destruct a as [t m ad].
    split.
    - destruct (m !! id) eqn:E.
      + left. apply (resident_iff _ _ _ HR). cbn. eauto.
      + right. by apply (absent_iff _ _ _ HR).
    - intros r fuel <- Hr Hf. rewrite (sim_nobj _ _ _ _ _ _ HS _ _ HR) in Hf. cbn in Hf.
      destruct (sim_step pol O cap md P R HS fuel s _ (CGet r) Hok HR) as (s1 & o & a1 & Hst & Has & _).
      { done. } { cbn. lia. }
      cbn in Hst. destruct (cache_get_base O fuel s r) as [[s1' h]|] eqn:Eg; [|done].
      cbn in Hst. injection Hst as <- <-.
      destruct (m !! r_id r) as [e|] eqn:E.
      + destruct (sim_find_hit _ _ _ _ _ _ HS _ _ _ _ r e Hok HR E) as (s2 & Hf2 & _).
        assert (h = true) as -> by (inversion Has; subst; congruence).
        exists s1', s2, true. split_and!; try done.
        * split; [|done]. intros _. apply (resident_iff _ _ _ HR). cbn. eauto.
        * split; [done|]. intros Hab. eapply absent_iff in Hab; eauto. cbn in Hab. congruence.
      + destruct (sim_find_miss _ _ _ _ _ _ HS _ _ r HR E) as (s2 & Hf2 & _).
        assert (h = false) as -> by (inversion Has; subst; congruence).
        exists s1', s2, false. split_and!; try done.
        * split; [done|]. intros Hre. eapply resident_iff in Hre; eauto. cbn in Hre.
          rewrite E in Hre. by destruct Hre.
        * split; [|done]. intros _. by apply (absent_iff _ _ _ HR).
  Qed.

  Lemma api_find_pure : spec_find_pure O s0 P.
  Proof.
    intros s Hs r. destruct (reaches_rel s Hs) as (a & HR & Hok).
    rewrite (sim_find_false _ _ _ _ _ _ HS _ _ _ HR). eauto.
  Qed.

  Lemma api_remove_exact : spec_remove_exact O s0 P.
  Proof.
    intros s Hs id. destruct (reaches_rel s Hs) as (a & HR & Hok). destruct a as [t m ad].
    destruct (sim_remove _ _ _ _ _ _ HS _ _ _ _ id Hok HR) as (s' & Hr & HR').
    eexists _, _. split; [exact Hr|]. split_and!.
    - rewrite bool_decide_eq_true. symmetry. by apply (resident_iff s _ id HR).
    - eapply absent_iff; eauto. cbn. by rewrite lookup_delete.
    - intros j Hj. rewrite (resident_iff _ _ _ HR), (resident_iff _ _ _ HR'). cbn.
      by rewrite lookup_delete_ne by congruence.
    - rewrite (sim_nobj _ _ _ _ _ _ HS _ _ HR), (sim_nobj _ _ _ _ _ _ HS _ _ HR'). cbn.
      destruct (m !! id) as [e|] eqn:E.
      + rewrite bool_decide_true by eauto. rewrite map_size_delete_Some by eauto.
        assert (size m <> 0%nat) by (intros Hz%map_size_empty_inv; subst m; rewrite lookup_empty in E; done).
        lia.
      + rewrite bool_decide_false by (by intros []). rewrite delete_notin by done. lia.
    - intros Hb. apply bool_decide_eq_false, eq_None_not_Some in Hb.
      rewrite (sim_occ _ _ _ _ _ _ HS _ _ HR), (sim_occ _ _ _ _ _ _ HS _ _ HR'). cbn.
      by rewrite delete_notin by done.
  Qed.

  Lemma evict_to_fits n m m' : evict_to pol cap md n m m' -> msum md m + n <= cap -> m' = m.
  Proof. destruct 1; intros; [done|lia]. Qed.

  Lemma api_admit_on_miss : spec_admit_on_miss O s0 cap md adm P.
  Proof.
    intros Hadm s Hs r fuel Hr Hf Hab. destruct (reaches_rel_adm s Hs Hadm) as (t & m & HR & Hok).
    rewrite (sim_nobj _ _ _ _ _ _ HS _ _ HR) in Hf. cbn in Hf.
    eapply absent_iff in Hab; [|exact HR]. cbn in Hab.
    destruct (sim_step pol O cap md P R HS fuel s _ (CGet r) Hok HR) as (s1 & o & a1 & Hst & Has & HR1).
    { done. } { cbn. lia. }
    cbn in Hst. destruct (cache_get_base O fuel s r) as [[s1' h]|] eqn:Eg; [|done].
    cbn in Hst. injection Hst as <- <-. exists s1'.
    inversion Has; subst; try congruence.
    - cbn in *. congruence.
    - split; [done|]. split; [intros; lia|]. intros _.
      rewrite (sim_occ _ _ _ _ _ _ HS _ _ HR), (sim_occ _ _ _ _ _ _ HS _ _ HR1).
      rewrite (sim_nobj _ _ _ _ _ _ HS _ _ HR), (sim_nobj _ _ _ _ _ _ HS _ _ HR1).
      split; [|done]. intros j. by rewrite (resident_iff _ _ _ HR), (resident_iff _ _ _ HR1).
    - split; [done|]. split; [intros _|intros; lia].
      destruct (evict_to_ok _ _ _ _ _ _ _ AdmNone H9 Hok) as (_ & Hfit & Hsub & _).
      assert (Hn : m' !! r_id r = None).
      { destruct (m' !! r_id r) eqn:E'; [|done].
        rewrite (lookup_weaken _ _ _ _ E' Hsub) in Hab. done. }
      split; [|split].
      + apply (resident_iff _ _ _ HR1). cbn. rewrite lookup_insert. eauto.
      + intros j Hj. apply (resident_iff _ _ _ HR1) in Hj. cbn in Hj.
        destruct (decide (j = r_id r)) as [->|Hne]; [by left|right].
        rewrite lookup_insert_ne in Hj by congruence. apply (resident_iff _ _ _ HR). cbn.
        destruct Hj as [e He]. exists e. by eapply lookup_weaken.
      + intros Hroom. rewrite (sim_occ _ _ _ _ _ _ HS _ _ HR) in Hroom. cbn in Hroom.
        assert (m' = m) as -> by (eapply evict_to_fits; eauto; lia).
        rewrite (sim_occ _ _ _ _ _ _ HS _ _ HR), (sim_occ _ _ _ _ _ _ HS _ _ HR1).
        rewrite (sim_nobj _ _ _ _ _ _ HS _ _ HR), (sim_nobj _ _ _ _ _ _ HS _ _ HR1). cbn.
        split_and!.
        * intros j Hj. apply (resident_iff _ _ _ HR) in Hj. apply (resident_iff _ _ _ HR1). cbn in *.
          destruct (decide (j = r_id r)) as [->|Hne]; [rewrite lookup_insert; eauto|].
          by rewrite lookup_insert_ne by congruence.
        * rewrite msum_insert by done. cbn. lia.
        * rewrite map_size_insert_None by done. lia.
  Qed.

  Lemma api_total : spec_total O s0 P.
  Proof.
    intros cs fuel Hc Hf. destruct (api_run cs fuel Hc Hf) as (s & os & a & Hr & _). eauto.
  Qed.

  Lemma api_announced_victim : spec_announced_victim O s0 P.
  Proof.
    intros s Hs Hn r r'. destruct (reaches_rel s Hs) as (a & HR & Hok). destruct a as [t m ad].
    rewrite (sim_nobj _ _ _ _ _ _ HS _ _ HR) in Hn. cbn in Hn.
    assert (Hne : m <> ∅) by (intros ->; rewrite map_size_empty in Hn; lia).
    destruct (sim_evict _ _ _ _ _ _ HS s t m ad r Hok HR Hne)
      as (s1 & v & s3 & Hte & HR1 & Hv & Hpol & Hev & HR3 & Hev2).
    destruct (Hev2 r') as (s2 & Hev2' & HR2). clear Hev2.
    assert (Hsz : Z.of_nat (size (delete v m)) = Z.of_nat (size m) - 1).
    { rewrite map_size_delete_Some by done. lia. }
    assert (Hdel : forall s', R s' (mkAbs t (delete v m) ad) ->
              forall j, resident O s' j <-> resident O s j /\ j <> v).
    { intros s' HR' j. rewrite (resident_iff _ _ _ HR), (resident_iff _ _ _ HR'). cbn.
      destruct (decide (j = v)) as [->|Hj].
      - rewrite lookup_delete. split; [by intros []|naive_solver].
      - rewrite lookup_delete_ne by congruence. naive_solver. }
    exists s1, v, s2, s3. split_and!; auto.
    - by apply (resident_iff _ _ _ HR).
    - intros j. by rewrite (resident_iff _ _ _ HR), (resident_iff _ _ _ HR1).
    - by rewrite (sim_nobj _ _ _ _ _ _ HS _ _ HR), (sim_nobj _ _ _ _ _ _ HS _ _ HR2).
    - by rewrite (sim_nobj _ _ _ _ _ _ HS _ _ HR), (sim_nobj _ _ _ _ _ _ HS _ _ HR3).
  Qed.

  Lemma api_policy : spec_policy O s0 cap md adm P pol.
  Proof.
    intros cs fuel Hc Hf. destruct (api_run cs fuel Hc Hf) as (s & os & a & Hr & Ha & HR & Hok).
    exists s, os, a. split_and!; auto. destruct a as [t m ad]. cbn. intros Hne r.
    destruct (sim_evict _ _ _ _ _ _ HS s t m ad r Hok HR Hne)
      as (s1 & v & s3 & Hte & HR1 & Hv & Hpol & Hev & HR3 & _).
    exists v, s1, s3. split_and!; auto. intros j. rewrite (resident_iff _ _ _ HR3). cbn.
    destruct (decide (j = v)) as [->|Hj].
    - rewrite lookup_delete. split; [by intros []|naive_solver].
    - rewrite lookup_delete_ne by congruence. naive_solver.
  Qed.

  Lemma api_all : spec_api O s0 cap md adm P pol.
  Proof.
    split_and!; [apply api_capacity|apply api_accounting|apply api_hit_iff_resident|apply api_find_pure|
      apply api_remove_exact|apply api_admit_on_miss|apply api_total|apply api_announced_victim|apply api_policy].
  Qed.
End Api.
