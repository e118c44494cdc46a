(** Weak simulation: like Sim.v, but to_evict need not announce the victim of
    the next evict, and only the calls in [Q] need to work. *)
From stdpp Require Import gmap list numbers fin_maps.
From Verif Require Import Base Driver Abs AbsFacts Sim SpecApi SpecComp SpecWeak.
Open Scope Z_scope.

Definition is_get (c : call) : bool := match c with CGet _ => true | _ => false end.

Record wsimulation {S} (pol : policy) (O : ops S) (cap md : Z) (Q : call -> Prop) (R : S -> abs -> Prop) : Prop := {
  ws_req r : Q (CGet r) \/ Q (CInsert r) -> req_ok md r;
  ws_size s a : R s a -> op_size O s = cap;
  ws_md s a : R s a -> op_md O s = md;
  ws_occ s a : R s a -> op_occupied O s = msum md (a_m a);
  ws_nobj s a : R s a -> op_nobj O s = Z.of_nat (size (a_m a));
  (* only needed when calls other than get are allowed *)
  ws_clock s t m a : (exists c, Q c /\ is_get c = false) -> R s (mkAbs t m a) -> R s (mkAbs (t + 1) m a);
  ws_find_false s a r : R s a ->
    op_find O s r false = Ok (s, bool_decide (is_Some (a_m a !! r_id r)));
  (* a get is judged from the ticked state *)
  ws_get_hit s t m a r e : abs_ok cap md (mkAbs t m a) -> R s (mkAbs t m a) ->
    Q (CGet r) -> m !! r_id r = Some e ->
    exists s', op_find O (op_tick O s) r true = Ok (s', true) /\
      R s' (mkAbs (t + 1) (<[r_id r := touch t r e]> m) a);
  ws_find_hit s t m a r e : abs_ok cap md (mkAbs t m a) -> R s (mkAbs t m a) ->
    Q (CFind r true) -> m !! r_id r = Some e ->
    exists s', op_find O s r true = Ok (s', true) /\
      R s' (mkAbs (t + 1) (<[r_id r := touch t r e]> m) a);
  ws_find_miss s a r : R s a -> a_m a !! r_id r = None -> Q (CFind r true) ->
    exists s', op_find O s r true = Ok (s', false) /\ R s' a;
  (* the whole of a miss: look up, admit, evict, insert *)
  ws_get_miss s t m a r fuel : abs_ok cap md (mkAbs t m a) -> R s (mkAbs t m a) ->
    Q (CGet r) -> m !! r_id r = None -> (size m <= fuel)%nat ->
    exists s' s1 m', op_find O (op_tick O s) r true = Ok (s1, false) /\
      cache_get_base O fuel s r = Ok (s', false) /\
      if (admit a r).2 && bool_decide (r_size r + md <= cap) then
        evict_to pol cap md (r_size r + md) m m' /\
        R s' (mkAbs (t + 1) (<[r_id r := fresh t r]> m') (admit a r).1)
      else R s' (mkAbs (t + 1) m (admit a r).1);
  ws_insert s t m a r : abs_ok cap md (mkAbs t m a) -> R s (mkAbs t m a) ->
    m !! r_id r = None -> Q (CInsert r) -> msum md m + (r_size r + md) <= cap ->
    exists s', op_insert O s r = Ok s' /\
      R s' (mkAbs (t + 1) (<[r_id r := fresh t r]> m) a);
  ws_evict s t m a r : abs_ok cap md (mkAbs t m a) -> R s (mkAbs t m a) -> m <> ∅ ->
    Q (CEvict r) ->
    exists v s2, is_Some (m !! v) /\ pol m v /\
      op_evict O s r = Ok s2 /\ R s2 (mkAbs t (delete v m) a);
  ws_to_evict s t m a r : abs_ok cap md (mkAbs t m a) -> R s (mkAbs t m a) -> m <> ∅ ->
    Q (CToEvict r) ->
    exists v s2, is_Some (m !! v) /\ pol m v /\
      op_to_evict O s r = Ok (s2, Some v) /\ R s2 (mkAbs t m a);
  ws_remove s t m a id : abs_ok cap md (mkAbs t m a) -> R s (mkAbs t m a) -> Q (CRemove id) ->
    exists s', op_remove O s id = Ok (s', bool_decide (is_Some (m !! id))) /\
      R s' (mkAbs t (delete id m) a)
}.

(** A relation [R1] that holds between the tick and the end of a get, in which
    evictions and the insertion keep going, gives [ws_get_miss]. *)
Section Miss.
  Context {S : Type} (pol : policy) (O : ops S) (cap md : Z) (R R1 : S -> abs -> Prop).
  Context (P : req -> Prop) (HP : forall r, P r -> req_ok md r).
  Context (H_size : forall s a, R1 s a -> op_size O s = cap).
  Context (H_md : forall s a, R1 s a -> op_md O s = md).
  Context (H_occ : forall s a, R1 s a -> op_occupied O s = msum md (a_m a)).
  Context (H_tick : forall s a, R s a -> R1 (op_tick O s) a).
  Context (H_done : forall s t m a, R1 s (mkAbs t m a) -> R s (mkAbs (t + 1) m a)).
  Context (H_miss : forall s a r, R1 s a -> P r -> a_m a !! r_id r = None ->
    exists s', op_find O s r true = Ok (s', false) /\ R1 s' a).
  Context (H_can : forall s t m a r, R1 s (mkAbs t m a) -> P r ->
    exists s', op_can_insert O s r =
                 Ok (s', (admit a r).2 && bool_decide (r_size r + md <= cap)) /\
      R1 s' (mkAbs t m (admit a r).1)).
  Context (H_insert : forall s t m a r, abs_ok cap md (mkAbs t m a) -> R1 s (mkAbs t m a) ->
    m !! r_id r = None -> P r -> msum md m + (r_size r + md) <= cap ->
    exists s', op_insert O s r = Ok s' /\
      R s' (mkAbs (t + 1) (<[r_id r := fresh t r]> m) a)).
  Context (H_evict : forall s t m a r, abs_ok cap md (mkAbs t m a) -> R1 s (mkAbs t m a) ->
    m <> ∅ -> P r ->
    exists v s2, is_Some (m !! v) /\ pol m v /\
      op_evict O s r = Ok s2 /\ R1 s2 (mkAbs t (delete v m) a)).

  Lemma miss_evict_loop fuel s t m a r :
    abs_ok cap md (mkAbs t m a) -> R1 s (mkAbs t m a) -> P r -> r_size r + md <= cap ->
    (size m <= fuel)%nat ->
    exists s' m', evict_loop O fuel s r = Ok s' /\
      evict_to pol cap md (r_size r + md) m m' /\ R1 s' (mkAbs t m' a).
  Proof using H_size H_md H_occ H_evict.
    revert s m. induction fuel as [|fuel IH]; intros s m Hok HR Hp Hfit Hf; cbn;
      rewrite (H_size _ _ HR), (H_md _ _ HR), (H_occ _ _ HR); cbn.
    - assert (m = ∅) as -> by (apply map_size_empty_inv; lia).
      rewrite msum_empty. rewrite decide_False by lia.
      exists s, ∅. split_and!; auto. constructor. rewrite msum_empty. lia.
    - destruct (decide _) as [Hgt|Hle].
      + assert (m <> ∅) as Hne.
        { intros ->. rewrite msum_empty in Hgt. lia. }
        destruct (H_evict s t m a r Hok HR Hne Hp) as (v & s2 & Hv & Hpol & Hev & HR2).
        rewrite Hev. cbn.
        destruct (IH s2 (delete v m)) as (s' & m' & Hl & Het & HR').
        * by apply abs_ok_delete.
        * done.
        * done.
        * done.
        * rewrite map_size_delete_Some by done. lia.
        * exists s', m'. split_and!; auto. eapply ev_more; eauto. lia.
      + exists s, m. split_and!; auto. constructor. lia.
  Qed.

  Lemma get_miss_of s t m a r fuel : abs_ok cap md (mkAbs t m a) -> R s (mkAbs t m a) ->
    P r -> m !! r_id r = None -> (size m <= fuel)%nat ->
    exists s' s1 m', op_find O (op_tick O s) r true = Ok (s1, false) /\
      cache_get_base O fuel s r = Ok (s', false) /\
      if (admit a r).2 && bool_decide (r_size r + md <= cap) then
        evict_to pol cap md (r_size r + md) m m' /\
        R s' (mkAbs (t + 1) (<[r_id r := fresh t r]> m') (admit a r).1)
      else R s' (mkAbs (t + 1) m (admit a r).1).
  Proof using All.
    intros Hok HR Hp Hn Hf. unfold cache_get_base.
    pose proof (H_tick _ _ HR) as HR0.
    destruct (H_miss _ _ r HR0 Hp Hn) as (s1 & Hfi & HR1). rewrite Hfi. cbn.
    destruct (H_can _ _ _ _ r HR1 Hp) as (s2 & -> & HR2). cbn.
    destruct (admit a r) as [ad' ok] eqn:Ead. cbn [fst snd] in *.
    destruct ok; cbn [andb].
    - destruct (decide (r_size r + md <= cap)) as [Hle|Hgt].
      + rewrite bool_decide_true by done.
        assert (Hok2 : abs_ok cap md (mkAbs t m ad')) by (by eapply abs_ok_adm).
        destruct (miss_evict_loop fuel s2 t m ad' r Hok2 HR2 Hp Hle Hf) as (s3 & m' & -> & Het & HR3). cbn.
        destruct (evict_to_ok _ _ _ _ _ _ _ ad' Het Hok2) as (Hok3 & Hfit & Hsub & _).
        destruct (H_insert s3 t m' ad' r Hok3 HR3) as (s4 & -> & HR4); auto.
        { destruct (m' !! r_id r) eqn:E'; [|done].
          rewrite (lookup_weaken _ _ _ _ E' Hsub) in Hn. done. }
        cbn. exists s4, s1, m'. split_and!; done.
      + rewrite bool_decide_false by done. cbn. exists s2, s1, m. split_and!; [done|done|]. by apply H_done.
    - exists s2, s1, m. split_and!; [done|done|]. by apply H_done.
  Qed.
End Miss.

Section WSim.
  Context {S : Type} (pol : policy) (O : ops S) (cap md : Z) (Q : call -> Prop) (R : S -> abs -> Prop).
  Context (HS : wsimulation pol O cap md Q R).

  Lemma ws_call_ok c : Q c -> call_ok (req_ok md) c.
  Proof. intros H. destruct c; cbn; auto; apply (ws_req _ _ _ _ _ _ HS); eauto. Qed.

  Lemma ws_step fuel s a c :
    abs_ok cap md a -> R s a -> Q c -> (size (a_m a) <= fuel)%nat ->
    exists s' o a', step O fuel s c = Ok (s', o) /\
      abs_step pol cap md a c o a' /\ R s' a'.
  Proof.
    intros Hok HR Hc Hf. destruct a as [t m ad]. cbn in Hf.
    assert (Hck : is_get c = false -> forall s m, R s (mkAbs t m ad) -> R s (mkAbs (t + 1) m ad)).
    { intros Hg s1 m1. apply (ws_clock _ _ _ _ _ _ HS). by exists c. }
    destruct c; cbn in *.
    - (* get *)
      destruct (m !! r_id r) as [e|] eqn:E.
      + unfold cache_get_base.
        destruct (ws_get_hit _ _ _ _ _ _ HS _ _ _ _ r e Hok HR Hc E) as (s' & -> & HR').
        cbn. eexists _, _, _. split_and!; [done| |exact HR']. by constructor.
      + destruct (ws_get_miss _ _ _ _ _ _ HS s t m ad r fuel Hok HR Hc E Hf) as (s' & s1 & m' & _ & -> & H).
        destruct (admit ad r) as [ad' ok] eqn:Ead. cbn in *. destruct ok; cbn in H.
        * destruct (decide (r_size r + md <= cap)) as [Hle|Hgt].
          -- rewrite bool_decide_true in H by done. destruct H as (Het & HR').
             eexists _, _, _. split_and!; [done| |exact HR']. eapply AGetMiss; eauto.
          -- rewrite bool_decide_false in H by done.
             eexists _, _, _. split_and!; [done| |exact H]. eapply AGetTooBig; eauto; lia.
        * eexists _, _, _. split_and!; [done| |exact H]. eapply AGetRefused; eauto.
    - (* find *)
      destruct upd.
      + destruct (m !! r_id r) as [e|] eqn:E.
        * destruct (ws_find_hit _ _ _ _ _ _ HS _ _ _ _ r e Hok HR Hc E) as (s' & -> & HR').
          cbn. eexists _, _, _. split_and!; [done| |exact HR']. by constructor.
        * destruct (ws_find_miss _ _ _ _ _ _ HS _ _ r HR E Hc) as (s1 & -> & HR1). cbn.
          eexists _, _, _. split_and!; [done|by constructor|]. (by apply Hck).
      + rewrite (ws_find_false _ _ _ _ _ _ HS _ _ r HR). cbn.
        eexists _, _, _. split_and!; [done|by constructor|]. (by apply Hck).
    - (* insert *)
      rewrite (ws_find_false _ _ _ _ _ _ HS _ _ r HR). cbn.
      destruct (m !! r_id r) as [e|] eqn:E; cbn.
      + eexists _, _, _. split_and!; [done|apply AInsertSkip; rewrite E; eauto|(by apply Hck)].
      + rewrite (ws_size _ _ _ _ _ _ HS _ _ HR), (ws_md _ _ _ _ _ _ HS _ _ HR),
          (ws_occ _ _ _ _ _ _ HS _ _ HR); cbn.
        destruct (decide _) as [Hgt|Hle].
        * eexists _, _, _. split_and!; [done|apply AInsertSkip; right; lia|(by apply Hck)].
        * destruct (ws_insert _ _ _ _ _ _ HS s t m ad r Hok HR) as (s4 & -> & HR4); auto; [lia|].
          cbn. eexists _, _, _. split_and!; [done| |exact HR4]. constructor; auto; lia.
    - (* remove *)
      destruct (ws_remove _ _ _ _ _ _ HS _ _ _ _ id Hok HR Hc) as (s' & -> & HR'). cbn.
      eexists _, _, _. split_and!; [done|by constructor|]. (by apply Hck).
    - (* evict *)
      rewrite (ws_nobj _ _ _ _ _ _ HS _ _ HR); cbn.
      destruct (decide _) as [Hz|Hnz].
      + assert (m = ∅) as -> by (by apply size_zero_empty).
        eexists _, _, _. split_and!; [done|apply AEvictEmpty|(by apply Hck)].
      + assert (m <> ∅) as Hne by (intros ->; rewrite map_size_empty in Hnz; lia).
        destruct (ws_evict _ _ _ _ _ _ HS s t m ad r Hok HR Hne Hc) as (v & s2 & Hv & Hpol & Hev & HR2).
        rewrite Hev. cbn.
        eexists _, _, _. split_and!; [done|by constructor|(by apply Hck)].
    - (* to_evict *)
      rewrite (ws_nobj _ _ _ _ _ _ HS _ _ HR); cbn.
      destruct (decide _) as [Hz|Hnz].
      + assert (m = ∅) as -> by (by apply size_zero_empty).
        eexists _, _, _. split_and!; [done|apply AToEvictEmpty|(by apply Hck)].
      + assert (m <> ∅) as Hne by (intros ->; rewrite map_size_empty in Hnz; lia).
        destruct (ws_to_evict _ _ _ _ _ _ HS s t m ad r Hok HR Hne Hc) as (v & s2 & Hv & Hpol & Hte & HR1).
        rewrite Hte. cbn.
        eexists _, _, _. split_and!; [done|by constructor|(by apply Hck)].
  Qed.

  Lemma ws_run fuel cs : forall s a,
    abs_ok cap md a -> R s a -> Forall Q cs ->
    (size (a_m a) + length cs <= fuel)%nat ->
    exists s' os a', run O fuel s cs = Ok (s', os) /\
      abs_run pol cap md a cs os a' /\ R s' a' /\ abs_ok cap md a'.
  Proof.
    induction cs as [|c cs IH]; intros s a Hok HR Hc Hf; cbn.
    - eexists _, _, _. split_and!; [done|constructor|done|done].
    - inversion Hc; subst. cbn in Hf.
      destruct (ws_step fuel s a c) as (s1 & o & a1 & -> & Hs & HR1); auto; [lia|].
      cbn. pose proof (abs_step_size _ _ _ _ _ _ _ Hs).
      destruct (IH s1 a1) as (s2 & os & a2 & -> & Hr & HR2 & Hok2); auto; [|lia|].
      + eapply abs_step_ok; eauto. by apply ws_call_ok.
      + cbn. eexists _, _, _. split_and!; [done| |done|done]. econstructor; eauto.
  Qed.

  Context (adm : admissioner) (s0 : S) (H0 : R s0 (abs_init adm)) (Hcap : 0 <= cap) (Hmd : 0 <= md).

  Lemma wapi_run cs fuel : Forall Q cs -> (length cs <= fuel)%nat ->
    exists s os a, run O fuel s0 cs = Ok (s, os) /\
      abs_run pol cap md (abs_init adm) cs os a /\ R s a /\ abs_ok cap md a.
  Proof. intros. eapply ws_run; eauto. by apply abs_init_ok. Qed.

  Lemma wreaches_rel s : comp_reaches O s0 Q s -> exists a, R s a /\ abs_ok cap md a.
  Proof.
    intros (cs & fuel & os & Hc & Hf & Hr).
    destruct (wapi_run cs fuel Hc Hf) as (s' & os' & a & Hr' & _ & HR & Hok).
    rewrite Hr in Hr'. injection Hr' as <- <-. eauto.
  Qed.

  Lemma wreaches_rel_adm s : comp_reaches O s0 Q s -> adm = AdmNone ->
    exists t m, R s (mkAbs t m AdmNone) /\ abs_ok cap md (mkAbs t m AdmNone).
  Proof.
    intros (cs & fuel & os & Hc & Hf & Hr) Ha.
    destruct (wapi_run cs fuel Hc Hf) as (s' & os' & a & Hr' & Har & HR & Hok).
    rewrite Hr in Hr'. injection Hr' as <- <-.
    assert (Hadm : a_adm a = AdmNone).
    { assert (Ha0 : a_adm (abs_init adm) = AdmNone) by done. clear -Har Ha0.
      induction Har as [|a1 c o a1' cs os a'' Hs Hr IH]; [done|]. apply IH.
      clear -Hs Ha0. destruct Hs; cbn in *; subst; try done; cbn in *; congruence. }
    destruct a as [t m ad]. cbn in Hadm. subst ad. eauto.
  Qed.

  Lemma wresident_iff s a id : R s a -> resident O s id <-> is_Some (a_m a !! id).
  Proof.
    intros HR. split.
    - intros H. destruct (H (mkReq id 0 0 0 0) eq_refl) as (s' & Hf).
      rewrite (ws_find_false _ _ _ _ _ _ HS _ _ _ HR) in Hf. cbn in Hf.
      injection Hf as _ Hb. by apply bool_decide_eq_true in Hb.
    - intros H r <-. rewrite (ws_find_false _ _ _ _ _ _ HS _ _ _ HR).
      eexists. by rewrite bool_decide_true.
  Qed.

  Lemma wabsent_iff s a id : R s a -> absent O s id <-> a_m a !! id = None.
  Proof.
    intros HR. split.
    - intros H. destruct (H (mkReq id 0 0 0 0) eq_refl) as (s' & Hf).
      rewrite (ws_find_false _ _ _ _ _ _ HS _ _ _ HR) in Hf. cbn in Hf.
      injection Hf as _ Hb. apply bool_decide_eq_false in Hb. by apply eq_None_not_Some.
    - intros H r <-. rewrite (ws_find_false _ _ _ _ _ _ HS _ _ _ HR).
      eexists. rewrite bool_decide_false; [done|]. rewrite H. by intros [].
  Qed.

  Lemma wapi_capacity : weak_capacity O s0 cap Q.
  Proof.
    intros s Hs. destruct (wreaches_rel s Hs) as (a & HR & Hok).
    rewrite (ws_occ _ _ _ _ _ _ HS _ _ HR). apply Hok.
  Qed.

  Lemma wapi_accounting : weak_accounting O s0 cap md adm Q pol.
  Proof.
    intros cs fuel Hc Hf. destruct (wapi_run cs fuel Hc Hf) as (s & os & a & Hr & Ha & HR & Hok).
    exists s, os, a. split_and!; auto.
    - by apply (ws_occ _ _ _ _ _ _ HS).
    - by apply (ws_nobj _ _ _ _ _ _ HS).
    - intros id. by apply wresident_iff.
    - intros id. by apply wabsent_iff.
  Qed.

  Lemma wapi_hit_iff_resident : weak_hit_iff_resident O s0 Q.
  Proof.
    intros s Hs id. destruct (wreaches_rel s Hs) as (a & HR & Hok). destruct a as [t m ad].
    split.
    - destruct (m !! id) eqn:E.
      + left. apply (wresident_iff _ _ _ HR). cbn. eauto.
      + right. by apply (wabsent_iff _ _ _ HR).
    - intros r fuel <- Hr Hf. rewrite (ws_nobj _ _ _ _ _ _ HS _ _ HR) in Hf. cbn in Hf.
      destruct (ws_step fuel s _ (CGet r) Hok HR) as (s1 & o & a1 & Hst & Has & _).
      { done. } { cbn. lia. }
      cbn in Hst. destruct (cache_get_base O fuel s r) as [[s1' h]|] eqn:Eg; [|done].
      cbn in Hst. injection Hst as <- <-. exists s1', h. split; [done|].
      rewrite (wresident_iff _ _ _ HR), (wabsent_iff _ _ _ HR). cbn.
      destruct (m !! r_id r) as [e|] eqn:E.
      + assert (h = true) as -> by (inversion Has; subst; congruence). split; split; eauto; done.
      + assert (h = false) as -> by (inversion Has; subst; congruence).
        split; split; [done|by intros []|done|done].
  Qed.

  Lemma wapi_find_pure : weak_find_pure O s0 Q.
  Proof.
    intros s Hs r. destruct (wreaches_rel s Hs) as (a & HR & Hok).
    rewrite (ws_find_false _ _ _ _ _ _ HS _ _ _ HR). eauto.
  Qed.

  Lemma wapi_remove_exact : weak_remove_exact O s0 Q.
  Proof.
    intros s Hs id HQ. destruct (wreaches_rel s Hs) as (a & HR & Hok). destruct a as [t m ad].
    destruct (ws_remove _ _ _ _ _ _ HS _ _ _ _ id Hok HR HQ) as (s' & Hr & HR').
    eexists _, _. split; [exact Hr|]. split_and!.
    - rewrite bool_decide_eq_true. symmetry. by apply (wresident_iff s _ id HR).
    - eapply wabsent_iff; eauto. cbn. by rewrite lookup_delete.
    - intros j Hj. rewrite (wresident_iff _ _ _ HR), (wresident_iff _ _ _ HR'). cbn.
      by rewrite lookup_delete_ne by congruence.
    - rewrite (ws_nobj _ _ _ _ _ _ HS _ _ HR), (ws_nobj _ _ _ _ _ _ HS _ _ HR'). cbn.
      destruct (m !! id) as [e|] eqn:E.
      + rewrite bool_decide_true by eauto. rewrite map_size_delete_Some by eauto.
        assert (size m <> 0%nat) by (intros Hz%map_size_empty_inv; subst m; rewrite lookup_empty in E; done).
        lia.
      + rewrite bool_decide_false by (by intros []). rewrite delete_notin by done. lia.
    - intros Hb. apply bool_decide_eq_false, eq_None_not_Some in Hb.
      rewrite (ws_occ _ _ _ _ _ _ HS _ _ HR), (ws_occ _ _ _ _ _ _ HS _ _ HR'). cbn.
      by rewrite delete_notin by done.
  Qed.

  Lemma wapi_admit_on_miss : weak_admit_on_miss O s0 cap md adm Q.
  Proof.
    intros Hadm s Hs r fuel Hr Hf Hab. destruct (wreaches_rel_adm s Hs Hadm) as (t & m & HR & Hok).
    rewrite (ws_nobj _ _ _ _ _ _ HS _ _ HR) in Hf. cbn in Hf.
    eapply wabsent_iff in Hab; [|exact HR]. cbn in Hab.
    destruct (ws_step fuel s _ (CGet r) Hok HR) as (s1 & o & a1 & Hst & Has & HR1).
    { done. } { cbn. lia. }
    cbn in Hst. destruct (cache_get_base O fuel s r) as [[s1' h]|] eqn:Eg; [|done].
    cbn in Hst. injection Hst as <- <-. exists s1'.
    inversion Has; subst; try congruence.
    - cbn in *. congruence.
    - split; [done|]. split; [intros; lia|]. intros _.
      rewrite (ws_occ _ _ _ _ _ _ HS _ _ HR), (ws_occ _ _ _ _ _ _ HS _ _ HR1).
      rewrite (ws_nobj _ _ _ _ _ _ HS _ _ HR), (ws_nobj _ _ _ _ _ _ HS _ _ HR1).
      split; [|done]. intros j. by rewrite (wresident_iff _ _ _ HR), (wresident_iff _ _ _ HR1).
    - split; [done|]. split; [intros _|intros; lia].
      destruct (evict_to_ok _ _ _ _ _ _ _ AdmNone H9 Hok) as (_ & Hfit & Hsub & _).
      assert (Hn : m' !! r_id r = None).
      { destruct (m' !! r_id r) eqn:E'; [|done].
        rewrite (lookup_weaken _ _ _ _ E' Hsub) in Hab. done. }
      split; [|split].
      + apply (wresident_iff _ _ _ HR1). cbn. rewrite lookup_insert. eauto.
      + intros j Hj. apply (wresident_iff _ _ _ HR1) in Hj. cbn in Hj.
        destruct (decide (j = r_id r)) as [->|Hne]; [by left|right].
        rewrite lookup_insert_ne in Hj by congruence. apply (wresident_iff _ _ _ HR). cbn.
        destruct Hj as [e He]. exists e. by eapply lookup_weaken.
      + intros Hroom. rewrite (ws_occ _ _ _ _ _ _ HS _ _ HR) in Hroom. cbn in Hroom.
        assert (m' = m) as ->.
        { destruct H9; [done|lia]. }
        rewrite (ws_occ _ _ _ _ _ _ HS _ _ HR), (ws_occ _ _ _ _ _ _ HS _ _ HR1).
        rewrite (ws_nobj _ _ _ _ _ _ HS _ _ HR), (ws_nobj _ _ _ _ _ _ HS _ _ HR1). cbn.
        split_and!.
        * intros j Hj. apply (wresident_iff _ _ _ HR) in Hj. apply (wresident_iff _ _ _ HR1). cbn in *.
          destruct (decide (j = r_id r)) as [->|Hne]; [rewrite lookup_insert; eauto|].
          by rewrite lookup_insert_ne by congruence.
        * rewrite msum_insert by done. cbn. lia.
        * rewrite map_size_insert_None by done. lia.
  Qed.

  Lemma wapi_policy : weak_policy O s0 cap md adm Q pol.
  Proof.
    intros cs fuel Hc Hf. destruct (wapi_run cs fuel Hc Hf) as (s & os & a & Hr & Ha & HR & Hok).
    exists s, os, a. split_and!; auto. destruct a as [t m ad]. cbn. intros Hne r HQ.
    destruct (ws_evict _ _ _ _ _ _ HS s t m ad r Hok HR Hne HQ) as (v & s3 & Hv & Hpol & Hev & HR3).
    exists v, s3. split_and!; auto. intros j. rewrite (wresident_iff _ _ _ HR3). cbn.
    destruct (decide (j = v)) as [->|Hj].
    - rewrite lookup_delete. split; [by intros []|naive_solver].
    - rewrite lookup_delete_ne by congruence. naive_solver.
  Qed.

  Lemma wapi_all : weak_api O s0 cap md adm Q pol.
  Proof.
    split_and!; [apply wapi_capacity|apply wapi_accounting|apply wapi_hit_iff_resident|apply wapi_find_pure|
      apply wapi_remove_exact|apply wapi_admit_on_miss|apply wapi_policy].
  Qed.
End WSim.
