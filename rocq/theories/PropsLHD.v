(** C73: LHD. *)
From stdpp Require Import gmap list numbers fin_maps.
From Verif Require Import Base Driver Abs AbsFacts Sim SpecApi SpecComp SpecWeak WSim PropsCore ModelLHD LHDFacts.
Open Scope Z_scope.

(** ** Specification.  A cache in which a hit gives the object the size of the
    request, as a map from the ids it holds to their sizes. *)
Section Spec.
  Context (cap md : Z).

  (** The sizes are not 0 and the uint32_t arithmetic does not wrap. *)
  Definition sized (r : req) : Prop := 1 <= r_size r /\ r_size r + md < 2 ^ 32.

  (** The programs: [rm] says whether they call remove or to_evict. *)
  Definition sized_calls (rm : bool) (c : call) : Prop :=
    match c with
    | CGet r | CInsert r | CFind r true => sized r
    | CFind _ false | CEvict _ => True
    | CRemove _ => rm = true
    | CToEvict _ => rm = false
    end.
  (** The same, and every object keeps its size. *)
  Definition same_size (sz : Z -> Z) (rm : bool) (c : call) : Prop :=
    sized_calls rm c /\ match c with CGet r | CInsert r | CFind r true => r_size r = sz (r_id r) | _ => True end.

  Inductive sized_step : gmap Z Z -> admissioner -> call -> obs -> gmap Z Z -> admissioner -> Prop :=
  | ZHit m a r z : m !! r_id r = Some z ->
      sized_step m a (CGet r) (OBool true) (<[r_id r := r_size r]> m) a
  | ZRefused m a r : m !! r_id r = None -> (admit a r).2 = false \/ r_size r + md > cap ->
      sized_step m a (CGet r) (OBool false) m (admit a r).1
  (* the objects in [m1] stay; the last victim had to go *)
  | ZMiss m m1 a r : m !! r_id r = None -> (admit a r).2 = true -> m1 ⊆ m ->
      zsum md m1 + (r_size r + md) <= cap ->
      m1 = m \/ (exists v z, m !! v = Some z /\ m1 !! v = None /\ zsum md m1 + (z + md) + (r_size r + md) > cap) ->
      sized_step m a (CGet r) (OBool false) (<[r_id r := r_size r]> m1) (admit a r).1
  | ZFind m a r : sized_step m a (CFind r false) (OBool (bool_decide (is_Some (m !! r_id r)))) m a
  | ZFindHit m a r z : m !! r_id r = Some z ->
      sized_step m a (CFind r true) (OBool true) (<[r_id r := r_size r]> m) a
  | ZFindMiss m a r : m !! r_id r = None -> sized_step m a (CFind r true) (OBool false) m a
  | ZInsert m a r : m !! r_id r = None -> zsum md m + (r_size r + md) <= cap ->
      sized_step m a (CInsert r) OUnit (<[r_id r := r_size r]> m) a
  | ZInsertSkip m a r : is_Some (m !! r_id r) \/ zsum md m + (r_size r + md) > cap ->
      sized_step m a (CInsert r) OUnit m a
  | ZRemove m a id : sized_step m a (CRemove id) (OBool (bool_decide (is_Some (m !! id)))) (delete id m) a
  | ZEvict m a r v : is_Some (m !! v) -> sized_step m a (CEvict r) OUnit (delete v m) a
  | ZEvictEmpty a r : sized_step ∅ a (CEvict r) OUnit ∅ a
  | ZToEvict m a r v : is_Some (m !! v) -> sized_step m a (CToEvict r) (OVictim (Some v)) m a
  | ZToEvictEmpty a r : sized_step ∅ a (CToEvict r) (OVictim None) ∅ a.

  Inductive sized_run : gmap Z Z -> admissioner -> list call -> list obs -> gmap Z Z -> admissioner -> Prop :=
  | ZNil m a : sized_run m a [] [] m a
  | ZCons m a c o m1 a1 cs os m2 a2 : sized_step m a c o m1 a1 -> sized_run m1 a1 cs os m2 a2 ->
      sized_run m a (c :: cs) (o :: os) m2 a2.
End Spec.

Lemma map_subseteq_size (m1 m2 : gmap Z Z) : m1 ⊆ m2 -> (size m1 <= size m2)%nat.
Proof. intros H. rewrite <- !size_dom. by apply subseteq_size, subseteq_dom. Qed.

Section LHD.
  Context {W F : Type}.
  Context (flt : F -> F -> bool) (fmax flow : F) (coarse : W -> Z) (density : W -> Z -> Z -> Z -> bool -> F)
          (below : F -> W -> bool) (saw_victim : F -> W -> W) (saw_hit saw_evict : Z -> Z -> W -> W)
          (relearn : Z -> Z -> W -> W) (rand : W -> Z * W).
  Context (Hflow : flt flow fmax = true).
  Context (Hden : forall w c a z e, 1 <= z -> flt (density w c a z e) fmax = true).
  Context (cap : Z) (Hcap : 0 <= cap) (b : bool) (adm : admissioner) (bud : Z) (w0 : W).

  Notation OO := (lhd_ops flt fmax flow coarse density below saw_victim saw_hit saw_evict relearn rand).
  Notation md := (if b then 25 else 0).
  Notation s0 := (lhd_init b cap adm bud w0).
  Notation hok := (hok cap md).

  Lemma md_nn : 0 <= md.
  Proof using. destruct b; lia. Qed.

  Lemma init_hok : hok s0.
  Proof using.
    split; cbn; try done; try lia.
    - split_and!; cbn; try done. intros id i. rewrite lookup_empty. split; [done|]. by intros (t & ? & _).
  Qed.

  Definition mode (rm : bool) (s : @lhd W) : Prop := cand_ok s /\ (rm = true -> h_gen s = -1).

  Lemma init_mode rm : mode rm s0.
  Proof using. split; [|done]. unfold cand_ok. cbn. lia. Qed.

  (** ** Every operation, from a state that satisfies the invariant *)
  Lemma evict_loop_ok rm fuel : forall s r, hok s -> mode rm s -> sized md r -> r_size r + md <= cap ->
    (size (h_sz s) <= fuel)%nat ->
    exists s', evict_loop OO fuel s r = Ok s' /\ hok s' /\ mode rm s' /\ c_adm (h_c s') = c_adm (h_c s) /\
      c_nreq (h_c s') = c_nreq (h_c s) /\ h_sz s' ⊆ h_sz s /\ zsum md (h_sz s') + (r_size r + md) <= cap /\
      (h_sz s' = h_sz s \/
       exists v z, h_sz s !! v = Some z /\ h_sz s' !! v = None /\ zsum md (h_sz s') + (z + md) + (r_size r + md) > cap).
  Proof using Hflow Hden.
    induction fuel as [|fuel IH]; intros s r H HM Hr Hfit Hf; cbn [evict_loop];
      change (op_occupied OO s) with (c_occ (h_c s)); change (op_md OO s) with (c_md (h_c s));
      change (op_size OO s) with (c_size (h_c s)); rewrite (k_occ _ _ s H), (k_size _ _ s H), (k_md _ _ s H).
    - assert (E : h_sz s = ∅) by (apply map_size_empty_inv; lia). rewrite E, zsum_empty.
      rewrite decide_False by lia. exists s. rewrite E, zsum_empty. split_and!; try done; by left.
    - destruct (decide _) as [Hgt|Hle].
      2:{ exists s. split_and!; try done; [lia|by left]. }
      assert (Hne : h_sz s <> ∅) by (intros E; rewrite E, zsum_empty in Hgt; lia).
      destruct HM as [HC HG].
      destruct (evict_ok flt fmax flow coarse density below saw_victim saw_hit saw_evict relearn rand Hflow Hden cap md md_nn s r H HC Hne)
        as (v & s1 & -> & [z Hz] & H1 & C1 & E1 & N1 & A1 & _ & G1 & _). cbn [rbind].
      destruct (IH s1 r H1) as (s' & -> & H' & M' & A' & N' & S' & Z' & L'); [|done|done| |].
      + split; [done|]. intros Erm. specialize (HG Erm). destruct G1; lia.
      + rewrite E1, map_size_delete_Some by eauto. lia.
      + exists s'. split; [done|]. split_and!; try done; try congruence.
        * rewrite E1 in S'. etrans; [done|]. apply delete_subseteq.
        * right. rewrite E1 in L'. destruct L' as [->|(v' & z' & Hv1 & Hv2 & Hv3)].
          -- exists v, z. split_and!; [done|by rewrite lookup_delete|]. rewrite (zsum_delete md _ v z Hz) in Hgt. lia.
          -- exists v', z'. split_and!; [|done|done]. by apply lookup_delete_Some in Hv1 as [_ ?].
  Qed.

  Lemma step_ok rm fuel s c : hok s -> mode rm s -> sized_calls md rm c -> (size (h_sz s) <= fuel)%nat ->
    exists s' o, step OO fuel s c = Ok (s', o) /\ hok s' /\ mode rm s' /\
      sized_step cap md (h_sz s) (c_adm (h_c s)) c o (h_sz s') (c_adm (h_c s')) /\ (size (h_sz s') <= S (size (h_sz s)))%nat.
  Proof using Hflow Hden.
    intros H HM HQ Hf. pose proof md_nn as Hmd. destruct c as [r|r u|r|id|r|r]; cbn [step]; cbn in HQ.
    - unfold cache_get_base.
      destruct (tick_hok flt fmax flow coarse density below saw_victim saw_hit saw_evict relearn rand cap md s H) as [H0 C0].
      set (t := op_tick OO s) in *. assert (Et : h_sz t = h_sz s) by done. assert (At : c_adm (h_c t) = c_adm (h_c s)) by done.
      assert (Gt : h_gen t = h_gen s) by done. clearbody t. rewrite <- Et, <- At.
      destruct HM as [_ HG]. rewrite <- Gt in HG.
      destruct (h_sz t !! r_id r) as [z|] eqn:Hz.
      + destruct (find_hit flt fmax flow coarse density below saw_victim saw_hit saw_evict relearn rand Hflow Hden cap md Hmd t r z H0 C0 HQ Hz)
          as (s' & -> & H' & C' & E' & N' & A' & G' & D'). cbn [rbind].
        eexists _, _. split; [done|]. split; [done|]. split; [split; [done|]; by rewrite G'|].
        rewrite E', A'. split; [by eapply ZHit|]. rewrite map_size_insert_Some by eauto. lia.
      + rewrite find_miss by done. cbn [rbind].
        destruct (can_ok flt fmax flow coarse density below saw_victim saw_hit saw_evict relearn rand cap md t r H0)
          as (s1 & -> & C1 & H1 & E1 & N1 & A1 & G1 & D1). cbn [rbind].
        destruct (admit (c_adm (h_c t)) r) as [ad ok] eqn:Ead. cbn [fst snd] in *.
        assert (M1 : mode rm s1) by (split; [by apply C1|by rewrite G1]).
        destruct ok; cbn [andb].
        2:{ eexists _, _. split; [done|]. split; [done|]. split; [done|]. rewrite E1, A1. split; [|lia].
            replace ad with (admit (c_adm (h_c t)) r).1 by (by rewrite Ead). apply ZRefused; [done|]. rewrite Ead. by left. }
        case_bool_decide as Hfit.
        2:{ eexists _, _. split; [done|]. split; [done|]. split; [done|]. rewrite E1, A1. split; [|lia].
            replace ad with (admit (c_adm (h_c t)) r).1 by (by rewrite Ead). apply ZRefused; [done|]. right. lia. }
        destruct (evict_loop_ok rm fuel s1 r H1 M1 HQ Hfit) as (s2 & -> & H2 & [C2 G2] & A2 & N2 & S2 & Z2 & L2).
        { rewrite E1, Et. done. }
        cbn [rbind]. rewrite E1 in S2, L2.
        assert (Hn2 : h_sz s2 !! r_id r = None).
        { destruct (h_sz s2 !! r_id r) eqn:E2; [|done]. apply (lookup_weaken _ _ _ _ E2) in S2. congruence. }
        destruct (insert_ok flt fmax flow coarse density below saw_victim saw_hit saw_evict relearn rand Hflow Hden cap md Hmd s2 r H2 C2 HQ Hn2)
          as (s' & -> & H' & C' & E' & N' & A' & G' & D'). cbn [rbind].
        eexists _, _. split; [done|]. split; [done|]. split; [split; [done|]; by rewrite G'|].
        rewrite E', A', A2, A1. split.
        * replace ad with (admit (c_adm (h_c t)) r).1 by (by rewrite Ead).
          apply ZMiss; try done. by rewrite Ead.
        * rewrite map_size_insert_None by done. apply map_subseteq_size in S2. lia.
    - destruct u.
      + destruct (h_sz s !! r_id r) as [z|] eqn:Hz.
        * destruct (find_hit flt fmax flow coarse density below saw_victim saw_hit saw_evict relearn rand Hflow Hden cap md Hmd s r z H (proj1 HM) HQ Hz)
            as (s' & -> & H' & C' & E' & N' & A' & G' & D'). cbn [rbind].
          eexists _, _. split; [done|]. split; [done|]. split; [split; [done|]; rewrite G'; apply HM|].
          rewrite E', A'. split; [by eapply ZFindHit|]. rewrite map_size_insert_Some by eauto. lia.
        * rewrite find_miss by done. cbn [rbind]. eexists _, _. split; [done|]. split; [done|]. split; [done|].
          split; [by apply ZFindMiss|lia].
      + rewrite find_false. cbn [rbind]. eexists _, _. split; [done|]. split; [done|]. split; [done|].
        split; [by apply ZFind|lia].
    - rewrite find_false. cbn [rbind]. case_bool_decide as Hin.
      { eexists _, _. split; [done|]. split; [done|]. split; [done|]. split; [apply ZInsertSkip; by left|lia]. }
      change (op_occupied OO s) with (c_occ (h_c s)); change (op_md OO s) with (c_md (h_c s));
      change (op_size OO s) with (c_size (h_c s)); rewrite (k_occ _ _ s H), (k_size _ _ s H), (k_md _ _ s H).
      destruct (decide _).
      { eexists _, _. split; [done|]. split; [done|]. split; [done|]. split; [apply ZInsertSkip; right; lia|lia]. }
      apply eq_None_not_Some in Hin.
      destruct (insert_ok flt fmax flow coarse density below saw_victim saw_hit saw_evict relearn rand Hflow Hden cap md Hmd s r H (proj1 HM) HQ Hin)
        as (s' & -> & H' & C' & E' & N' & A' & G' & D'). cbn [rbind].
      eexists _, _. split; [done|]. split; [done|]. split; [split; [done|]; rewrite G'; apply HM|].
      rewrite E', A'. split; [apply ZInsert; [done|lia]|]. rewrite map_size_insert_None by done. lia.
    - destruct (remove_ok flt fmax flow coarse density below saw_victim saw_hit saw_evict relearn rand cap md Hmd s id H)
        as (s' & -> & H' & E' & N' & A' & G' & D'). cbn [rbind].
      eexists _, _. split; [done|]. split; [done|]. split.
      + split; [|intros _; rewrite G'; by apply HM]. unfold cand_ok. rewrite G', N'. pose proof (k_nreq _ _ s H).
        rewrite (proj2 HM HQ). lia.
      + rewrite E', A'. split; [apply ZRemove|]. pose proof (map_subseteq_size (delete id (h_sz s)) (h_sz s) (delete_subseteq _ _)). lia.
    - change (op_nobj OO s) with (c_nobj (h_c s)). rewrite (k_nobj _ _ s H). destruct (decide _) as [Hz|Hz].
      { assert (E : h_sz s = ∅) by (apply map_size_empty_inv; lia). eexists _, _. split; [done|]. split; [done|]. split; [done|].
        rewrite E. split; [apply ZEvictEmpty|lia]. }
      assert (Hne : h_sz s <> ∅) by (intros E; rewrite E, map_size_empty in Hz; lia).
      destruct (evict_ok flt fmax flow coarse density below saw_victim saw_hit saw_evict relearn rand Hflow Hden cap md Hmd s r H (proj1 HM) Hne)
        as (v & s' & -> & Hv & H' & C' & E' & N' & A' & _ & G' & _). cbn [rbind].
      eexists _, _. split; [done|]. split; [done|]. split.
      { split; [done|]. intros Erm. pose proof (proj2 HM Erm). destruct G'; lia. }
      rewrite E', A'. split; [by apply ZEvict|]. pose proof (map_subseteq_size (delete v (h_sz s)) (h_sz s) (delete_subseteq _ _)). lia.
    - change (op_nobj OO s) with (c_nobj (h_c s)). rewrite (k_nobj _ _ s H). destruct (decide _) as [Hz|Hz].
      { assert (E : h_sz s = ∅) by (apply map_size_empty_inv; lia). eexists _, _. split; [done|]. split; [done|]. split; [done|].
        rewrite E. split; [apply ZToEvictEmpty|lia]. }
      assert (Hne : h_sz s <> ∅) by (intros E; rewrite E, map_size_empty in Hz; lia).
      destruct (to_evict_ok flt fmax flow coarse density below saw_victim saw_hit saw_evict relearn rand Hflow Hden cap md s r H Hne)
        as (v & s' & -> & Hv & H' & C' & E' & Ec & D' & G'). cbn [rbind].
      eexists _, _. split; [done|]. split; [done|]. split; [split; [done|]; by rewrite HQ|].
      rewrite E', Ec. split; [by apply ZToEvict|lia].
  Qed.

  Lemma run_ok rm cs : forall fuel s, hok s -> mode rm s -> Forall (sized_calls md rm) cs ->
    (size (h_sz s) + length cs <= fuel)%nat ->
    exists s' os, run OO fuel s cs = Ok (s', os) /\ hok s' /\ mode rm s' /\
      sized_run cap md (h_sz s) (c_adm (h_c s)) cs os (h_sz s') (c_adm (h_c s')).
  Proof using Hflow Hden.
    induction cs as [|c cs IH]; intros fuel s H HM HQ Hf; cbn [run length] in *.
    - exists s, []. split_and!; try done. constructor.
    - apply Forall_cons in HQ as [Hc HQ].
      destruct (step_ok rm fuel s c H HM Hc) as (s1 & o & -> & H1 & M1 & T1 & L1); [lia|]. cbn [rbind].
      destruct (IH fuel s1 H1 M1 HQ) as (s' & os & -> & H' & M' & T'); [lia|]. cbn [rbind].
      exists s', (o :: os). split_and!; try done. by econstructor.
  Qed.

  (** Every program that calls only one of remove and to_evict completes, its
      answers are those of the cache above, and the counters are exact. *)
  Theorem C73_lhd : forall rm cs fuel, Forall (sized_calls md rm) cs -> (length cs <= fuel)%nat ->
    exists s os m a, run OO fuel s0 cs = Ok (s, os) /\ sized_run cap md ∅ adm cs os m a /\
      op_occupied OO s = zsum md m /\ op_nobj OO s = Z.of_nat (size m) /\
      forall r, op_find OO s r false = Ok (s, bool_decide (is_Some (m !! r_id r))).
  Proof using Hflow Hden.
    intros rm cs fuel HQ Hf. destruct (run_ok rm cs fuel s0 init_hok (init_mode rm) HQ) as (s & os & Hr & H & _ & HS).
    { cbn. rewrite map_size_empty. lia. }
    exists s, os, (h_sz s), (c_adm (h_c s)). split_and!; try done; [apply H|apply H|]. intros r. apply find_false.
  Qed.

  Lemma resident_sz : forall t j, resident OO t j <-> is_Some (h_sz t !! j).
  Proof using.
    intros t j. unfold resident. split.
    - intros Hx. destruct (Hx (mkReq j 0 0 0 0) eq_refl) as [s' Hs]. rewrite find_false in Hs.
      injection Hs as _ Hb. by apply bool_decide_eq_true in Hb.
    - intros Hx r <-. exists t. rewrite find_false. by rewrite bool_decide_true.
  Qed.

  (** to_evict announces the next victim, and changes nothing else. *)
  Theorem C73_announced : forall rm cs fuel s os r r', Forall (sized_calls md rm) cs -> (length cs <= fuel)%nat ->
    run OO fuel s0 cs = Ok (s, os) -> 0 < op_nobj OO s ->
    exists v s1 s2, op_to_evict OO s r = Ok (s1, Some v) /\ op_evict OO s1 r' = Ok s2 /\
      op_occupied OO s1 = op_occupied OO s /\ op_nobj OO s1 = op_nobj OO s /\ op_nobj OO s2 = op_nobj OO s - 1 /\
      resident OO s v /\ (forall j, resident OO s1 j <-> resident OO s j) /\
      forall j, resident OO s2 j <-> resident OO s j /\ j <> v.
  Proof using Hflow Hden.
    intros rm cs fuel s os r r' HQ Hf Hr Hn.
    destruct (run_ok rm cs fuel s0 init_hok (init_mode rm) HQ) as (s' & os' & Hr' & H & _ & HS).
    { cbn. rewrite map_size_empty. lia. }
    rewrite Hr in Hr'. injection Hr' as <- <-. cbn in Hn. rewrite (k_nobj _ _ s H) in Hn.
    assert (Hne : h_sz s <> ∅) by (intros E; rewrite E, map_size_empty in Hn; lia).
    pose proof resident_sz as HR.
    destruct (to_evict_ok flt fmax flow coarse density below saw_victim saw_hit saw_evict relearn rand Hflow Hden cap md s r H Hne)
      as (v & s1 & E1 & Hv & H1 & C1 & Es1 & Ec1 & D1 & G1).
    destruct (evict_ok flt fmax flow coarse density below saw_victim saw_hit saw_evict relearn rand Hflow Hden cap md md_nn s1 r' H1 C1)
      as (v' & s2 & E2 & Hv' & H2 & C2 & Es2 & N2 & A2 & Hc & _); [by rewrite Es1|].
    assert (v' = v) as ->. { rewrite D1 in Hc. rewrite Ec1 in Hc. specialize (Hc G1). congruence. }
    exists v, s1, s2. split_and!; try done.
    - cbn. by rewrite Ec1.
    - cbn. by rewrite Ec1.
    - cbn. rewrite (k_nobj _ _ s2 H2), (k_nobj _ _ s H), Es2, Es1.
      rewrite map_size_delete_Some by done. lia.
    - by apply HR.
    - intros j. by rewrite !HR, Es1.
    - intros j. rewrite !HR, Es2, Es1. rewrite lookup_delete_is_Some. naive_solver.
  Qed.

  (** ** When every object keeps its size: C01 - C07 *)
  Definition lrel (sz : Z -> Z) (rm : bool) (s : @lhd W) (a : abs) : Prop :=
    hok s /\ mode rm s /\ h_sz s = e_size <$> a_m a /\ c_adm (h_c s) = a_adm a /\
    forall id e, a_m a !! id = Some e -> e_size e = sz id.

  Lemma lrel_hit sz rm s t m a r e : hok s -> mode rm s -> h_sz s = e_size <$> m -> c_adm (h_c s) = a ->
    (forall id e, m !! id = Some e -> e_size e = sz id) -> sized md r -> r_size r = sz (r_id r) -> m !! r_id r = Some e ->
    exists s', op_find OO s r true = Ok (s', true) /\ lrel sz rm s' (mkAbs (t + 1) (<[r_id r := touch t r e]> m) a).
  Proof using Hflow Hden.
    intros H HM HS HA HZ Hr Hsz He.
    assert (Hz : h_sz s !! r_id r = Some (e_size e)) by (by rewrite HS, lookup_fmap, He).
    destruct (find_hit flt fmax flow coarse density below saw_victim saw_hit saw_evict relearn rand Hflow Hden cap md md_nn s r _ H (proj1 HM) Hr Hz)
      as (s' & -> & H' & C' & E' & N' & A' & G' & D'). exists s'. split; [done|].
    split; [done|]. split; [split; [done|]; rewrite G'; apply HM|]. split_and!; cbn; [|congruence|].
    - rewrite E', HS, fmap_insert. cbn. by rewrite (HZ _ _ He), Hsz.
    - intros id e' [[<- <-]|[_ Hx]]%lookup_insert_Some; cbn; eauto.
  Qed.

  Lemma lrel_insert sz rm s t m a r : hok s -> mode rm s -> h_sz s = e_size <$> m -> c_adm (h_c s) = a ->
    (forall id e, m !! id = Some e -> e_size e = sz id) -> sized md r -> r_size r = sz (r_id r) -> m !! r_id r = None ->
    exists s', op_insert OO s r = Ok s' /\ lrel sz rm s' (mkAbs (t + 1) (<[r_id r := fresh t r]> m) a).
  Proof using Hflow Hden.
    intros H HM HS HA HZ Hr Hsz He.
    assert (Hz : h_sz s !! r_id r = None) by (by rewrite HS, lookup_fmap, He).
    destruct (insert_ok flt fmax flow coarse density below saw_victim saw_hit saw_evict relearn rand Hflow Hden cap md md_nn s r H (proj1 HM) Hr Hz)
      as (s' & -> & H' & C' & E' & N' & A' & G' & D'). exists s'. split; [done|].
    split; [done|]. split; [split; [done|]; rewrite G'; apply HM|]. split_and!; cbn; [|congruence|].
    - by rewrite E', HS, fmap_insert.
    - intros id e' [[<- <-]|[_ Hx]]%lookup_insert_Some; cbn; eauto.
  Qed.

  Lemma lrel_evict sz rm s t m a r : lrel sz rm s (mkAbs t m a) -> m <> ∅ ->
    exists v s', is_Some (m !! v) /\ op_evict OO s r = Ok s' /\ lrel sz rm s' (mkAbs t (delete v m) a).
  Proof using Hflow Hden.
    intros (H & HM & HS & HA & HZ) Hne. cbn in HS, HA, HZ.
    destruct (evict_ok flt fmax flow coarse density below saw_victim saw_hit saw_evict relearn rand Hflow Hden cap md md_nn s r H (proj1 HM))
      as (v & s' & -> & Hv & H' & C' & E' & N' & A' & _ & G' & _).
    { rewrite HS. by rewrite fmap_empty_iff. }
    rewrite HS, lookup_fmap, fmap_is_Some in Hv.
    exists v, s'. split; [done|]. split; [done|]. split; [done|]. split.
    { split; [done|]. intros Erm. pose proof (proj2 HM Erm). destruct G'; lia. }
    split_and!; cbn; [by rewrite E', HS, fmap_delete|congruence|].
    intros id e [_ Hx]%lookup_delete_Some. eauto.
  Qed.

  Lemma lrel_tick sz rm s t m a : lrel sz rm s (mkAbs t m a) -> lrel sz rm (op_tick OO s) (mkAbs t m a).
  Proof using.
    intros (H & HM & HS & HA & HZ).
    destruct (tick_hok flt fmax flow coarse density below saw_victim saw_hit saw_evict relearn rand cap md s H) as [H0 C0].
    split; [done|]. split; [|done]. split; [done|]. apply HM.
  Qed.
  Lemma lrel_t sz rm s t t' m a : lrel sz rm s (mkAbs t m a) -> lrel sz rm s (mkAbs t' m a).
  Proof using. done. Qed.

  Lemma lhd_wsim sz rm : wsimulation pol_any OO cap md (same_size md sz rm) (lrel sz rm).
  Proof using Hflow Hden.
    constructor.
    - intros r [[[H1 H2] _]|[[H1 H2] _]]; split; lia.
    - intros s a (H & _). apply H.
    - intros s a (H & _). apply H.
    - intros s a (H & _ & HS & _). cbn. rewrite (k_occ _ _ s H), HS. apply zsum_msum.
    - intros s a (H & _ & HS & _). cbn. rewrite (k_nobj _ _ s H), HS. by rewrite map_size_fmap.
    - intros s t m a _ HR. by eapply lrel_t.
    - intros s a r (H & _ & HS & _). rewrite find_false, HS, lookup_fmap. do 2 f_equal.
      apply bool_decide_ext. apply fmap_is_Some.
    - intros s t m a r e _ HR [Hr Hsz] He. apply lrel_tick in HR as (H & HM & HS & HA & HZ). by apply lrel_hit.
    - intros s t m a r e _ (H & HM & HS & HA & HZ) [Hr Hsz] He. by apply lrel_hit.
    - intros s a r HR He _. exists s. split; [|done]. apply find_miss. destruct HR as (H & _ & HS & _).
      by rewrite HS, lookup_fmap, He.
    - intros s t m a r fuel Hok HR Hq Hm Hf.
      apply (get_miss_of pol_any OO cap md (lrel sz rm) (lrel sz rm) (fun r => same_size md sz rm (CGet r))); auto.
      + intros r0 [[H1 H2] _]; split; lia.
      + intros s1 a1 (H & _). apply H.
      + intros s1 a1 (H & _). apply H.
      + intros s1 a1 (H & _ & HS & _). cbn. rewrite (k_occ _ _ s1 H), HS. apply zsum_msum.
      + intros s1 [t1 m1 a1]. apply lrel_tick.
      + intros s1 a1 r1 (H & HM & HS & HA & HZ) _ He. exists s1. split; [|done]. apply find_miss.
        by rewrite HS, lookup_fmap, He.
      + intros s1 t1 m1 a1 r1 (H & HM & HS & HA & HZ) _. cbn in HS, HA.
        destruct (can_ok flt fmax flow coarse density below saw_victim saw_hit saw_evict relearn rand cap md s1 r1 H)
          as (s2 & -> & C2 & H2 & E2 & N2 & A2 & G2 & D2). rewrite HA in *. exists s2. split; [done|].
        split; [done|]. split; [split; [by apply C2, HM|rewrite G2; apply HM]|]. split_and!; cbn; [congruence|done|done].
      + intros s1 t1 m1 a1 r1 _ (H & HM & HS & HA & HZ) He [Hr Hsz] _. by apply lrel_insert.
      + intros s1 t1 m1 a1 r1 _ HR1 Hne _. destruct (lrel_evict _ _ _ _ _ _ r1 HR1 Hne) as (v & s2 & Hv & E & HR2).
        exists v, s2. done.
    - intros s t m a r _ (H & HM & HS & HA & HZ) He [Hr Hsz] _. by apply lrel_insert.
    - intros s t m a r _ HR1 Hne _. destruct (lrel_evict _ _ _ _ _ _ r HR1 Hne) as (v & s2 & Hv & E & HR2).
      exists v, s2. done.
    - intros s t m a r _ (H & HM & HS & HA & HZ) Hne [Hrm _]. cbn in HS, HA, HZ, Hrm.
      destruct (to_evict_ok flt fmax flow coarse density below saw_victim saw_hit saw_evict relearn rand Hflow Hden cap md s r H)
        as (v & s' & -> & Hv & H' & C' & E' & Ec & D' & G').
      { rewrite HS. by rewrite fmap_empty_iff. }
      rewrite HS, lookup_fmap, fmap_is_Some in Hv. exists v, s'. split_and!; try done.
      split; [done|]. split; [split; [done|]; by rewrite Hrm|]. split_and!; cbn; [congruence|congruence|done].
    - intros s t m a id _ (H & HM & HS & HA & HZ) [Hrm _]. cbn in HS, HA, HZ, Hrm.
      destruct (remove_ok flt fmax flow coarse density below saw_victim saw_hit saw_evict relearn rand cap md md_nn s id H)
        as (s' & -> & H' & E' & N' & A' & G' & D'). exists s'. split.
      { do 2 f_equal. apply bool_decide_ext. by rewrite HS, lookup_fmap, fmap_is_Some. }
      split; [done|]. split.
      + split; [|intros _; rewrite G'; by apply HM]. unfold cand_ok. rewrite G', N'. pose proof (k_nreq _ _ s H).
        rewrite (proj2 HM Hrm). lia.
      + split_and!; cbn; [by rewrite E', HS, fmap_delete|congruence|]. intros i e [_ Hx]%lookup_delete_Some. eauto.
  Qed.

  Theorem C73_same_size_api : forall sz rm, weak_api OO s0 cap md adm (same_size md sz rm) pol_any.
  Proof using Hflow Hden Hcap.
    intros sz rm. eapply wapi_all; [apply (lhd_wsim sz rm)| |done|apply md_nn].
    split; [apply init_hok|]. split; [apply init_mode|]. split_and!; cbn; [by rewrite fmap_empty|done|done].
  Qed.

  (** ** Where it fails *)

  (** A hit that makes the object larger is not followed by an eviction, so
      the cache holds more than its size. *)
  Theorem C73_capacity_refuted : forall z r r', adm = AdmNone -> 1 <= z -> z + md <= cap -> z + md < 2 ^ 32 ->
    1 <= r_size r' -> r_size r' + md < 2 ^ 32 ->
    cap < r_size r' + md -> r_size r = z -> r_id r = 1 -> r_id r' = 1 ->
    exists s, run OO 2 s0 [CGet r; CGet r'] = Ok (s, [OBool false; OBool true]) /\ cap < op_occupied OO s.
  Proof using Hflow Hden.
    intros z r r' Ha Hz1 Hz2 Hz3 Hr1 Hr2 Hbig Er Ei Ei'.
    destruct (C73_lhd true [CGet r; CGet r'] 2) as (s & os & m & a & Hr & HS & Ho & Hn & _); [|cbn; lia|].
    { repeat constructor; cbn; unfold sized; lia. }
    exists s. inversion HS as [|? ? ? o1 m1 a1 ? os1 ? ? S1 HS1]; subst. clear HS.
    inversion HS1 as [|? ? ? o2 m2 a2 ? os2 ? ? S2 HS2]; subst. clear HS1. inversion HS2; subst. clear HS2.
    assert (o1 = OBool false /\ m1 = <[1 := r_size r]> ∅) as [-> ->].
    { inversion S1 as [? ? ? ? Hx|? ? ? _ Hx|? ? ? ? _ _ Hsub _ _ | | | | | | | | | |]; subst.
      - by rewrite lookup_empty in Hx.
      - exfalso. cbn in Hx. destruct Hx; [done|lia].
      - rewrite Ei. split; [done|]. f_equal. apply map_eq. intros i.
        rewrite lookup_empty. destruct (_ !! i) eqn:E; [|done]. by apply (lookup_weaken _ _ _ _ E) in Hsub. }
    assert (o2 = OBool true /\ m = <[1 := r_size r']> (<[1 := r_size r]> ∅)) as [-> ->].
    { inversion S2 as [? ? ? ? Hx|? ? ? Hx|? ? ? ? Hx| | | | | | | | | |]; subst.
      - by rewrite Ei'.
      - by rewrite Ei', lookup_insert in Hx.
      - by rewrite Ei', lookup_insert in Hx. }
    split; [done|]. rewrite Ho, insert_insert, zsum_insert, zsum_empty by apply lookup_empty. lia.
  Qed.

  (** remove of the announced victim leaves evict with a name that is no longer
      there: assertion failure. *)
  Theorem C73_removed_victim_refuted : forall rm cs fuel s os r r', Forall (sized_calls md rm) cs -> (length cs <= fuel)%nat ->
    run OO fuel s0 cs = Ok (s, os) -> 1 < op_nobj OO s ->
    exists v s1 s2, op_to_evict OO s r = Ok (s1, Some v) /\ op_remove OO s1 v = Ok (s2, true) /\
      0 < op_nobj OO s2 /\ op_evict OO s2 r' = Err AssertFail.
  Proof using Hflow Hden.
    intros rm cs fuel s os r r' HQ Hf Hr Hn.
    destruct (run_ok rm cs fuel s0 init_hok (init_mode rm) HQ) as (s' & os' & Hr' & H & _ & HS).
    { cbn. rewrite map_size_empty. lia. }
    rewrite Hr in Hr'. injection Hr' as <- <-. cbn in Hn. rewrite (k_nobj _ _ s H) in Hn.
    assert (Hne : h_sz s <> ∅) by (intros E; rewrite E, map_size_empty in Hn; lia).
    destruct (to_evict_ok flt fmax flow coarse density below saw_victim saw_hit saw_evict relearn rand Hflow Hden cap md s r H Hne)
      as (v & s1 & E1 & Hv & H1 & C1 & Es1 & Ec1 & D1 & G1).
    destruct (remove_ok flt fmax flow coarse density below saw_victim saw_hit saw_evict relearn rand cap md md_nn s1 v H1)
      as (s2 & E2 & H2 & Es2 & N2 & A2 & G2 & D2).
    rewrite Es1, bool_decide_true in E2 by done.
    exists v, s1, s2. split_and!; try done.
    - cbn. rewrite (k_nobj _ _ s2 H2), Es2, Es1, map_size_delete_Some by done. lia.
    - cbn. unfold lhd_evict. rewrite decide_True by (rewrite G2, N2, G1; by rewrite Ec1). cbn [rbind].
      rewrite D2, D1. cbn. by rewrite Es2, lookup_delete.
  Qed.

  (** evict and to_evict of an empty cache divide by zero. *)
  Theorem C73_empty_refuted : forall r, op_evict OO s0 r = Err DivByZero /\ op_to_evict OO s0 r = Err DivByZero.
  Proof using.
    intros r. cbn. unfold lhd_evict, lhd_to_evict, lhd_rank.
    rewrite decide_False by done. rewrite !(decide_False (P := h_nrec s0 > 50)) by (cbn; lia).
    cbn [sample]. change (h_w s0) with w0. destruct (rand w0) as [x w]. by rewrite decide_True.
  Qed.

  (** ** The policy: of the tags at the positions looked at (8 random ones, 32
      once the cache has been reconfigured 50 times, and those of the recently
      admitted objects that are still there) none has a density below the
      victim's.  Assumed of [flt]: what holds of [<] on floats, and that drawing
      a number does not change what was learned. *)
  Theorem C73_least_density :
    (forall x, flt x x = false) ->
    (forall x y z, flt x y = true -> flt z y = false -> flt z x = false) ->
    (forall w c a z e, density (rand w).2 c a z e = density w c a z e) ->
    (forall w, coarse (rand w).2 = coarse w) ->
    forall rm cs fuel s os r, Forall (sized_calls md rm) cs -> (length cs <= fuel)%nat ->
    run OO fuel s0 cs = Ok (s, os) -> 0 < op_nobj OO s ->
    exists p t x, p ∈ looked_at rand s /\ h_tags s !! p = Some t /\ hit_density flow coarse density s t = Ok x /\
      (forall q t' y, q ∈ looked_at rand s -> h_tags s !! q = Some t' ->
         hit_density flow coarse density s t' = Ok y -> flt y x = false) /\
      (exists s1, op_to_evict OO s r = Ok (s1, Some (t_id t))) /\
      (rm = true -> exists s2, op_evict OO s r = Ok s2 /\ forall j, resident OO s2 j <-> resident OO s j /\ j <> t_id t).
  Proof using Hflow Hden.
    intros Hirr Hneg Hrd Hrc rm cs fuel s os r HQ Hf Hr Hn.
    destruct (run_ok rm cs fuel s0 init_hok (init_mode rm) HQ) as (s' & os' & Hr' & H & HM & HS).
    { cbn. rewrite map_size_empty. lia. }
    rewrite Hr in Hr'. injection Hr' as <- <-. cbn in Hn. rewrite (k_nobj _ _ s H) in Hn.
    assert (Hne : h_sz s <> ∅) by (intros E; rewrite E, map_size_empty in Hn; lia).
    destruct (rank_least flt fmax flow coarse density saw_victim rand Hflow Hden Hirr Hneg Hrd Hrc s) as (s3 & p & t & x & Ek & Hp & Ht & Hx & HL).
    { by eapply k_tags. } { apply H. } { by eapply k_nonempty. }
    exists p, t, x. split_and!; try done.
    - destruct (to_evict_ok flt fmax flow coarse density below saw_victim saw_hit saw_evict relearn rand Hflow Hden cap md s r H Hne)
        as (v & s1 & E1 & _). cbn in E1 |- *. unfold lhd_to_evict in E1 |- *. rewrite Ek in E1 |- *. cbn [rbind] in E1 |- *.
      destruct (h_sz s3 !! t_id t); [|done]. eauto.
    - intros ->. destruct HM as [HC HG]. specialize (HG eq_refl). pose proof (k_nreq _ _ s H).
      destruct (evict_ok flt fmax flow coarse density below saw_victim saw_hit saw_evict relearn rand Hflow Hden cap md md_nn s r H HC Hne)
        as (v & s2 & E2 & Hv & H2 & C2 & Es2 & _).
      exists s2. split; [done|].
      assert (v = t_id t) as ->; [|intros j; rewrite !resident_sz, Es2, lookup_delete_is_Some; naive_solver].
      destruct (rank_s flt fmax flow coarse density saw_victim rand Hflow Hden cap md s H Hne) as (w & v' & Ek' & _).
      rewrite Ek in Ek'. injection Ek' as -> <-.
      cbn in E2. unfold lhd_evict in E2. rewrite decide_False in E2 by lia. rewrite Ek in E2. cbn [rbind] in E2.
      change (h_sz (h_set_w s w)) with (h_sz s) in E2.
      destruct (h_sz s !! t_id t) as [z|] eqn:Ez; [|done].
      destruct (lhd_replaced _ _ _ _) as [s4|] eqn:E4; [|done]. cbn [rbind] in E2. injection E2 as <-.
      destruct (decide (v = t_id t)) as [|Hvt]; [done|exfalso].
      assert (E5 : h_sz s4 = h_sz s).
      { destruct (replaced_ok coarse saw_evict (h_count (h_set_w s w) (c_occ (h_c s) - u32 (z + c_md (h_c s))) (c_nobj (h_c s) - 1)) (t_id t) (k_v _ _ s H))
          as (s5 & E6 & _ & E7 & _).
        - cbn. eapply k_resident; [done|]. eauto.
        - cbn in E4, E6. rewrite E4 in E6. by injection E6 as <-. }
      cbn in Es2. rewrite E5 in Es2. assert (Hx2 : delete (t_id t) (h_sz s) !! t_id t = delete v (h_sz s) !! t_id t) by (by rewrite Es2).
      rewrite lookup_delete, lookup_delete_ne, Ez in Hx2 by done. done.
  Qed.
  (** What the density of an object is computed from: after an access the tag has
      the time of that access and its size.  A hit also moves the age of the last
      hit to the one before and stores the age reached now, at most MAX_AGE - 1; a
      new object starts as if last hit at MAX_AGE, and if it enters the ring of
      recently admitted objects, the next slot is the one after.  The other tags stay. *)
  Theorem C73_history : forall rm cs fuel s os r u, Forall (sized_calls md rm) cs -> (length cs <= fuel)%nat ->
    run OO fuel s0 cs = Ok (s, os) -> sized md r ->
    (forall i t, h_ix s !! r_id r = Some i -> h_tags s !! i = Some t -> exists s' t',
      op_find OO s r true = Ok (s', true) /\ h_tags s' = <[i := t']> (h_tags s) /\ h_ix s' = h_ix s /\
      t_id t' = r_id r /\ t_size t' = r_size r /\ t_time t' = h_now s /\ h_now s' = h_now s + 1 /\
      t_prev t' = t_last t /\
      t_last t' = Z.min 19999 (Z.shiftr ((h_now s - t_time t) mod 2 ^ 64) (coarse (h_w s)))) /\
    (h_ix s !! r_id r = None -> op_find OO s r u = Ok (s, false) /\ exists s' t',
      op_insert OO s r = Ok s' /\ h_tags s' = h_tags s ++ [t'] /\ h_ix s' = <[r_id r := length (h_tags s)]> (h_ix s) /\
      t_id t' = r_id r /\ t_size t' = r_size r /\ t_time t' = h_now s /\ h_now s' = h_now s + 1 /\
      t_last t' = 0 /\ t_prev t' = 20000 /\
      ((h_adm s' = h_adm s /\ h_head s' = h_head s) \/
       (h_adm s' = <[Z.to_nat (h_head s mod 8) := Some (r_id r)]> (h_adm s) /\ h_head s' = h_head s + 1))).
  Proof using Hflow Hden.
    intros rm cs fuel s os r u HQ Hf Hr [Hz1 Hz2].
    destruct (run_ok rm cs fuel s0 init_hok (init_mode rm) HQ) as (s' & os' & Hr' & H & _ & HS).
    { cbn. rewrite map_size_empty. lia. }
    rewrite Hr in Hr'. injection Hr' as <- <-. destruct (k_v _ _ _ H) as (HI & HT & HA).
    assert (Hmod : forall n, (Z.to_nat (n mod 8) < 8)%nat) by (intros n; pose proof (Z.mod_pos_bound n 8); lia).
    split.
    - intros i t Hi Ht.
      assert (Hid : t_id t = r_id r). { destruct (proj1 (HI _ _) Hi) as (t' & Ht' & Hid). congruence. }
      assert (Hsz : h_sz s !! r_id r = Some (t_size t)).
      { rewrite <- (k_sz _ _ _ H). by apply (indexed_size _ _ _ i). }
      cbn [op_find lhd_ops]. unfold lhd_find. rewrite Hsz. set (s1 := if decide _ then _ else _).
      assert (h_tags s1 = h_tags s /\ h_ix s1 = h_ix s /\ h_now s1 = h_now s /\ h_w s1 = h_w s /\ h_adm s1 = h_adm s)
        as (E1 & E2 & E3 & E4 & E5) by (unfold s1; destruct (decide _); done).
      clearbody s1. unfold lhd_update, touch_tag. rewrite E2, Hi, E1, Ht, decide_True by done.
      destruct (class_of_ok t (HT _ _ Ht)) as [c ->]. cbn [rbind].
      set (s2 := if t_exp t then _ else _).
      assert (h_tags s2 = h_tags s /\ h_ix s2 = h_ix s /\ h_now s2 = h_now s /\ h_adm s2 = h_adm s)
        as (F1 & F2 & F3 & F5) by (unfold s2; destruct (t_exp t); done).
      clearbody s2. destruct (rand (h_w s2)) as [x w].
      set (exp := (bool_decide (x mod 32 = 0) && _)%bool). set (v := mkTag _ _ _ 1 _ _ exp).
      set (s3 := if exp then _ else _).
      assert (h_tags s3 = h_tags s /\ h_ix s3 = h_ix s /\ h_now s3 = h_now s /\ h_adm s3 = h_adm s)
        as (G1 & G2 & G3 & G5) by (unfold s3; destruct exp; done).
      clearbody s3. rewrite G1.
      destruct (density_ok flt fmax flow coarse density Hflow Hden (h_set_vec s3 (<[i:=v]> (h_tags s)) (h_ix s3)) v eq_refl) as (d & -> & _).
      cbn [rbind andb negb]. eexists _, v. split; [reflexivity|]. cbn. rewrite G3. split_and!; try done.
      unfold age_of. rewrite E3, E4. unfold u64, MAX_AGE. set (y := Z.shiftr _ _). destruct (decide (y >= 20000)); lia.
    - intros Hi. assert (Hsz : h_sz s !! r_id r = None).
      { rewrite <- (k_sz _ _ _ H). unfold tsz, tag_size. by rewrite Hi. }
      split; [cbn; unfold lhd_find; by rewrite Hsz|]. cbn [op_insert lhd_ops]. unfold lhd_insert, lhd_update, touch_tag.
      cbn [h_set_sz h_ix]. rewrite Hi. cbn [rbind]. cbn [h_w h_set_vec h_set_sz]. destruct (rand (h_w s)) as [x w].
      set (exp := (bool_decide (x mod 32 = 0) && _)%bool). set (v := mkTag _ _ _ 1 _ _ exp).
      set (s3 := if exp then _ else _).
      assert (h_tags s3 = h_tags s ++ [mkTag 0 0 MAX_AGE 0 (r_id r) 0 false] /\ h_ix s3 = <[r_id r := length (h_tags s)]> (h_ix s) /\
        h_now s3 = h_now s /\ h_adm s3 = h_adm s /\ h_head s3 = h_head s)
        as (G1 & G2 & G3 & G5 & G6) by (unfold s3; destruct exp; done).
      assert (v = mkTag (h_now s) 0 20000 1 (r_id r) (r_size r) exp) as -> by done. clearbody s3. rewrite G1.
      set (v := mkTag (h_now s) 0 20000 1 _ _ exp). cbn [h_set_sz h_tags].
      set (o := mkTag 0 0 MAX_AGE 0 _ 0 false).
      replace (<[length (h_tags s) := v]> (h_tags s ++ [o])) with (h_tags s ++ [v])
        by (rewrite insert_app_r_alt, Nat.sub_diag by done; done).
      destruct (density_ok flt fmax flow coarse density Hflow Hden (h_set_vec s3 (h_tags s ++ [v]) (h_ix s3)) v eq_refl) as (d & -> & _).
      cbn [rbind]. cbn [h_set_vec h_adm h_head]. rewrite G5, G6, HA.
      destruct (true && _ && _)%bool.
      + rewrite decide_True by apply Hmod. cbn [rbind]. eexists _, v. split; [reflexivity|]. cbn. rewrite G2, G3. split_and!; auto.
      + cbn [rbind]. eexists _, v. split; [reflexivity|]. cbn. rewrite G2, G3. split_and!; auto.
  Qed.
End LHD.

(** ** A closed instance: floats are integers with infinity, the density is
    what was learned over the size, the generator is linear congruential. *)
Definition xflt (a b : option Z) : bool :=
  match a, b with Some a, Some b => bool_decide (a < b) | Some _, None => true | None, _ => false end.
Definition xden (w : Z) (c a z : Z) (e : bool) : option Z :=
  if decide (z = 0) then None else Some ((1000 - a) / z + (if e then 1 else 0)).
Definition xrand (w : Z) : Z * Z := let x := (w * 1103515245 + 12345) mod 2 ^ 31 in (x / 2 ^ 16, x).
Definition XO : ops (@lhd Z) :=
  lhd_ops xflt None (Some (-1)) (fun _ => 0) xden (fun d _ => xflt d (Some 100)) (fun _ w => w)
    (fun _ _ w => w) (fun _ _ w => w) (fun _ _ w => w) xrand.

Lemma xflow : xflt (Some (-1)) None = true.
Proof. done. Qed.
Lemma xden_ok w c a z e : 1 <= z -> xflt (xden w c a z e) None = true.
Proof. intros H. unfold xden. by rewrite decide_False by lia. Qed.

Definition xq (id z : Z) : req := mkReq id z 0 0 0.

(** The largest object goes first. *)
Example lhd_run_ex :
  match run XO 9 (lhd_init true 300 AdmNone 3 7)
    [CGet (xq 1 50); CGet (xq 2 10); CGet (xq 3 100); CGet (xq 1 50); CToEvict (xq 9 1); CEvict (xq 9 1); CFind (xq 3 1) false; CGet (xq 4 120)] with
  | Ok (s, os) => os = [OBool false; OBool false; OBool false; OBool true; OVictim (Some 3); OUnit; OBool false; OBool false] /\
      op_occupied XO s = 255 /\ op_nobj XO s = 3 /\ h_sz s !! 4 = Some 120 /\ h_sz s !! 3 = None
  | Err _ => False
  end.
Proof. vm_compute. repeat split. Qed.
Example lhd_calls_ex : Forall (same_size 25 (fun id => id * 10) false) [CGet (xq 1 10); CGet (xq 3 30); CToEvict (xq 9 0); CFind (xq 1 10) true; CEvict (xq 9 0)].
Proof. repeat constructor; cbn; unfold sized; cbn; lia. Qed.
Example lhd_api_ex : weak_capacity XO (lhd_init true 300 AdmNone 3 7) 300 (same_size 25 (fun id => id * 10) false).
Proof. exact (proj1 (C73_same_size_api _ _ _ _ _ _ _ _ _ _ _ xflow xden_ok 300 ltac:(lia) true AdmNone 3 7 (fun id => id * 10) false)). Qed.
Example lhd_resize_ex : exists s, run XO 2 (lhd_init true 300 AdmNone 3 7) [CGet (xq 1 10); CGet (xq 1 4000)] =
  Ok (s, [OBool false; OBool true]) /\ 300 < op_occupied XO s.
Proof. apply (C73_capacity_refuted _ _ _ _ _ _ _ _ _ _ _ xflow xden_ok 300 true AdmNone 3 7 10); cbn; done. Qed.

(** Objects of size 0 have an infinite density: there is no victim among them,
    and evict (or a get that has to evict) fails its assertion. *)
Theorem C73_size_zero_refuted :
  run XO 9 (lhd_init true 60 AdmNone 3 7) [CGet (xq 1 0); CGet (xq 2 0); CGet (xq 3 5)] = Err AssertFail /\
  run XO 9 (lhd_init false 60 AdmNone 3 7) [CGet (xq 1 0); CEvict (xq 2 0)] = Err AssertFail.
Proof. split; vm_compute; reflexivity. Qed.

(** The victim 3 of [lhd_run_ex] was among the ones looked at. *)
Example lhd_least_ex :
  match run XO 9 (lhd_init true 300 AdmNone 3 7) [CGet (xq 1 50); CGet (xq 2 10); CGet (xq 3 100); CGet (xq 1 50)] with
  | Ok (s, _) => looked_at xrand s = [2; 2; 0; 2; 2; 2; 2; 1; 0; 2]%nat
  | Err _ => False
  end.
Proof. vm_compute. reflexivity. Qed.

(** Two hits of object 1 at ages 3 and 1. *)
Example lhd_history_ex :
  match run XO 9 (lhd_init true 300 AdmNone 3 7) [CGet (xq 1 50); CGet (xq 2 10); CGet (xq 3 100); CGet (xq 1 50); CGet (xq 1 60)] with
  | Ok (s, _) => h_ix s !! 1 = Some 0%nat /\ h_now s = 5 /\
      option_map (fun t => (t_time t, t_last t, t_prev t, t_size t)) (h_tags s !! 0%nat) = Some (4, 1, 3, 60)
  | Err _ => False
  end.
Proof. vm_compute. repeat split. Qed.
