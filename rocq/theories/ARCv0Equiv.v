(** Bounded ghost lists make no difference when all objects have one size that
    divides the cache size: ARC of SpecARCv0.v is ARC of SpecARC.v. *)
From stdpp Require Import gmap list numbers fin_maps.
From Coq Require Import QArith.
From Verif Require Import Base Driver SpecARC ARCFacts ModelARCv0 SpecARCv0 ARCv0Facts.
Open Scope Z_scope.

Section Uniform.
  Context (rnd : Q -> Q) (cap w k : Z) (Hw : 0 < w) (Hk : cap = k * w) (Hk0 : 0 < k).

  Definition uni (l : list (Z * Z)) : Prop := Forall (fun x => x.2 = w) l.

  Lemma uni_wt l : uni l -> wt l = w * Z.of_nat (length l).
  Proof. induction 1 as [|x l Hx _ IH]; [cbn; lia|]. rewrite wt_cons, IH, Hx. cbn [length]. lia. Qed.
  Lemma uni_app l1 l2 : uni (l1 ++ l2) <-> uni l1 /\ uni l2.
  Proof. apply Forall_app. Qed.
  Lemma uni_cons id n l : uni ((id, n) :: l) <-> n = w /\ uni l.
  Proof. unfold uni. by rewrite Forall_cons. Qed.
  Lemma uni_all m l : uni l -> wt l <= m -> within m l = l.
  Proof. intros H. apply within_all. eapply Forall_impl; [exact H|]. intros x ->. lia. Qed.

  Record uinv (a : ARC) : Prop := mkU {
    u_t1 : uni (T1 a); u_b1 : uni (B1 a); u_t2 : uni (T2 a); u_b2 : uni (B2 a);
    u_occ : wt (T1 a) + wt (T2 a) <= cap;
    u_l1 : wt (T1 a) + wt (B1 a) <= cap;
    u_gh : wt (B1 a) + wt (B2 a) <= cap;
    u_full : 0 < wt (B1 a) + wt (B2 a) -> wt (T1 a) + wt (T2 a) = cap
  }.

  (** sums of sizes are multiples of w *)
  Lemma mult_lt a : a * w < cap -> a * w + w <= cap.
  Proof. intros H. subst cap. assert (a < k) by nia. nia. Qed.

  Lemma snoc_wt l x : uni (l ++ [x]) -> wt (l ++ [x]) = wt l + w /\ uni l /\ x.2 = w.
  Proof.
    intros [Hl Hx]%uni_app. apply Forall_cons in Hx as [Hx _]. rewrite wt_app, wt_cons, wt_nil. split_and!; [lia|done|done].
  Qed.
  Lemma uni_pos l : uni l -> 0 <= wt l.
  Proof. intros H. rewrite (uni_wt _ H). nia. Qed.

  Lemma REPLACE_same g a a' : uni (T1 a) -> uni (B1 a) -> uni (T2 a) -> uni (B2 a) ->
    wt (B1 a) + w <= cap -> wt (B2 a) + w <= cap -> REPLACE0 rnd cap g a a' ->
    REPLACE rnd g a a' /\ uni (T1 a') /\ uni (B1 a') /\ uni (T2 a') /\ uni (B2 a') /\
    wt (T1 a') + wt (T2 a') = wt (T1 a) + wt (T2 a) - w /\
    wt (T1 a') + wt (B1 a') <= wt (T1 a) + wt (B1 a) /\
    wt (B1 a') + wt (B2 a') = wt (B1 a) + wt (B2 a) + w.
  Proof.
    intros U1 U2 U3 U4 Hb1 Hb2 H. destruct H as [l [i n] E Hc|l [i n] E Hc]; rewrite E in *.
    - apply snoc_wt in U1 as (Ew & Ul & Hx). cbn [snd] in Hx. subst n.
      unfold remember. cbn [snd]. rewrite uni_all by (done || lia).
      cbn [T1 B1 T2 B2]. rewrite !wt_cons, Ew. cbn [snd].
      split_and!; try done; try lia; [|by apply uni_cons]. by eapply replace_T1.
    - apply snoc_wt in U3 as (Ew & Ul & Hx). cbn [snd] in Hx. subst n.
      unfold remember. cbn [snd]. rewrite uni_all by (done || lia).
      cbn [T1 B1 T2 B2]. rewrite !wt_cons, Ew. cbn [snd].
      split_and!; try done; try lia; [|by apply uni_cons]. by eapply replace_T2.
  Qed.

  Lemma CASE4_same a a' : uinv a -> wt (T1 a) + wt (T2 a) = cap -> CASE40 rnd cap w a a' ->
    CASE4 rnd cap w a a' /\ uni (T1 a') /\ uni (B1 a') /\ uni (T2 a') /\ uni (B2 a') /\
    wt (T1 a') + wt (T2 a') = cap - w /\ wt (T1 a') + wt (B1 a') + w <= cap /\ wt (B1 a') + wt (B2 a') <= cap.
  Proof.
    intros [U1 U2 U3 U4 Ho Hl Hg Hf] Hfull H.
    pose proof (uni_pos _ U1) as P1. pose proof (uni_pos _ U2) as P2. pose proof (uni_pos _ U3) as P3. pose proof (uni_pos _ U4) as P4.
    destruct H as [l x a' Hgt E HR|l x Hgt E1 E2|a' Hle HR].
    - pose proof U2 as U2'. rewrite E in U2'. apply snoc_wt in U2' as (Ew & Ul & Hx). rewrite <- E in Ew.
      pose proof (uni_pos _ Ul).
      apply REPLACE_same in HR as (HR & V1 & V2 & V3 & V4 & W1 & W2 & W3); cbn [T1 B1 T2 B2] in *; try done; try lia.
      split_and!; try done; try lia. by eapply case4_A1.
    - pose proof U1 as U1'. rewrite E2 in U1'. apply snoc_wt in U1' as (Ew & Ul & Hx). rewrite <- E2 in Ew.
      rewrite E1 in *. change (wt []) with 0 in *.
      cbn [T1 B1 T2 B2]. change (wt []) with 0. split_and!; try done; try lia. eapply case4_A2; [rewrite E1; change (wt []) with 0; lia|done|exact E2].
    - destruct (decide (wt (T1 a) + wt (B1 a) + wt (T2 a) + wt (B2 a) >= 2 * cap)) as [Hbig|Hsm].
      + destruct (snoc_or (B2 a)) as [E|(l & x & E)]; [rewrite E in Hbig; change (wt []) with 0 in Hbig; lia|].
        pose proof U4 as U4'. rewrite E in U4'. apply snoc_wt in U4' as (Ew & Ul & Hx). rewrite <- E in Ew.
        pose proof (uni_pos _ Ul).
        assert (Ecut : within (2 * cap - 1 - (wt (T1 a) + wt (B1 a) + wt (T2 a))) (B2 a) = l).
        { rewrite E, within_app; [|eapply Forall_impl; [exact Ul|]; intros y ->; lia|lia].
          cbn [within]. rewrite Hx. rewrite decide_False by lia. by rewrite app_nil_r. }
        rewrite Ecut in HR.
        apply REPLACE_same in HR as (HR & V1 & V2 & V3 & V4 & W1 & W2 & W3); cbn [T1 B1 T2 B2] in *; try done; try lia.
        split_and!; try done; try lia. by eapply case4_B1.
      + rewrite uni_all in HR by (done || lia).
        assert (Hg' : wt (B1 a) + wt (B2 a) + w <= cap).
        { rewrite (uni_wt _ U2), (uni_wt _ U4) in *.
          pose proof (mult_lt (Z.of_nat (length (B1 a)) + Z.of_nat (length (B2 a)))). lia. }
        replace (mkARC (T1 a) (B1 a) (T2 a) (B2 a) (p a)) with a in HR by (by destruct a).
        apply REPLACE_same in HR as (HR & V1 & V2 & V3 & V4 & W1 & W2 & W3); try done; try lia.
        split_and!; try done; try lia. apply case4_B2; [done|left; lia|done].
  Qed.

  (** Room is made by exactly one eviction when the cache is full. *)
  Lemma ROOM_full (ev0 ev : ARC -> ARC -> Prop) a a' : wt (T1 a) + wt (T2 a) = cap ->
    (forall a1, ev0 a a1 -> ev a a1 /\ wt (T1 a1) + wt (T2 a1) = cap - w) ->
    ROOM cap w ev0 a a' -> ROOM cap w ev a a' /\ ev0 a a'.
  Proof.
    intros Hf Hev H. destruct H as [a Hle|a a1 a2 Hgt He Hr]; [lia|].
    destruct (Hev a1 He) as [He' Hw1].
    assert (a2 = a1) as ->. { destruct Hr as [|? ? ? ? ? ?]; [done|lia]. }
    split; [|done]. eapply room_evict; [done|done|]. apply room_fits. lia.
  Qed.
  Lemma ROOM_free (ev0 ev : ARC -> ARC -> Prop) a a' : wt (T1 a) + wt (T2 a) + w <= cap ->
    ROOM cap w ev0 a a' -> ROOM cap w ev a a' /\ a' = a.
  Proof. intros Hf H. destruct H as [a Hle|a a1 a2 Hgt He Hr]; [|lia]. split; [by apply room_fits|done]. Qed.

  Lemma REQUEST_same id a b a' : uinv a -> REQUEST0 rnd cap id w w a b a' ->
    REQUEST rnd cap id w a b a' /\ uinv a'.
  Proof.
    intros HU H. pose proof HU as [U1 U2 U3 U4 Ho Hl Hg Hf].
    pose proof (uni_pos _ U1) as P1. pose proof (uni_pos _ U2) as P2. pose proof (uni_pos _ U3) as P3. pose proof (uni_pos _ U4) as P4.
    destruct H as [l1 c l2 E|l1 c l2 E|l1 c l2 a' E HR|l1 c l2 a' E HR|a' Hno HR].
    - split; [by apply hit_T1|]. rewrite E in U1. apply uni_app in U1 as [V1 V2]. apply uni_cons in V2 as [-> V2].
      rewrite E in *. rewrite !wt_app, !wt_cons in *. cbn [snd] in *.
      split; cbn [T1 B1 T2 B2]; rewrite ?wt_app, ?wt_cons; cbn [snd]; try done; try lia; try (by apply uni_app); try (by apply uni_cons).
    - split; [by apply hit_T2|]. rewrite E in U3. apply uni_app in U3 as [V1 V2]. apply uni_cons in V2 as [-> V2].
      rewrite E in *. rewrite !wt_app, !wt_cons in *. cbn [snd] in *.
      split; cbn [T1 B1 T2 B2]; rewrite ?wt_app, ?wt_cons, ?wt_app; cbn [snd]; try done; try lia.
      apply uni_cons. split; [done|]. by apply uni_app.
    - pose proof U2 as U2'. rewrite E in U2'. apply uni_app in U2' as [V1 V2]. apply uni_cons in V2 as [-> V2].
      assert (Ew : wt (B1 a) = wt (l1 ++ l2) + w) by (rewrite E, !wt_app, wt_cons; cbn [snd]; lia).
      assert (V : uni (l1 ++ l2)) by (by apply uni_app). pose proof (uni_pos _ V) as PV.
      assert (Hfull : wt (T1 a) + wt (T2 a) = cap) by (apply Hf; lia).
      eapply (ROOM_full _ (REPLACE rnd false)) in HR as [HR HE]; cbn [T1 T2] in *; [|done|].
      2:{ intros a1 HR1. apply REPLACE_same in HR1 as (X & _ & _ & _ & _ & Y & _); cbn [T1 B1 T2 B2] in *; try done; try lia. by split; [|lia]. }
      apply REPLACE_same in HE as (_ & X1 & X2 & X3 & X4 & W1 & W2 & W3); cbn [T1 B1 T2 B2] in *; try done; try lia.
      split; [by eapply hit_B1|].
      split; cbn [T1 B1 T2 B2]; rewrite ?wt_cons; cbn [snd]; try done; try lia. by apply uni_cons.
    - pose proof U4 as U4'. rewrite E in U4'. apply uni_app in U4' as [V1 V2]. apply uni_cons in V2 as [-> V2].
      assert (Ew : wt (B2 a) = wt (l1 ++ l2) + w) by (rewrite E, !wt_app, wt_cons; cbn [snd]; lia).
      assert (V : uni (l1 ++ l2)) by (by apply uni_app). pose proof (uni_pos _ V) as PV.
      assert (Hfull : wt (T1 a) + wt (T2 a) = cap) by (apply Hf; lia).
      eapply (ROOM_full _ (REPLACE rnd true)) in HR as [HR HE]; cbn [T1 T2] in *; [|done|].
      2:{ intros a1 HR1. apply REPLACE_same in HR1 as (X & _ & _ & _ & _ & Y & _); cbn [T1 B1 T2 B2] in *; try done; try lia. by split; [|lia]. }
      apply REPLACE_same in HE as (_ & X1 & X2 & X3 & X4 & W1 & W2 & W3); cbn [T1 B1 T2 B2] in *; try done; try lia.
      split; [by eapply hit_B2|].
      split; cbn [T1 B1 T2 B2]; rewrite ?wt_cons; cbn [snd]; try done; try lia. by apply uni_cons.
    - destruct (decide (wt (T1 a) + wt (T2 a) + w <= cap)) as [Hroom|Hroom].
      + apply (ROOM_free _ (CASE4 rnd cap w)) in HR as [HR ->]; [|done].
        assert (wt (B1 a) + wt (B2 a) = 0) by (destruct (decide (0 < wt (B1 a) + wt (B2 a))) as [X|X]; [apply Hf in X|]; lia).
        split; [by eapply miss|].
        split; cbn [T1 B1 T2 B2]; rewrite ?wt_cons; cbn [snd]; try done; try lia. by apply uni_cons.
      + assert (Hfull : wt (T1 a) + wt (T2 a) = cap).
        { rewrite (uni_wt _ U1), (uni_wt _ U3) in *.
          pose proof (mult_lt (Z.of_nat (length (T1 a)) + Z.of_nat (length (T2 a)))). lia. }
        eapply (ROOM_full _ (CASE4 rnd cap w)) in HR as [HR HE]; [|done|].
        2:{ intros a1 HR1. apply CASE4_same in HR1 as (X & _ & _ & _ & _ & Y & _); done. }
        apply CASE4_same in HE as (_ & X1 & X2 & X3 & X4 & W1 & W2 & W3); try done.
        split; [by eapply miss|].
        split; cbn [T1 B1 T2 B2]; rewrite ?wt_cons; cbn [snd]; try done; try lia. by apply uni_cons.
  Qed.

  Lemma REQUESTS_same rs : forall a bs a', uinv a -> Forall (fun r => r_size r = w) rs ->
    REQUESTS0 rnd cap 0 0 a rs bs a' -> REQUESTS rnd cap 0 a rs bs a' /\ uinv a'.
  Proof.
    induction rs as [|r rs IH]; intros a bs a' HU Hrs H; inversion H as [|? ? b a1 ? bs' ? H1 H2]; subst.
    - split; [constructor|done].
    - apply Forall_cons in Hrs as [Hr Hrs]. rewrite Z.add_0_r, Hr in H1.
      destruct (REQUEST_same _ _ _ _ HU H1) as [X1 HU1]. destruct (IH _ _ _ HU1 Hrs H2) as [X2 HU2].
      split; [|done]. econstructor; [|exact X2]. by rewrite Z.add_0_r, Hr.
  Qed.
End Uniform.
