(** C85: the scan detector. *)
From stdpp Require Import gmap list numbers fin_maps fin_sets.
From Verif Require Import Base ModelScan SpecScan.
Open Scope Z_scope.

Definition flat (vec : list stream) : list Z := concat (st_reqs <$> vec).
Lemma flat_cons s vec : flat (s :: vec) = st_reqs s ++ flat vec.
Proof. done. Qed.
Lemma flat_app v1 v2 : flat (v1 ++ v2) = flat v1 ++ flat v2.
Proof. unfold flat. by rewrite fmap_app, concat_app. Qed.
Lemma flat_perm v1 v2 : v1 ≡ₚ v2 -> flat v1 ≡ₚ flat v2.
Proof.
  induction 1 as [|s v1 v2 _ IH|s t v|v1 v2 v3 _ IH1 _ IH2]; [done| | |by rewrite IH1].
  - rewrite !flat_cons. by rewrite IH.
  - rewrite !flat_cons, !app_assoc. apply Permutation_app_tail, Permutation_app_comm.
Qed.
Lemma swap_out (vec : list stream) pos st lst :
  vec !! pos = Some st -> vec !! (length vec - 1)%nat = Some lst -> vec ≡ₚ st :: take (length vec - 1) (<[pos := lst]> vec).
Proof.
  intros Hp Hl. destruct (exists_last (l := vec)) as (l1 & z & ->); [by intros ->|].
  rewrite app_length in *. cbn [length] in *. replace (length l1 + 1 - 1)%nat with (length l1) in * by lia.
  rewrite lookup_app_r, Nat.sub_diag in Hl by lia. injection Hl as <-.
  assert (pos < length l1 + 1)%nat by (apply lookup_lt_Some in Hp; rewrite app_length in Hp; done).
  destruct (decide (pos = length l1)) as [->|Hne].
  - rewrite lookup_app_r, Nat.sub_diag in Hp by lia. injection Hp as <-.
    replace (length l1) with (length l1 + 0)%nat at 2 by lia. rewrite insert_app_r. cbn. rewrite take_app. by rewrite Permutation_app_comm.
  - rewrite lookup_app_l in Hp by lia. rewrite insert_app_l by lia. rewrite take_app_alt by (by rewrite insert_length).
    rewrite <- (take_drop_middle _ _ _ Hp) at 1. rewrite insert_take_drop by lia. rewrite <- app_assoc. cbn.
    rewrite <- Permutation_middle. apply perm_skip. apply Permutation_app_head. by rewrite Permutation_app_comm.
Qed.

Section scan.
  Context (T : list Z) (diff minsz : Z).
  Notation len := (Z.of_nat (length T)).

  Definition st_ok (cur : Z) (s : stream) : Prop :=
    st_n s = Z.of_nat (length (st_reqs s)) /\ st_start s ∈ st_reqs s /\ st_next s = next_of T (st_start s) /\
    forall v, v ∈ st_reqs s -> st_start s <= v <= st_start s + diff + st_n s /\
      Z.abs (next_of T v - st_next s) <= diff + st_n s /\ 0 <= v < cur /\ comes_back T v.

  Record sd_ok (cur : Z) (s : sdet) : Prop := mkSdOk {
    ok_cur : sd_cur s = cur;
    ok_vec : Forall (st_ok cur) (sd_vec s);
    ok_nodup : NoDup (flat (sd_vec s));
    ok_marked : forall v, v ∈ sd_marked s -> v ∉ flat (sd_vec s) /\ 0 <= v < cur;
    ok_scan : sd_scan s = Z.of_nat (size (sd_marked s));
    ok_sum : sd_scan s + sd_non s + Z.of_nat (length (flat (sd_vec s))) = cur;
    ok_groups : forall v, v ∈ sd_marked s -> exists g, v ∈ g /\ (forall w, w ∈ g -> w ∈ sd_marked s) /\ minsz < Z.of_nat (length g) /\ scan T diff g }.

  Lemma mark_ok l : forall m, (forall v, v ∈ l -> 0 <= v < len) -> sd_mark len m l = Ok (list_to_set l ∪ m).
  Proof.
    induction l as [|v l IH]; intros m H; cbn [sd_mark].
    - f_equal. set_solver.
    - rewrite decide_True by (apply H, elem_of_list_here). rewrite IH by (intros w Hw; apply H; by apply elem_of_list_further).
      f_equal. rewrite list_to_set_cons. apply set_eq. set_solver.
  Qed.

  Lemma close_ok cur : cur <= len -> forall fuel pos s, sd_ok cur s -> (0 < fuel /\ length (sd_vec s) < fuel + pos)%nat ->
    exists s', sd_close diff minsz len fuel pos s = Ok s' /\ sd_ok cur s' /\ (length (sd_vec s') <= length (sd_vec s))%nat.
  Proof.
    intros Hc. induction fuel as [|fuel IH]; intros pos s H Hf; cbn [sd_close].
    - lia.
    - destruct (sd_vec s !! pos) as [st|] eqn:E; [|by exists s].
      assert (Hlt := lookup_lt_Some _ _ _ E).
      destruct (decide _) as [Hend|_]; [|destruct (IH (S pos) s H ltac:(lia)) as (s' & ? & ? & ?); eauto].
      destruct (lookup_lt_is_Some_2 (sd_vec s) (length (sd_vec s) - 1)) as [lst El]; [lia|].
      assert (HP := swap_out _ _ _ _ E El). set (vec' := take _ _) in *.
      assert (Hst : st_ok cur st) by (assert (G := ok_vec _ _ H); rewrite Forall_forall in G; apply G; by eapply elem_of_list_lookup_2).
      destruct Hst as (Hn & Hs & Hnx & Hall). assert (HF := flat_perm _ _ HP). rewrite flat_cons in HF.
      assert (HN := ok_nodup _ _ H). rewrite HF in HN. apply NoDup_app in HN as (HN1 & HN2 & HN3).
      assert (Hv : Forall (st_ok cur) vec') by (assert (G := ok_vec _ _ H); rewrite HP in G; by inversion G).
      assert (Hlen : (length vec' = length (sd_vec s) - 1)%nat) by (apply Permutation_length in HP; cbn in HP; lia).
      assert (Hsum := ok_sum _ _ H). rewrite HF, app_length in Hsum.
      assert (HM := ok_marked _ _ H).
      destruct (decide (st_n st > minsz)) as [Hbig|Hsmall].
      + rewrite mark_ok by (intros v Hin; destruct (Hall v Hin) as (_ & _ & ? & _); lia). cbn [rbind]. rewrite El. fold vec'.
        match goal with |- exists s', sd_close _ _ _ _ _ ?s1 = _ /\ _ => destruct (IH (S pos) s1) as (s' & E' & H' & L') end.
        * constructor; cbn [sd_cur sd_vec sd_marked sd_scan sd_non].
          -- apply H.
          -- done.
          -- done.
          -- intros v Hin. apply elem_of_union in Hin as [Hin|Hin].
             ++ apply elem_of_list_to_set in Hin. split; [by apply HN2|]. apply (Hall v Hin).
             ++ destruct (HM v Hin) as [Hnot ?]. split; [|done]. rewrite HF in Hnot. by apply not_elem_of_app in Hnot as [_ ?].
          -- rewrite size_union.
             ++ rewrite size_list_to_set by done. rewrite (ok_scan _ _ H). lia.
             ++ intros v H1 H2. apply elem_of_list_to_set in H1. destruct (HM v H2) as [Hnot _]. rewrite HF in Hnot. apply not_elem_of_app in Hnot as [? _]. done.
          -- lia.
          -- intros v Hin. apply elem_of_union in Hin as [Hin|Hin].
             ++ apply elem_of_list_to_set in Hin. exists (st_reqs st). split; [done|]. split; [intros w Hw; apply elem_of_union_l; by apply elem_of_list_to_set|].
                split; [lia|]. split; [done|]. exists (st_start st). split; [done|]. intros w Hw. destruct (Hall w Hw) as (? & Hx & ? & Hcb). rewrite Hnx in Hx. rewrite <- Hn. repeat split; try lia; apply Hcb.
             ++ destruct (ok_groups _ _ H v Hin) as (g & ? & Hg & ? & ?). exists g. split; [done|]. split; [|done]. intros w Hw. apply elem_of_union_r. by apply Hg.
        * cbn [sd_vec]. lia.
        * exists s'. split; [exact E'|]. split; [done|]. cbn [sd_vec] in L'. lia.
      + cbn [rbind]. rewrite El. fold vec'.
        match goal with |- exists s', sd_close _ _ _ _ _ ?s1 = _ /\ _ => destruct (IH (S pos) s1) as (s' & E' & H' & L') end.
        * constructor; cbn [sd_cur sd_vec sd_marked sd_scan sd_non]; try done; try apply H; [|lia].
          intros v Hin. destruct (HM v Hin) as [Hnot ?]. split; [|done]. rewrite HF in Hnot. by apply not_elem_of_app in Hnot as [_ ?].
        * cbn [sd_vec]. lia.
        * exists s'. split; [exact E'|]. split; [done|]. cbn [sd_vec] in L'. lia.
  Qed.

  Lemma join_ok cur next vec : forall vec', 0 <= diff -> 0 <= cur -> next = next_of T cur -> comes_back T cur -> Forall (st_ok cur) vec ->
    sd_join diff vec cur next = Some vec' -> Forall (st_ok (cur + 1)) vec' /\ flat vec' ≡ₚ cur :: flat vec /\ length vec' = length vec.
  Proof.
    intros vec' Hd Hc En Hb Hv. assert (Hmono : forall s, st_ok cur s -> st_ok (cur + 1) s).
    { intros s (H1 & H2 & H3 & H4). split; [done|]. split; [done|]. split; [done|]. intros v Hin. destruct (H4 v Hin) as (? & ? & ? & Hcb). repeat split; try lia; apply Hcb. }
    revert vec'. induction Hv as [|s vec Hs Hv IH]; intros vec' E; cbn [sd_join] in E; [done|].
    destruct (is_part diff s cur next) eqn:Ep.
    - injection E as <-. split; [|split; [|done]].
      + constructor; [|eapply Forall_impl; [exact Hv|exact Hmono]]. destruct Hs as (H1 & H2 & H3 & H4). unfold is_part in Ep.
        destruct (decide _) as [|P1]; [done|]. destruct (decide _) as [|P2]; [done|]. split; [cbn; rewrite app_length; cbn; lia|].
        split; [cbn; apply elem_of_app; by left|]. split; [done|]. cbn [st_reqs st_start st_n st_next]. intros v Hin. apply elem_of_app in Hin as [Hin|Hin].
        * destruct (H4 v Hin) as (? & ? & ? & Hcb). repeat split; try lia; apply Hcb.
        * apply elem_of_list_singleton in Hin as ->. destruct (H4 _ H2) as (_ & _ & ? & _). rewrite <- En. repeat split; try lia; apply Hb.
      + rewrite !flat_cons. cbn [st_reqs]. rewrite <- app_assoc. cbn. by rewrite <- Permutation_middle.
    - destruct (sd_join diff vec cur next) as [v1|]; [|done]. injection E as <-. destruct (IH v1 eq_refl) as (F1 & F2 & F3).
      split; [constructor; [by apply Hmono|done]|]. split; [|cbn; lia]. rewrite !flat_cons, F2. by rewrite <- Permutation_middle.
  Qed.

  Lemma add_ok cur s next : 0 <= diff -> 0 <= cur < len -> next = next_of T cur -> next <> -2 -> sd_ok cur s ->
    exists s', sd_add diff minsz len s next = Ok s' /\ sd_ok (cur + 1) s' /\ (length (sd_vec s') <= S (length (sd_vec s)))%nat.
  Proof.
    intros Hd Hc En Hn2 H. unfold sd_add. rewrite decide_False by done.
    assert (Hfresh : forall s, sd_ok cur s -> cur ∉ flat (sd_vec s) /\ cur ∉ sd_marked s).
    { intros s0 H0. split.
      - intros Hin. unfold flat in Hin. apply elem_of_list_In, in_concat in Hin as (l & Hl & Hin). apply elem_of_list_In, elem_of_list_fmap in Hl as (st & -> & Hst).
        assert (G := ok_vec _ _ H0). rewrite Forall_forall in G. destruct (G st Hst) as (_ & _ & _ & G'). apply elem_of_list_In in Hin. destruct (G' _ Hin) as (_ & _ & ? & _). lia.
      - intros Hin. destruct (ok_marked _ _ H0 _ Hin). lia. }
    assert (Hmono : forall s, st_ok cur s -> st_ok (cur + 1) s).
    { intros s0 (H1 & H2 & H3 & H4). split; [done|]. split; [done|]. split; [done|]. intros v Hin. destruct (H4 v Hin) as (? & ? & ? & Hcb). repeat split; try lia; apply Hcb. }
    assert (Hone : forall s vec', sd_ok cur s -> Forall (st_ok (cur + 1)) vec' -> flat vec' ≡ₚ cur :: flat (sd_vec s) ->
      sd_ok (cur + 1) (mkSd (sd_scan s) (sd_non s) (sd_marked s) vec' (sd_cur s + 1) (sd_sizes s))).
    { intros s0 vec' H0 Hv HF. destruct (Hfresh s0 H0) as [F1 F2]. constructor; cbn [sd_cur sd_vec sd_marked sd_scan sd_non].
      - rewrite (ok_cur _ _ H0). done.
      - done.
      - rewrite HF. constructor; [done|apply H0].
      - intros v Hin. destruct (ok_marked _ _ H0 v Hin) as [? ?]. split; [|lia]. rewrite HF. apply not_elem_of_cons. split; [|done]. intros ->. done.
      - apply H0.
      - rewrite HF. cbn [length]. assert (G := ok_sum _ _ H0). lia.
      - apply H0. }
    destruct (decide (next = -1 \/ next = 2 ^ 63 - 1)) as [Hg|Hg].
    { eexists. split; [done|]. split; [|cbn; lia]. constructor; cbn [sd_cur sd_vec sd_marked sd_scan sd_non]; try apply H.
      - rewrite (ok_cur _ _ H). done.
      - eapply Forall_impl; [apply H|exact Hmono].
      - intros v Hin. destruct (ok_marked _ _ H v Hin). split; [done|lia].
      - assert (G := ok_sum _ _ H). lia. }
    assert (Hb : comes_back T cur) by (unfold comes_back; rewrite <- En; tauto).
    rewrite (ok_cur _ _ H). destruct (sd_join diff (sd_vec s) cur next) as [vec|] eqn:Ej.
    { destruct (join_ok cur next (sd_vec s) vec Hd ltac:(lia) En Hb (ok_vec _ _ H) Ej) as (F1 & F2 & F3).
      eexists. split; [done|]. split; [|cbn; lia]. replace cur with (sd_cur s) at 2 by apply H. apply Hone; done. }
    assert (Hc2 : exists s1, (if decide (Z.of_nat (length (sd_vec s)) >= diff - 1) then sd_close diff minsz len (S (length (sd_vec s))) 0 s else Ok s) = Ok s1 /\
      sd_ok cur s1 /\ (length (sd_vec s1) <= length (sd_vec s))%nat).
    { destruct (decide _); [|eauto]. apply close_ok; [lia|done|lia]. }
    destruct Hc2 as (s1 & -> & H1 & L1). cbn [rbind]. eexists. split; [done|]. split; [|cbn; rewrite app_length; cbn; lia].
    assert (Ec := ok_cur _ _ H1). apply Hone; [done| |]; rewrite Ec.
    - apply Forall_app. split; [eapply Forall_impl; [apply H1|exact Hmono]|]. constructor; [|constructor].
      split; [done|]. split; [apply elem_of_list_here|]. split; [done|]. cbn. intros v Hin. apply elem_of_list_singleton in Hin as ->.
      rewrite <- En. repeat split; try lia; apply Hb.
    - rewrite flat_app. cbn. by rewrite Permutation_app_comm.
  Qed.

  Lemma run_ok : 0 <= diff -> Forall (fun n => n <> -2) T -> forall tr pre s, T = pre ++ tr -> sd_ok (Z.of_nat (length pre)) s -> (length (sd_vec s) <= length pre)%nat ->
    exists s', sd_run diff minsz len s tr = Ok s' /\ sd_ok len s' /\ (length (sd_vec s') <= length T)%nat.
  Proof.
    intros Hd Hn. induction tr as [|next tr IH]; intros pre s E H L; cbn [sd_run].
    - exists s. rewrite app_nil_r in E. rewrite E. done.
    - assert (Hx : T !! length pre = Some next) by (rewrite E, lookup_app_r, Nat.sub_diag by lia; done).
      destruct (add_ok (Z.of_nat (length pre)) s next) as (s1 & E1 & H1 & L1); [done| | | |done|].
      + apply lookup_lt_Some in Hx. lia.
      + unfold next_of. by rewrite Nat2Z.id, Hx.
      + rewrite Forall_forall in Hn. apply Hn. by eapply elem_of_list_lookup_2.
      + rewrite E1. cbn [rbind]. apply (IH (pre ++ [next])); [by rewrite <- app_assoc| |rewrite app_length; cbn; lia].
        rewrite app_length. cbn [length]. replace (Z.of_nat (length pre + 1)) with (Z.of_nat (length pre) + 1) by lia. done.
  Qed.
End scan.
Lemma sd0_ok T diff minsz : sd_ok T diff minsz 0 sd0.
Proof. constructor; cbn; try done; try (by constructor); set_solver. Qed.

(** For every trace that says when objects are requested again, nothing aborts or is
    written out of bounds.  The number of scan requests is the number of marked ones;
    scan requests, other requests and the requests of the streams that are still
    open are all requests. *)
Theorem C85_account T diff minsz : 0 <= diff -> Forall (fun n => n <> -2) T -> exists s,
  sd_run diff minsz (Z.of_nat (length T)) sd0 T = Ok s /\
  sd_scan s = Z.of_nat (size (sd_marked s)) /\
  sd_scan s + sd_non s + Z.of_nat (length (concat (st_reqs <$> sd_vec s))) = Z.of_nat (length T).
Proof.
  intros Hd Hn. destruct (run_ok T diff minsz Hd Hn T [] sd0 eq_refl (sd0_ok _ _ _) (Nat.le_refl _)) as (s & E & H & _).
  exists s. split; [done|]. split; [apply H|apply (ok_sum _ _ _ _ _ H)].
Qed.
(** Every marked request is part of a scan of more than [minsz] requests, all of them
    marked. *)
Theorem C85_marked T diff minsz s v : 0 <= diff -> Forall (fun n => n <> -2) T ->
  sd_run diff minsz (Z.of_nat (length T)) sd0 T = Ok s -> v ∈ sd_marked s ->
  exists g, v ∈ g /\ (forall w, w ∈ g -> w ∈ sd_marked s) /\ minsz < Z.of_nat (length g) /\ scan T diff g.
Proof.
  intros Hd Hn E Hv. destruct (run_ok T diff minsz Hd Hn T [] sd0 eq_refl (sd0_ok _ _ _) (Nat.le_refl _)) as (s' & E' & H & _).
  rewrite E in E'. injection E' as <-. by apply (ok_groups _ _ _ _ _ H).
Qed.

Lemma mark_mono len l : forall m m', sd_mark len m l = Ok m' -> m' = list_to_set l ∪ m.
Proof.
  induction l as [|v l IH]; intros m m' E; cbn [sd_mark] in E; [injection E as <-; apply set_eq; set_solver|].
  destruct (decide _); [|done]. rewrite (IH _ _ E), list_to_set_cons. apply set_eq. set_solver.
Qed.
Lemma close_mono diff minsz len fuel : forall pos s s', sd_close diff minsz len fuel pos s = Ok s' -> sd_marked s ⊆ sd_marked s' /\ sd_sizes s `prefix_of` sd_sizes s'.
Proof.
  induction fuel as [|fuel IH]; intros pos s s' E; cbn [sd_close] in E; [done|].
  destruct (sd_vec s !! pos) as [st|]; [|injection E as <-; done]. destruct (decide _); [|by apply (IH (S pos))].
  destruct (decide (st_n st > minsz)).
  - destruct (sd_mark _ _ _) as [m|] eqn:Em; [|done]. cbn [rbind] in E. apply mark_mono in Em. destruct (sd_vec s !! _) as [lst|]; [|done].
    destruct (IH _ _ _ E) as [H1 H2]. cbn [sd_marked sd_sizes] in *. split; [set_solver|]. by eapply prefix_app_l.
  - cbn [rbind] in E. destruct (sd_vec s !! _) as [lst|]; [|done]. destruct (IH _ _ _ E) as [H1 H2]. cbn [sd_marked sd_sizes] in *. split; [done|]. by eapply prefix_app_l.
Qed.
(** When a request starts a new stream and there are [diff] - 1 streams or more, the
    oldest place in the list, if its stream has ended, is closed: its size is
    written to the file of sizes next, and if it is larger than [minsz] its requests
    are marked. *)
Theorem C85_closes diff minsz len s next st s' :
  next <> -1 -> next <> 2 ^ 63 - 1 ->
  (forall t, t ∈ sd_vec s -> is_part diff t (sd_cur s) next = false) ->
  Z.of_nat (length (sd_vec s)) >= diff - 1 -> head (sd_vec s) = Some st -> sd_cur s > st_start st + diff + st_n st ->
  sd_add diff minsz len s next = Ok s' ->
  (sd_sizes s ++ [st_n st]) `prefix_of` sd_sizes s' /\ (minsz < st_n st -> forall v, v ∈ st_reqs st -> v ∈ sd_marked s').
Proof.
  intros H1 H2 H3 H4 H5 H6 E. unfold sd_add in E. destruct (decide (next = -2)); [done|]. rewrite decide_False in E by tauto.
  assert (Ej : sd_join diff (sd_vec s) (sd_cur s) next = None).
  { clear -H3. induction (sd_vec s) as [|t l IH]; [done|]. cbn. rewrite H3 by apply elem_of_list_here. rewrite IH; [done|]. intros u Hu. apply H3. by apply elem_of_list_further. }
  rewrite Ej in E. rewrite decide_True in E by done. destruct (sd_close _ _ _ _ _ _) as [s1|] eqn:Ec; [|done]. cbn [rbind] in E. injection E as <-. cbn [sd_sizes sd_marked].
  cbn [sd_close] in Ec. destruct (sd_vec s) as [|t l] eqn:Ev; [done|]. cbn in H5. injection H5 as ->. cbn [lookup list_lookup] in Ec. rewrite decide_True in Ec by done.
  destruct (decide (st_n st > minsz)) as [Hb|Hb].
  - destruct (sd_mark _ _ _) as [m|] eqn:Em; [|done]. cbn [rbind] in Ec. apply mark_mono in Em. destruct ((st :: l) !! (length (st :: l) - 1)%nat) as [lst|]; [|done].
    destruct (close_mono _ _ _ _ _ _ _ Ec) as [G1 G2]. cbn [sd_marked sd_sizes] in *. split; [done|]. intros _ v Hv. apply G1. rewrite Em. apply elem_of_union_l. by apply elem_of_list_to_set.
  - cbn [rbind] in Ec. destruct ((st :: l) !! (length (st :: l) - 1)%nat) as [lst|]; [|done].
    destruct (close_mono _ _ _ _ _ _ _ Ec) as [G1 G2]. cbn [sd_marked sd_sizes] in *. split; [done|]. lia.
Qed.
(** [C85_closes] in a state that a trace leads to. *)
Example C85_closes_ex : (let! s := sd_run 1 3 8 sd0 [100; 101; 102; 103; -1; -1; -1] in
  Ok (head (sd_vec s), sd_cur s, is_part 1 (mkStream 0 100 4 [0; 1; 2; 3]) 7 9000, length (sd_vec s))) = Ok (Some (mkStream 0 100 4 [0; 1; 2; 3]), 7, false, 1%nat).
Proof. vm_compute. reflexivity. Qed.

Definition zs (l : list Z) : Z := foldr Z.add 0 l.
Lemma zs_app l1 l2 : zs (l1 ++ l2) = zs l1 + zs l2.
Proof. unfold zs. induction l1 as [|x l1 IH]; cbn; [done|]. rewrite IH. lia. Qed.
Definition sized (minsz k : Z) (s : sdet) : Prop :=
  sd_scan s = zs (filter (fun n => minsz < n) (sd_sizes s)) /\ sd_non s = k + zs (filter (fun n => n <= minsz) (sd_sizes s)).
Lemma close_sized diff minsz len k fuel : forall pos s s', sd_close diff minsz len fuel pos s = Ok s' -> sized minsz k s -> sized minsz k s'.
Proof.
  induction fuel as [|fuel IH]; intros pos s s' E [H1 H2]; cbn [sd_close] in E; [done|].
  destruct (sd_vec s !! pos) as [st|]; [|injection E as <-; done]. destruct (decide _); [|by apply (IH (S pos) s)].
  destruct (decide (st_n st > minsz)).
  - destruct (sd_mark _ _ _) as [m|] eqn:Em; [|done]. cbn [rbind] in E. destruct (sd_vec s !! _) as [lst|]; [|done].
    apply (IH _ _ _ E). split; cbn [sd_scan sd_non sd_sizes]; rewrite filter_app, zs_app, filter_cons, filter_nil.
    + rewrite decide_True by lia. cbn. lia.
    + rewrite decide_False by lia. cbn. lia.
  - cbn [rbind] in E. destruct (sd_vec s !! _) as [lst|]; [|done]. apply (IH _ _ _ E). split; cbn [sd_scan sd_non sd_sizes]; rewrite filter_app, zs_app, filter_cons, filter_nil.
    + rewrite decide_False by lia. cbn. lia.
    + rewrite decide_True by lia. cbn. lia.
Qed.
(** The file of sizes has the size of every closed stream.  The scan requests are
    those of the streams larger than [minsz]; the other requests are those of the
    smaller ones and those whose object is not requested again. *)
Theorem C85_sizes T diff minsz len s : sd_run diff minsz len sd0 T = Ok s ->
  sd_scan s = zs (filter (fun n => minsz < n) (sd_sizes s)) /\
  sd_non s = Z.of_nat (length (filter (fun n => n = -1 \/ n = 2 ^ 63 - 1) T)) + zs (filter (fun n => n <= minsz) (sd_sizes s)).
Proof.
  intros E.
  assert (G : forall tr s0 k, sd_run diff minsz len s0 tr = Ok s -> sized minsz k s0 -> sized minsz (k + Z.of_nat (length (filter (fun n => n = -1 \/ n = 2 ^ 63 - 1) tr))) s).
  { clear E. induction tr as [|n tr IH]; intros s0 k E H; cbn [sd_run] in E; [injection E as ->; cbn; by rewrite Z.add_0_r|].
    destruct (sd_add _ _ _ _ _) as [s1|] eqn:Ea; [|done]. cbn [rbind] in E. rewrite filter_cons. unfold sd_add in Ea.
    destruct (decide (n = -2)); [done|]. destruct (decide (n = -1 \/ n = 2 ^ 63 - 1)) as [Hg|Hg].
    - injection Ea as <-. cbn [length]. replace (k + Z.of_nat (S _)) with (k + 1 + Z.of_nat (length (filter (fun n => n = -1 \/ n = 2 ^ 63 - 1) tr))) by lia.
      apply (IH _ _ E). destruct H as [H1 H2]. split; cbn [sd_scan sd_non sd_sizes]; [done|lia].
    - apply (IH _ _ E). destruct (sd_join _ _ _ _) as [vec|]; [injection Ea as <-; exact H|].
      destruct (decide (Z.of_nat (length (sd_vec s0)) >= diff - 1)).
      + destruct (sd_close _ _ _ _ _ _) as [s2|] eqn:Ec; [|done]. cbn [rbind] in Ea. injection Ea as <-. exact (close_sized _ _ _ _ _ _ _ _ Ec H).
      + cbn [rbind] in Ea. injection Ea as <-. exact H. }
  destruct (G T sd0 0 E ltac:(split; done)) as [H1 H2]. split; [done|]. by rewrite Z.add_0_l in H2.
Qed.

(** No scan is found as long as there are fewer streams than [diff] - 1: streams are
    only closed when there are that many.  In particular for every trace shorter
    than that, whatever it holds. *)
Theorem C85_short_refuted T diff minsz : Forall (fun n => n <> -2) T -> Z.of_nat (length T) <= diff - 1 -> exists s,
  sd_run diff minsz (Z.of_nat (length T)) sd0 T = Ok s /\ sd_scan s = 0 /\ sd_marked s = ∅.
Proof.
  intros Hn Hl. set (len := Z.of_nat (length T)) in *.
  assert (G : forall tr s, Forall (fun n => n <> -2) tr -> sd_scan s = 0 -> sd_marked s = ∅ -> Z.of_nat (length (sd_vec s)) + Z.of_nat (length tr) <= diff - 1 ->
    exists s', sd_run diff minsz len s tr = Ok s' /\ sd_scan s' = 0 /\ sd_marked s' = ∅).
  { clear. induction tr as [|n tr IH]; intros s Hn H1 H2 H3; cbn [sd_run]; [eauto|]. inversion Hn; subst. cbn [length] in H3.
    unfold sd_add. rewrite decide_False by done. destruct (decide (n = -1 \/ n = 2 ^ 63 - 1)); [cbn [rbind]; apply IH; cbn; done || lia|].
    destruct (sd_join diff (sd_vec s) (sd_cur s) n) as [vec|] eqn:Ej.
    - cbn [rbind]. apply IH; cbn [sd_scan sd_marked sd_vec]; try done.
      assert (length vec = length (sd_vec s)); [|lia]. clear -Ej. revert vec Ej. induction (sd_vec s) as [|x l IHl]; intros vec E; cbn in E; [done|].
      destruct (is_part _ _ _ _); [injection E as <-; done|]. destruct (sd_join diff l _ _) as [v1|]; [|done]. injection E as <-. cbn. by rewrite (IHl v1).
    - rewrite decide_False by lia. cbn [rbind]. apply IH; cbn [sd_scan sd_marked sd_vec]; try done. rewrite app_length. cbn. lia. }
  apply G; [done|done|done|]. cbn. unfold len in Hl. lia.
Qed.
(** A scan at the end of the trace: twelve objects are requested one after the other,
    and again later; with the limits 2 and 10 neither part of the sum is reported as
    a scan, though the first twelve are one. *)
Theorem C85_tail_refuted : exists T s, Forall (fun n => n <> -2) T /\ scan T 2 (seqZ 0 12) /\
  sd_run 2 10 (Z.of_nat (length T)) sd0 T = Ok s /\ sd_scan s = 0 /\ sd_non s = 0 /\ length T = 12%nat.
Proof.
  exists (seqZ 12 12). eexists. split; [apply Forall_forall; intros n Hn; apply elem_of_seqZ in Hn; lia|]. split.
  - split; [apply NoDup_seqZ|]. exists 0. split; [apply elem_of_seqZ; lia|]. intros v Hv. apply elem_of_seqZ in Hv.
    assert (v = 0 \/ v = 1 \/ v = 2 \/ v = 3 \/ v = 4 \/ v = 5 \/ v = 6 \/ v = 7 \/ v = 8 \/ v = 9 \/ v = 10 \/ v = 11) as Hk by lia.
    clear Hv. repeat (destruct Hk as [->|Hk]; [vm_compute; repeat split; intros; congruence|]). subst. vm_compute. repeat split; intros; congruence.
  - split; [vm_compute; reflexivity|]. by vm_compute.
Qed.
(** A trace with a scan that is found: 4 requests, then others. *)
Example C85_ex : let T := [100; 101; 102; 103; 9000; -1; -1; -1; -1; -1; 5000; -1] in
  Forall (fun n => n <> -2) T /\
  (let! s := sd_run 1 3 12 sd0 T in Ok (sd_scan s, sd_non s, elements (sd_marked s), length (sd_vec s))) = Ok (4, 6, [0; 1; 2; 3], 2%nat).
Proof. split; [repeat constructor; lia|]. vm_compute. reflexivity. Qed.
