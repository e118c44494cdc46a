(** The search on the ring finds the nearest point clockwise; the walk from it
    meets the servers in order. *)
From stdpp Require Import gmap list numbers fin_maps.
From Verif Require Import Base Driver ModelPrefetch ModelRing SpecCluster.
Open Scope Z_scope.

(** ** The search *)
Section Search.
  Context (g : ring) (vs : list vnode) (h : Z).
  Hypothesis (Hvs : rg_vn g = Some <$> vs) (Hlen : Z.of_nat (length vs) = n_point g).
  Hypothesis (Hsort : forall i j v w, (i <= j)%nat -> vs !! i = Some v -> vs !! j = Some w -> vn_point v <= vn_point w).

  Lemma at_ok i : 0 <= i < n_point g -> exists v, vs !! Z.to_nat i = Some v /\ vn_at g i = Ok v.
  Proof using Hvs Hlen.
    intros Hi. destruct (lookup_lt_is_Some_2 vs (Z.to_nat i) ltac:(lia)) as [v Hv]. exists v. split; [done|].
    unfold vn_at. rewrite decide_False by lia. by rewrite Hvs, list_lookup_fmap, Hv.
  Qed.

  (** the first vnode at or after [h]; the first of all if there is none *)
  Definition found (i : Z) : Prop :=
    0 <= i < n_point g /\ (forall j v, vs !! j = Some v -> Z.of_nat j < i -> vn_point v < h) /\
    ((exists v, vs !! Z.to_nat i = Some v /\ h <= vn_point v) \/ (i = 0 /\ forall j v, vs !! j = Some v -> vn_point v < h)).

  Lemma loop_ok fuel : forall low high, 0 < n_point g -> 0 <= low <= high -> high <= n_point g ->
    high - low <= Z.of_nat fuel ->
    (forall j v, vs !! j = Some v -> Z.of_nat j < low -> vn_point v < h) ->
    (high < n_point g -> exists v, vs !! Z.to_nat high = Some v /\ h <= vn_point v) ->
    exists i, idx_loop fuel g h low high = Ok i /\ found i.
  Proof using Hvs Hlen Hsort.
    induction fuel as [|fuel IH]; intros low high Hn Hlh Hh Hf Hlow Hhigh; cbn [idx_loop];
      rewrite Z.quot_div_nonneg by lia; set (mid := (low + high) / 2);
      assert (Hmid : low <= mid <= high) by (unfold mid; split; [apply Z.div_le_lower_bound|apply Z.div_le_upper_bound]; lia).
    all: destruct (decide (mid = n_point g)) as [Em|Em].
    1,3: exists 0; split; [done|]; split; [lia|]; split; [lia|]; right; split; [done|];
         intros j v Hv; apply (Hlow j v Hv); apply lookup_lt_Some in Hv; 
         assert (low = n_point g) by (unfold mid in Em; assert (low + high < 2 * (n_point g) -> (low + high) / 2 < n_point g) by (intros; apply Z.div_lt_upper_bound; lia); lia);
         lia.
    all: destruct (at_ok mid ltac:(lia)) as (v & Hv & ->); cbn [rbind].
    all: assert (Hprev : exists p1, (if decide (mid = 0) then Ok 0 else let! w := vn_at g (mid - 1) in Ok (vn_point w)) = Ok p1 /\
        (mid = 0 /\ p1 = 0 \/ 0 < mid /\ exists w, vs !! Z.to_nat (mid - 1) = Some w /\ p1 = vn_point w)).
    1,3: destruct (decide (mid = 0)) as [E0|E0];
         [by exists 0; auto|destruct (at_ok (mid - 1) ltac:(lia)) as (w & Hw & ->); cbn [rbind]; exists (vn_point w); split; [done|right; split; [lia|eauto]]].
    all: destruct Hprev as (p1 & -> & Hp1); cbn [rbind].
    all: destruct (decide (h <= vn_point v /\ h > p1)) as [[H1 H2]|Hno].
    1,3: exists mid; split; [done|]; split; [lia|]; split; [|left; eauto];
         intros j w Hw Hj; destruct Hp1 as [[-> _]|(Hm & w1 & Hw1 & ->)]; [lia|];
         assert (vn_point w <= vn_point w1) by (eapply (Hsort j (Z.to_nat (mid - 1))); [lia|done|done]); lia.
    all: destruct (decide (vn_point v < h)) as [Hlt|Hge]; cbn beta iota.
    - (* fuel 0: low = high, point < h *)
      assert (low = high) by lia. assert (mid = low) by lia. subst low. rewrite decide_True by lia.
      exfalso. destruct (Hhigh ltac:(lia)) as (w & Hw & Hw'). replace (Z.to_nat high) with (Z.to_nat mid) in Hw by lia.
      rewrite Hv in Hw. injection Hw as <-. lia.
    - assert (low = high) by lia. assert (mid = low) by lia. subst low. rewrite decide_True by lia.
      destruct Hp1 as [[E0 ->]|(Hm & w1 & Hw1 & ->)].
      + exists 0. split; [done|]. split; [lia|]. split; [lia|]. left. rewrite <- E0. exists v. split; [done|lia].
      + exfalso. assert (vn_point w1 < h) by (eapply Hlow; [exact Hw1|lia]). lia.
    - (* point < h *)
      destruct (decide (mid + 1 > high)) as [Hgt|Hle].
      + exfalso. assert (mid = high) by lia. destruct (Hhigh ltac:(lia)) as (w & Hw & Hw').
        replace (Z.to_nat high) with (Z.to_nat mid) in Hw by lia. rewrite Hv in Hw. injection Hw as <-. lia.
      + apply IH; try lia; try done. intros j w Hw Hj.
        assert (vn_point w <= vn_point v) by (eapply (Hsort j (Z.to_nat mid)); [lia|done|done]). lia.
    - destruct (decide (low > mid - 1)) as [Hgt|Hle].
      + destruct Hp1 as [[E0 ->]|(Hm & w1 & Hw1 & ->)].
        * exists 0. split; [done|]. split; [lia|]. split; [lia|]. left. rewrite <- E0. exists v. split; [done|lia].
        * exfalso. assert (vn_point w1 < h) by (eapply Hlow; [exact Hw1|lia]). lia.
      + apply IH; try lia; try done. intros _. destruct Hp1 as [[E0 _]|(Hm & w1 & Hw1 & ->)]; [lia|]. exists w1. split; [done|lia].
  Qed.

  Hypothesis (Hb : forall v, v ∈ vs -> 0 <= vn_point v < 2 ^ 32) (Hh : 0 <= h < 2 ^ 32).

  Lemma dist_ge p : 0 <= p < 2 ^ 32 -> h <= p -> dist h p = p - h.
  Proof using Hh. clear Hb Hsort Hlen Hvs vs. intros. unfold dist. apply Z.mod_small. lia. Qed.
  Lemma dist_lt p : 0 <= p < 2 ^ 32 -> p < h -> dist h p = p - h + 2 ^ 32.
  Proof using Hh. clear Hb Hsort Hlen Hvs vs. intros. unfold dist. rewrite <- (Z.mod_add _ 1) by lia. rewrite Z.mod_small; lia. Qed.

  (** from the vnode that was found on, the distance does not fall *)
  Lemma dist_mono i k k' v v' : found i -> 0 <= k <= k' -> k' < n_point g ->
    vs !! Z.to_nat ((i + k) mod n_point g) = Some v -> vs !! Z.to_nat ((i + k') mod n_point g) = Some v' ->
    dist h (vn_point v) <= dist h (vn_point v').
  Proof using Hlen Hsort Hb Hh.
    intros (Hi & Hbefore & Hat) Hk Hk' Hv Hv'.
    pose proof (Hb v ltac:(by eapply elem_of_list_lookup_2)) as Bv. pose proof (Hb v' ltac:(by eapply elem_of_list_lookup_2)) as Bv'.
    assert (Hmod : forall x, 0 <= x < n_point g -> (i + x) mod n_point g = i + x /\ i + x < n_point g \/
                                                  (i + x) mod n_point g = i + x - n_point g /\ n_point g <= i + x).
    { intros x Hx. destruct (decide (i + x < n_point g)).
      - left. rewrite Z.mod_small by lia. lia.
      - right. rewrite <- (Z.mod_add _ (-1)) by lia. rewrite Z.mod_small by lia. lia. }
    destruct Hat as [(w & Hw & Hhw)|[-> Hall]].
    - assert (Hafter : forall j u, vs !! j = Some u -> i <= Z.of_nat j -> h <= vn_point u).
      { intros j u Hu Hj. assert (vn_point w <= vn_point u) by (eapply (Hsort (Z.to_nat i) j); [lia|done|done]). lia. }
      destruct (Hmod k ltac:(lia)) as [[E1 L1]|[E1 L1]]; destruct (Hmod k' ltac:(lia)) as [[E2 L2]|[E2 L2]]; rewrite E1 in Hv; rewrite E2 in Hv'.
      + rewrite !dist_ge; [|done|eapply Hafter; [exact Hv'|lia]|done|eapply Hafter; [exact Hv|lia]].
        assert (vn_point v <= vn_point v') by (eapply Hsort; [|exact Hv|exact Hv']; lia). lia.
      + rewrite (dist_ge (vn_point v)), (dist_lt (vn_point v')); [lia|done|eapply Hbefore; [exact Hv'|lia]|done|eapply Hafter; [exact Hv|lia]].
      + lia.
      + rewrite !dist_lt; [|done|eapply Hbefore; [exact Hv'|lia]|done|eapply Hbefore; [exact Hv|lia]].
        assert (vn_point v <= vn_point v') by (eapply Hsort; [|exact Hv|exact Hv']; lia). lia.
    - rewrite !Z.add_0_l, !Z.mod_small in * by lia.
      rewrite !dist_lt; [|done|by eapply Hall|done|by eapply Hall].
      assert (vn_point v <= vn_point v') by (eapply Hsort; [|exact Hv|exact Hv']; lia). lia.
  Qed.

  (** every vnode is met on the way round *)
  Lemma met i v : found i -> v ∈ vs -> exists k, 0 <= k < n_point g /\ vs !! Z.to_nat ((i + k) mod n_point g) = Some v.
  Proof using Hlen.
    intros (Hi & _) Hv. apply elem_of_list_lookup in Hv as (j & Hj). pose proof (lookup_lt_Some _ _ _ Hj) as Hl.
    exists ((Z.of_nat j - i) mod n_point g). split; [apply Z.mod_pos_bound; lia|].
    rewrite Z.add_mod_idemp_r by lia. replace (i + (Z.of_nat j - i)) with (Z.of_nat j) by lia.
    rewrite Z.mod_small by lia. by rewrite Nat2Z.id.
  Qed.

  (** ** The walk *)
  Definition free (chosen : list bool) (v : vnode) : Prop := v ∈ vs /\ chosen !! vn_server v = Some false.
  Definition frees (chosen : list bool) : nat := length (filter (eq false) chosen).

  Lemma frees_insert chosen s : chosen !! s = Some false -> frees chosen = S (frees (<[s := true]> chosen)).
  Proof.
    unfold frees. revert s. induction chosen as [|c chosen IH]; intros s Hs; [done|]. destruct s as [|s]; cbn in Hs.
    - injection Hs as ->. rewrite filter_cons_True by done. cbn [insert list_insert]. by rewrite filter_cons_False.
    - change (<[S s := true]> (c :: chosen)) with (c :: <[s := true]> chosen).
      destruct (decide (false = c)); [rewrite !filter_cons_True by done; cbn [length]; f_equal; auto|rewrite !filter_cons_False by done; auto].
  Qed.

  Lemma frees_pos chosen : frees chosen <> 0%nat -> exists s, chosen !! s = Some false.
  Proof.
    unfold frees. intros H. destruct (filter (eq false) chosen) as [|b l] eqn:E; [done|].
    assert (Hin : b ∈ filter (eq false) chosen) by (rewrite E; left).
    apply elem_of_list_filter in Hin as [<- Hin]. by apply elem_of_list_lookup in Hin.
  Qed.

  Lemma chain_ext V V' n l : (forall v, V v <-> V' v) -> chain h V n l -> chain h V' n l.
  Proof.
    intros HV Hc. revert V' HV. induction Hc as [|V n s l (p & Hp & Hmin) Hc IH]; intros V' HV; [constructor|].
    constructor.
    - exists p. split; [by apply HV|]. intros v Hv. apply Hmin. by apply HV.
    - apply IH. intros v. by rewrite HV.
  Qed.

  Lemma walk_ok i : found i -> forall fuel pos n chosen acc,
    length chosen = rg_n g -> (forall v, v ∈ vs -> (vn_server v < rg_n g)%nat) ->
    (forall s, (s < rg_n g)%nat -> exists v, v ∈ vs /\ vn_server v = s) ->
    0 <= pos <= n_point g -> n_point g - pos <= Z.of_nat fuel ->
    (forall k v, 0 <= k < pos -> vs !! Z.to_nat ((i + k) mod n_point g) = Some v -> chosen !! vn_server v = Some true) ->
    ((n <= frees chosen)%nat -> exists l, walk fuel g i pos n chosen acc = Ok (acc ++ l) /\ chain h (free chosen) n l) /\
    ((frees chosen < n)%nat -> walk fuel g i pos n chosen acc = Err AssertFail).
  Proof using Hvs Hlen Hsort Hb Hh.
    intros Hi. pose proof Hi as (Hi0 & _).
    induction fuel as [|fuel IH]; intros pos n chosen acc Hc Hsv Hex Hpos Hf Hdone.
    all: assert (Hall : pos = n_point g -> frees chosen = 0%nat).
    1,3: intros ->; destruct (decide (frees chosen = 0%nat)) as [|Hne]; [done|exfalso];
      destruct (frees_pos _ Hne) as (s & Hs); destruct (Hex s) as (v & Hv & <-); [rewrite <- Hc; by eapply lookup_lt_Some|];
      destruct (met i v Hi Hv) as (k & Hk & Hkv); rewrite (Hdone k v Hk Hkv) in Hs; done.
    all: destruct n as [|n]; [split; [intros _; exists []; rewrite app_nil_r; split; [done|constructor]|lia]|].
    all: cbn [walk]; rewrite decide_False by lia;
      destruct (at_ok ((i + pos) mod n_point g)) as (v & Hv & ->); [apply Z.mod_pos_bound; lia|]; cbn [rbind];
      destruct (lookup_lt_is_Some_2 chosen (vn_server v)) as [c Hcv]; [rewrite Hc; apply Hsv; by eapply elem_of_list_lookup_2|]; rewrite Hcv.
    - assert (pos = n_point g) by lia. rewrite decide_True by lia. rewrite Hall by done. split; [lia|done].
    - destruct (decide (n_point g < pos + 1)) as [Hend|Hgo].
      { rewrite Hall by lia. split; [lia|done]. }
      destruct c.
      + apply IH; try done; try lia. intros k w Hk Hw. destruct (decide (k = pos)) as [->|]; [|apply (Hdone k); [lia|done]].
        rewrite Hv in Hw. by injection Hw as <-.
      + pose proof (frees_insert _ _ Hcv) as Hfr. rewrite Hfr.
        destruct (IH (pos + 1) n (<[vn_server v := true]> chosen) (acc ++ [vn_server v])) as [IH1 IH2];
          [by rewrite insert_length|done|done|lia|lia| |].
        { intros k w Hk Hw. destruct (decide (vn_server w = vn_server v)) as [->|Hne].
          - apply list_lookup_insert. by eapply lookup_lt_Some.
          - rewrite list_lookup_insert_ne by done. destruct (decide (k = pos)) as [->|]; [|apply (Hdone k); [lia|done]].
            rewrite Hv in Hw. injection Hw as <-. done. }
        split; [|intros; apply IH2; lia]. intros Hn. destruct IH1 as (l & -> & Hl); [lia|].
        exists (vn_server v :: l). rewrite <- app_assoc. split; [done|]. constructor.
        * exists (vn_point v). split; [destruct v; split; [by eapply elem_of_list_lookup_2|done]|].
          intros w [Hw Hwf]. destruct (met i w Hi Hw) as (k & Hk & Hkw).
          eapply dist_mono; [exact Hi| |apply Hk|exact Hv|exact Hkw].
          split; [lia|]. destruct (decide (k < pos)); [|lia]. rewrite (Hdone k w ltac:(lia) Hkw) in Hwf. done.
        * eapply chain_ext; [|exact Hl]. intros w. unfold free. destruct (decide (vn_server w = vn_server v)) as [E|Hne].
          -- rewrite E, list_lookup_insert by (by eapply lookup_lt_Some). split; [by intros []|intros [_ []]; done].
          -- rewrite list_lookup_insert_ne by done. tauto.
  Qed.
End Search.

(** ** The ring that is built *)
Section Build.
  Context (digest : list Z -> list Z) (sort : list vnode -> list vnode).
  Hypothesis (Hd : byte_digest digest) (Hs : sorts sort).

  Lemma word_range key j : 0 <= word (digest key) j < 2 ^ 32.
  Proof using Hd.
    assert (Hb : forall i, 0 <= default 0 (digest key !! i) < 256).
    { intros i. destruct (digest key !! i) as [b|] eqn:E; cbn; [|lia]. eapply (Forall_lookup_1 _ _ _ _ (Hd key) E). }
    unfold word. pose proof (Hb (0 + j * 4)%nat). pose proof (Hb (1 + j * 4)%nat). pose proof (Hb (2 + j * 4)%nat). pose proof (Hb (3 + j * 4)%nat). lia.
  Qed.

  Lemma server_points_in i ks v : v ∈ server_points digest i ks <->
    exists k j, (k < ks)%nat /\ (j < 4)%nat /\ v = mkVn (word (digest (dec i ++ [45] ++ dec k)) j) i.
  Proof.
    unfold server_points. rewrite elem_of_list_bind. split.
    - intros (k & Hv & Hk). apply elem_of_list_bind in Hv as (j & Hv & Hj). apply elem_of_list_singleton in Hv as ->.
      apply elem_of_seq in Hk. apply elem_of_seq in Hj. exists k, j. repeat split; lia.
    - intros (k & j & Hk & Hj & ->). exists k. split; [|apply elem_of_seq; lia]. apply elem_of_list_bind. exists j.
      split; [by left|apply elem_of_seq; lia].
  Qed.

  Lemma server_points_len i ks : length (server_points digest i ks) = (4 * ks)%nat.
  Proof.
    unfold server_points. rewrite <- (seq_length ks 0) at 2. induction (seq 0 ks) as [|k l IH]; [done|].
    cbn [mbind list_bind]. rewrite app_length. cbn [length] in *. rewrite IH. cbn. lia.
  Qed.

  Lemma all_points_in kss : forall i v, v ∈ all_points digest i kss <->
    exists ks k j, (i <= vn_server v)%nat /\ kss !! (vn_server v - i)%nat = Some ks /\ (k < ks)%nat /\ (j < 4)%nat /\
      vn_point v = word (digest (dec (vn_server v) ++ [45] ++ dec k)) j.
  Proof.
    induction kss as [|ks kss IH]; intros i v; cbn [all_points].
    - split; [by intros ?%elem_of_nil|]. intros (? & ? & ? & _ & ? & _). done.
    - rewrite elem_of_app, server_points_in, IH. split.
      + intros [(k & j & Hk & Hj & ->)|(ks' & k & j & Hi & Hks & Hk)].
        * exists ks, k, j. cbn. by rewrite Nat.sub_diag.
        * exists ks', k, j. split; [lia|]. replace (vn_server v - i)%nat with (S (vn_server v - S i)) by lia. by cbn.
      + intros (ks' & k & j & Hi & Hks & Hk & Hj & Hp). destruct (decide (vn_server v = i)) as [E|Hne].
        * left. rewrite E, Nat.sub_diag in Hks. cbn in Hks. injection Hks as ->. exists k, j. destruct v; cbn in *; subst. done.
        * right. exists ks', k, j. split; [lia|]. replace (vn_server v - i)%nat with (S (vn_server v - S i)) in Hks by lia. by cbn in Hks.
  Qed.

  Lemma placed_in kss v : v ∈ all_points digest 0 kss <-> placed digest kss v.
  Proof.
    rewrite all_points_in. unfold placed. rewrite Nat.sub_0_r. split; intros (ks & k & j & H); exists ks, k, j; [tauto|].
    split; [lia|tauto].
  Qed.

  Lemma all_points_len kss : forall i, length (all_points digest i kss) = (4 * sum_list kss)%nat.
  Proof. induction kss as [|ks kss IH]; intros i; [done|]. cbn [all_points sum_list]. unfold sum_list. cbn [sum_list_with]. rewrite app_length, server_points_len, IH. unfold sum_list. cbn. lia. Qed.

  Definition ring_of (kss : list nat) : ring := mkRing (length kss) (Some <$> sort (all_points digest 0 kss)).

  Lemma create_full kss : full kss -> ring_create digest sort kss = Ok (ring_of kss).
  Proof.
    unfold full. intros Hf. unfold ring_create. rewrite all_points_len. rewrite decide_True by (unfold n_vnode; lia).
    unfold ring_of. replace (length kss * n_vnode - 4 * sum_list kss)%nat with 0%nat by (unfold n_vnode; lia). cbn [replicate]. by rewrite app_nil_r.
  Qed.

  Section One.
    Context (kss : list nat).
    Hypothesis (Hf : full kss).
    Let vs := sort (all_points digest 0 kss).
    Let g := ring_of kss.

    Lemma vs_in v : v ∈ vs <-> placed digest kss v.
    Proof using Hs. unfold vs. rewrite <- placed_in. destruct (Hs (all_points digest 0 kss)) as [-> _]. done. Qed.
    Lemma vs_len : Z.of_nat (length vs) = n_point g.
    Proof using Hs Hf.
      unfold vs. destruct (Hs (all_points digest 0 kss)) as [-> _]. rewrite all_points_len. unfold full in Hf.
      unfold n_point, n_vnode, g, ring_of. cbn [rg_n]. lia.
    Qed.
    Lemma vs_sorted i j v w : (i <= j)%nat -> vs !! i = Some v -> vs !! j = Some w -> vn_point v <= vn_point w.
    Proof using Hs. unfold vs. destruct (Hs (all_points digest 0 kss)) as [_ H]. apply H. Qed.
    Lemma placed_range v : placed digest kss v -> 0 <= vn_point v < 2 ^ 32.
    Proof using Hd. intros (ks & k & j & _ & _ & _ & ->). apply word_range. Qed.
    Lemma placed_lt v : placed digest kss v -> (vn_server v < length kss)%nat.
    Proof using. clear vs g. intros (ks & k & j & H & _). by eapply lookup_lt_Some. Qed.
    Lemma vs_range v : v ∈ vs -> 0 <= vn_point v < 2 ^ 32.
    Proof using Hd Hs. rewrite vs_in. apply placed_range. Qed.

    Lemma idx_ok key : kss <> [] -> exists i, vnode_idx digest g key = Ok i /\ found g vs (ketama_hash digest key) i.
    Proof using Hs Hf.
      intros Hne. unfold vnode_idx. assert (0 < n_point g).
      { unfold n_point, g, ring_of, n_vnode. cbn [rg_n]. destruct kss; [done|cbn; lia]. }
      apply (loop_ok g vs _ eq_refl vs_len vs_sorted); try lia.
    Qed.

    Lemma server_ok key : kss <> [] -> exists s, get_server digest g key = Ok s /\ owns (placed digest kss) (ketama_hash digest key) s.
    Proof using Hs Hf Hd.
      intros Hne. destruct (idx_ok key Hne) as (i & Hi & Hfound). unfold get_server. rewrite Hi. cbn [rbind].
      pose proof Hfound as (Hi0 & _). destruct (at_ok g vs eq_refl vs_len i Hi0) as (v & Hv & ->). cbn [rbind].
      exists (vn_server v). split; [done|]. exists (vn_point v). split.
      - apply vs_in. destruct v. by eapply elem_of_list_lookup_2.
      - intros w Hw. apply vs_in in Hw. destruct (met g vs _ vs_len i w Hfound Hw) as (k & Hk & Hkw).
        eapply (dist_mono g vs _ vs_len vs_sorted vs_range (word_range key 0) i 0 k); [done|lia|lia| |done].
        by rewrite Z.add_0_r, Z.mod_small.
    Qed.

    Lemma available_ok key n un : kss <> [] -> Forall (fun ks => 0 < ks)%nat kss -> length un = length kss ->
      ((n <= frees un)%nat -> exists l, get_available digest g key n un = Ok l /\
         chain (ketama_hash digest key) (fun v => placed digest kss v /\ un !! vn_server v = Some false) n l) /\
      ((frees un < n)%nat -> get_available digest g key n un = Err AssertFail).
    Proof using Hs Hf Hd.
      intros Hne Hpos Hun. destruct (idx_ok key Hne) as (i & Hi & Hfound). unfold get_available. rewrite Hi. cbn [rbind].
      assert (0 < n_point g) by (destruct Hfound; lia).
      destruct (walk_ok g vs _ eq_refl vs_len vs_sorted vs_range (word_range key 0) i Hfound (Z.to_nat (n_point g)) 0 n un []) as [H1 H2];
        [by rewrite Hun| | |lia|lia|lia|].
      - intros v Hv. apply vs_in in Hv. by apply placed_lt in Hv.
      - intros s Hlt. destruct (lookup_lt_is_Some_2 kss s Hlt) as [ks Hks]. pose proof (Forall_lookup_1 _ _ _ _ Hpos Hks) as Hk. cbn in Hk.
        exists (mkVn (word (digest (dec s ++ [45] ++ dec 0)) 0) s). split; [|done]. apply vs_in. exists ks, 0%nat, 0%nat. repeat split; [done|lia|lia].
      - split; [|done]. intros Hn. destruct (H1 Hn) as (l & -> & Hl). exists l. split; [done|].
        eapply chain_ext; [|exact Hl]. intros v. unfold free. by rewrite vs_in.
    Qed.
  End One.

  (** *** Growing the ring *)
  Lemma placed_snoc kss k v : placed digest (kss ++ [k]) v -> placed digest kss v \/ vn_server v = length kss.
  Proof using.
    intros (ks & i & j & Hk & H). apply lookup_app_Some in Hk as [Hk|[Hl Hk]]; [left; by exists ks, i, j|right].
    apply list_lookup_singleton_Some in Hk as [Hk _]. lia.
  Qed.
  Lemma placed_app kss k v : placed digest kss v -> placed digest (kss ++ [k]) v.
  Proof using. intros (ks & i & j & Hk & H). exists ks, i, j. split; [by apply lookup_app_l_Some|done]. Qed.

  Lemma dist_inj h p p' : 0 <= h < 2 ^ 32 -> 0 <= p < 2 ^ 32 -> 0 <= p' < 2 ^ 32 -> dist h p = dist h p' -> p = p'.
  Proof using.
    intros Hh Hp Hp'.
    assert (Hq : forall q, 0 <= q < 2 ^ 32 -> h <= q /\ dist h q = q - h \/ q < h /\ dist h q = q - h + 2 ^ 32).
    { intros q Hq. destruct (decide (h <= q)); [left; split; [done|by apply dist_ge]|right; split; [lia|apply dist_lt; [done|done|lia]]]. }
    destruct (Hq p Hp) as [[? ->]|[? ->]]; destruct (Hq p' Hp') as [[? ->]|[? ->]]; lia.
  Qed.

  Lemma owns_unique (V : vnode -> Prop) h s s' : (forall v, V v -> 0 <= vn_point v < 2 ^ 32) -> 0 <= h < 2 ^ 32 -> apart V -> owns V h s -> owns V h s' -> s = s'.
  Proof using.
    intros Hr Hh Ha (p & Hp & Hmin) (p' & Hp' & Hmin'). apply (Ha _ _ Hp Hp'). cbn.
    apply (dist_inj h); [done|apply (Hr _ Hp)|apply (Hr _ Hp')|]. pose proof (Hmin _ Hp'). pose proof (Hmin' _ Hp). cbn in *. lia.
  Qed.

  Lemma grow_owner kss k h s s' : 0 <= h < 2 ^ 32 -> apart (placed digest (kss ++ [k])) ->
    owns (placed digest kss) h s -> owns (placed digest (kss ++ [k])) h s' -> s' = s \/ s' = length kss.
  Proof using Hd.
    intros Hh Ha (p & Hp & Hmin) (p' & Hp' & Hmin'). destruct (placed_snoc _ _ _ Hp') as [Hold|Hnew]; [|by right]. left.
    apply (Ha _ _ Hp' (placed_app _ _ _ Hp)). cbn. apply (dist_inj h); [done|apply (placed_range _ _ Hp')|apply (placed_range _ _ Hp)|].
    pose proof (Hmin _ Hold). pose proof (Hmin' _ (placed_app _ k _ Hp)). cbn in *. lia.
  Qed.
End Build.
