(** C66 and C67: the consistent hash ring and the cluster of cache servers. *)
From stdpp Require Import gmap list numbers fin_maps sorting.
From Verif Require Import Base Driver Abs AbsFacts Sim SpecApi ApiFacts ModelQueue QueueFacts SimQueue PropsCore ModelPrefetch
  ModelRing SpecCluster ClusterFacts ClusterRun ModelMD5 SpecMD5 MD5Facts PropsMD5.
Open Scope Z_scope.

Ltac vmr := vm_compute; reflexivity.

(** A sort for the examples: merge sort by point. *)
Definition le_pt (a b : vnode) : Prop := vn_point a <= vn_point b.
Global Instance le_pt_dec a b : Decision (le_pt a b) := Z_le_dec _ _.
Definition msort (l : list vnode) : list vnode := merge_sort le_pt l.

Lemma strongly_at (R : vnode -> vnode -> Prop) l : (forall x, R x x) -> StronglySorted R l ->
  forall i j v w, (i <= j)%nat -> l !! i = Some v -> l !! j = Some w -> R v w.
Proof.
  intros Hr. induction 1 as [|x l Hl IH HF]; intros i j v w Hij Hi Hj; [done|].
  destruct i as [|i], j as [|j]; cbn in Hi, Hj.
  - injection Hi as <-. injection Hj as <-. apply Hr.
  - injection Hi as <-. exact (Forall_lookup_1 _ _ _ _ HF Hj).
  - lia.
  - eapply (IH i j); [lia|done|done].
Qed.

Lemma msort_sorts : sorts msort.
Proof.
  intros l. split; [apply merge_sort_Permutation|].
  assert (Ht : Transitive le_pt) by (intros x y z; unfold le_pt; lia).
  assert (Hto : Total le_pt) by (intros x y; unfold le_pt; lia).
  intros i j v w Hij. apply (strongly_at le_pt); [intros x; unfold le_pt; lia| |done]. by apply StronglySorted_merge_sort.
Qed.

Lemma md5_bytes : byte_digest rfc_md5.
Proof. intros key. apply C68_sixteen_bytes. Qed.

(** ** C66: the ring *)
Section Ring.
  Context (digest : list Z -> list Z) (sort : list vnode -> list vnode) (Hd : byte_digest digest) (Hs : sorts sort).
  (** the place of a key on the circle *)
  Notation hash key := (word (digest key) 0).

  (** The search ends, touches no slot outside the array and none that was not
      written, and gives the server of the first point from the key on. *)
  Theorem C66_lookup kss : kss <> [] -> full kss ->
    exists g, ring_create digest sort kss = Ok g /\
      forall key, exists s, get_server digest g key = Ok s /\ (s < length kss)%nat /\ owns (placed digest kss) (hash key) s.
  Proof using Hd Hs.
    intros Hne Hf. exists (ring_of digest sort kss). split; [by apply create_full|]. intros key.
    destruct (server_ok digest sort Hd Hs kss Hf key Hne) as (s & E & Ho). exists s. split; [done|]. split; [|done].
    destruct Ho as (p & Hp & _). by apply placed_lt in Hp.
  Qed.

  (** When no two servers share a point there is only one owner: what qsort does
      with equal points does not matter. *)
  Theorem C66_owner_unique kss h s s' : apart (placed digest kss) -> 0 <= h < 2 ^ 32 ->
    owns (placed digest kss) h s -> owns (placed digest kss) h s' -> s = s'.
  Proof using Hd. intros Ha Hh. apply owns_unique; [|done|done]. intros v. by apply placed_range. Qed.

  (** The servers for the copies of an object: the owner, then the owner without
      it, and so on; only available ones; abort exactly when there are too few. *)
  Theorem C66_replicas kss : kss <> [] -> full kss -> Forall (fun ks => 0 < ks)%nat kss ->
    exists g, ring_create digest sort kss = Ok g /\ forall key n,
      (n <= length kss -> exists l, get_servers digest g key n = Ok l /\ chain (hash key) (placed digest kss) n l)%nat /\
      (length kss < n -> get_servers digest g key n = Err AssertFail)%nat /\
      forall down, length down = length kss ->
        let k := length (filter (eq false) down) in
        (n <= k -> exists l, get_available digest g key n down = Ok l /\
           chain (hash key) (fun v => placed digest kss v /\ down !! vn_server v = Some false) n l)%nat /\
        (k < n -> get_available digest g key n down = Err AssertFail)%nat.
  Proof using Hd Hs.
    intros Hne Hf Hpos. exists (ring_of digest sort kss). split; [by apply create_full|]. intros key n.
    assert (Hrep : frees (replicate (length kss) false) = length kss).
    { unfold frees. induction (length kss) as [|k IH]; [done|]. cbn [replicate]. rewrite filter_cons_True by done. cbn. by rewrite IH. }
    destruct (available_ok digest sort Hd Hs kss Hf key n (replicate (length kss) false) Hne Hpos ltac:(by rewrite replicate_length)) as [H1 H2].
    rewrite Hrep in *. split; [|split; [exact H2|]].
    - intros Hn. destruct (H1 Hn) as (l & E & Hc). exists l. split; [exact E|]. eapply chain_ext; [|exact Hc].
      intros v. split; [by intros []|]. intros Hv. split; [done|]. apply lookup_replicate_2. by apply placed_lt in Hv.
    - intros down Hdn. exact (available_ok digest sort Hd Hs kss Hf key n down Hne Hpos Hdn).
  Qed.

  (** Servers of a chain are distinct. *)
  Theorem C66_replicas_distinct V h n l : chain h V n l -> NoDup l /\ length l = n /\ forall s, s ∈ l -> exists p, V (mkVn p s).
  Proof using.
    induction 1 as [|V n s l (p & Hp & _) Hc (IH1 & IH2 & IH3)]; [split_and!; [constructor|done|by intros s ?%elem_of_nil]|].
    split; [constructor; [|done]|].
    - intros Hs'. destruct (IH3 s Hs') as (q & _ & Hq). by cbn in Hq.
    - split; [cbn; by rewrite IH2|]. intros s' [->|Hs']%elem_of_cons; [by exists p|]. destruct (IH3 s' Hs') as (q & Hq & _). by exists q.
  Qed.

  (** Consistency: a new server only takes keys; none moves between old ones.
      Read backwards, taking the last server away moves only its own keys. *)
  Theorem C66_grow kss k : kss <> [] -> full kss -> full (kss ++ [k]) -> apart (placed digest (kss ++ [k])) ->
    exists g g', ring_create digest sort kss = Ok g /\ ring_create digest sort (kss ++ [k]) = Ok g' /\
      forall key, exists s s', get_server digest g key = Ok s /\ get_server digest g' key = Ok s' /\ (s' = s \/ s' = length kss).
  Proof using Hd Hs.
    intros Hne Hf Hf' Ha. destruct (C66_lookup kss Hne Hf) as (g & E & Hg).
    destruct (C66_lookup (kss ++ [k])) as (g' & E' & Hg'); [by destruct kss|done|]. exists g, g'. split; [done|]. split; [done|].
    intros key. destruct (Hg key) as (s & E1 & _ & O1). destruct (Hg' key) as (s' & E2 & _ & O2). exists s, s'. split; [done|]. split; [done|].
    eapply (grow_owner digest Hd); [apply word_range, Hd|exact Ha|exact O1|exact O2].
  Qed.
End Ring.

(** Full claim of C66: any weights.  Refuted: when the numbers of hashes do not
    add up to 40 per server, every key above all points reads a slot that has
    never been written. *)
Section Short.
  Context (digest : list Z -> list Z) (sort : list vnode -> list vnode) (Hs : sorts sort).

  Lemma short_loop (g : ring) (vs : list vnode) rest h fuel : rg_vn g = (Some <$> vs) ++ rest -> (forall x, x ∈ rest -> x = None) ->
    Z.of_nat (length vs) < n_point g -> Z.of_nat (length (rg_vn g)) = n_point g -> (forall v, v ∈ vs -> vn_point v < h) ->
    forall low, 0 <= low <= Z.of_nat (length vs) -> n_point g - low <= Z.of_nat fuel ->
    idx_loop fuel g h low (n_point g) = Err Uninit.
  Proof.
    intros Hg Hrest Hlen Htot Hlt. induction fuel as [|fuel IH]; intros low Hlow Hf; [lia|].
    cbn [idx_loop]. rewrite Z.quot_div_nonneg by lia. set (mid := (low + n_point g) / 2).
    assert (Hm1 : low <= mid) by (unfold mid; apply Z.div_le_lower_bound; lia).
    assert (Hm2 : mid < n_point g) by (unfold mid; apply Z.div_lt_upper_bound; lia).
    rewrite decide_False by lia. unfold vn_at. rewrite decide_False by lia.
    destruct (decide (Z.of_nat (length vs) <= mid)) as [Hbig|Hsmall].
    - rewrite Hg, lookup_app_r by (rewrite fmap_length; lia). rewrite fmap_length.
      assert (Hl : (Z.to_nat mid - length vs < length rest)%nat) by (rewrite Hg, app_length, fmap_length in Htot; lia).
      destruct (lookup_lt_is_Some_2 _ _ Hl) as [x Hx]. rewrite Hx. rewrite (Hrest x) by (by eapply elem_of_list_lookup_2). done.
    - assert (Hat : forall i, 0 <= i <= mid -> exists v, rg_vn g !! Z.to_nat i = Some (Some v) /\ v ∈ vs).
      { intros i Hi. destruct (lookup_lt_is_Some_2 vs (Z.to_nat i) ltac:(lia)) as [v Hv]. exists v.
        split; [rewrite Hg, lookup_app_l by (rewrite fmap_length; lia); by rewrite list_lookup_fmap, Hv|by eapply elem_of_list_lookup_2]. }
      destruct (Hat mid ltac:(lia)) as (v & -> & Hv). cbn [rbind].
      assert (exists p, (if decide (mid = 0) then Ok 0 else let! w := (if decide (mid - 1 < 0) then Err OutOfBounds else
        match rg_vn g !! Z.to_nat (mid - 1) with None => Err OutOfBounds | Some None => Err Uninit | Some (Some v) => Ok v end) in Ok (vn_point w)) = Ok p) as (p & ->).
      { destruct (decide (mid = 0)); [by eexists|]. rewrite decide_False by lia. destruct (Hat (mid - 1) ltac:(lia)) as (w & -> & _). by eexists. }
      cbn [rbind]. pose proof (Hlt v Hv). rewrite decide_False by lia. rewrite decide_True by lia. rewrite decide_False by lia.
      apply IH; lia.
  Qed.

  Theorem C66_weights_refuted kss : (sum_list kss < 40 * length kss)%nat ->
    exists g, ring_create digest sort kss = Ok g /\
      forall key, (forall v, placed digest kss v -> vn_point v < word (digest key) 0) -> get_server digest g key = Err Uninit.
  Proof using Hs.
    intros Hk. unfold ring_create. rewrite all_points_len. rewrite decide_True by (unfold n_vnode; lia). eexists. split; [done|].
    intros key Hlt. unfold get_server, vnode_idx. set (g := mkRing _ _).
    assert (Hperm : sort (all_points digest 0 kss) ≡ₚ all_points digest 0 kss) by apply Hs.
    assert (Hl : length (sort (all_points digest 0 kss)) = (4 * sum_list kss)%nat) by (rewrite Hperm; apply all_points_len).
    assert (Hn : n_point g = Z.of_nat (length kss * n_vnode)) by (unfold n_point, g; cbn [rg_n]; lia).
    rewrite (short_loop g (sort (all_points digest 0 kss)) (replicate (length kss * n_vnode - 4 * sum_list kss) None)); [done|done| | | | |lia|lia].
    - intros x Hx. by apply elem_of_replicate in Hx as [-> _].
    - rewrite Hl, Hn. unfold n_vnode. lia.
    - unfold g. cbn [rg_vn]. rewrite app_length, fmap_length, replicate_length, Hl. fold g. rewrite Hn. unfold n_vnode. lia.
    - intros v Hv. rewrite Hperm in Hv. apply Hlt. by apply placed_in.
  Qed.
End Short.

(** With md5, weights 1 : 2 (floorf gives 26 and 53 hashes) and object 117. *)
Theorem C66_weights_md5_refuted : exists g, ring_create rfc_md5 msort [26; 53]%nat = Ok g /\ get_server_id rfc_md5 g 117 = Err Uninit.
Proof.
  destruct (C66_weights_refuted rfc_md5 msort msort_sorts [26; 53]%nat) as (g & E & _); [apply (bool_decide_eq_true_1 _); vmr|].
  exists g. split; [done|].
  assert (H : (let! g := ring_create rfc_md5 msort [26; 53]%nat in get_server_id rfc_md5 g 117) = Err Uninit) by vmr.
  rewrite E in H. exact H.
Qed.

(** Full claim: the placement uses the object id.  Refuted: only the bytes up to
    the first zero byte count, and never the highest one. *)
Theorem C66_id_zero_byte_refuted digest g id : id mod 256 = 0 -> get_server_id digest g id = get_server digest g [].
Proof.
  intros H. unfold get_server_id, id_key. cbn [seq]. change (8 * Z.of_nat 0) with 0. change (2 ^ 0) with 1. rewrite Z.div_1_r.
  change (2 ^ 8) with 256. by rewrite decide_True.
Qed.

Theorem C66_id_high_byte_refuted digest g id id' : id mod 2 ^ 56 = id' mod 2 ^ 56 -> get_server_id digest g id = get_server_id digest g id'.
Proof.
  intros H. unfold get_server_id. f_equal. unfold id_key.
  assert (Hb : forall i, (i < 7)%nat -> (id / 2 ^ (8 * Z.of_nat i)) mod 2 ^ 8 = (id' / 2 ^ (8 * Z.of_nat i)) mod 2 ^ 8).
  { intros i Hi. apply Z.bits_inj'. intros n Hn. destruct (decide (n < 8)); [|by rewrite !Z.mod_pow2_bits_high by lia].
    rewrite !Z.mod_pow2_bits_low, !Z.div_pow2_bits by lia. rewrite <- (Z.mod_pow2_bits_low id 56), <- (Z.mod_pow2_bits_low id' 56) by lia. by rewrite H. }
  assert (HF : Forall (fun i => (i < 7)%nat) (seq 0 7)) by (apply Forall_seq; lia).
  induction (seq 0 7) as [|i l IH]; [done|]. apply Forall_cons_1 in HF as [Hi HF]. rewrite (Hb i Hi). destruct (decide _); [done|]. f_equal. by apply IH.
Qed.

(** A ring of two and of three servers with md5: the hypotheses are met, and
    object 2 goes to the new server, object 1 stays. *)
Definition apartb (vs : list vnode) : bool :=
  let vs := msort vs in
  forallb (fun '(v, w) => negb (bool_decide (vn_point v = vn_point w)) || bool_decide (vn_server v = vn_server w)) (zip vs (tail vs)).

Lemma chain_eq (vs : list vnode) : (forall v w i, vs !! i = Some v -> vs !! S i = Some w -> vn_point v = vn_point w -> vn_server v = vn_server w) ->
  (forall i j v w, (i <= j)%nat -> vs !! i = Some v -> vs !! j = Some w -> vn_point v <= vn_point w) ->
  forall d i v w, vs !! i = Some v -> vs !! (i + d)%nat = Some w -> vn_point v = vn_point w -> vn_server v = vn_server w.
Proof.
  intros Hadj Hs d. induction d as [|d IH]; intros i v w Hi Hj E.
  - rewrite Nat.add_0_r, Hi in Hj. by injection Hj as <-.
  - assert (Hl : (i + d < length vs)%nat) by (apply lookup_lt_Some in Hj; lia).
    destruct (lookup_lt_is_Some_2 _ _ Hl) as [u Hu].
    assert (vn_point v <= vn_point u) by (eapply Hs; [|exact Hi|exact Hu]; lia).
    assert (vn_point u <= vn_point w) by (eapply Hs; [|exact Hu|exact Hj]; lia).
    rewrite (IH i v u Hi Hu) by lia. eapply Hadj; [exact Hu| |lia]. by replace (S (i + d))%nat with (i + S d)%nat by lia.
Qed.

Lemma apartb_ok digest kss : apartb (all_points digest 0 kss) = true -> apart (placed digest kss).
Proof.
  unfold apartb. intros H v w Hv Hw E. destruct (msort_sorts (all_points digest 0 kss)) as [Hp Hs].
  set (vs := msort (all_points digest 0 kss)) in *.
  assert (Hadj : forall v w i, vs !! i = Some v -> vs !! S i = Some w -> vn_point v = vn_point w -> vn_server v = vn_server w).
  { intros v' w' i Hi Hj E'. rewrite forallb_forall in H.
    specialize (H (v', w')). cbn in H. assert (Hin : In (v', w') (zip vs (tail vs))).
    { apply elem_of_list_In. apply elem_of_list_lookup. exists i. apply lookup_zip_with_Some. exists v', w'. split; [done|]. split; [done|].
      by rewrite lookup_tail. }
    apply H in Hin. apply orb_true_iff in Hin as [Hn|Hn]; [|by apply bool_decide_eq_true_1 in Hn].
    apply negb_true_iff, bool_decide_eq_false_1 in Hn. done. }
  apply placed_in in Hv, Hw. rewrite <- Hp in Hv, Hw. apply elem_of_list_lookup in Hv as (i & Hi). apply elem_of_list_lookup in Hw as (j & Hj).
  destruct (decide (i <= j)%nat).
  - eapply (chain_eq vs Hadj Hs (j - i) i); [exact Hi| |exact E]. by replace (i + (j - i))%nat with j by lia.
  - symmetry. eapply (chain_eq vs Hadj Hs (i - j) j); [exact Hj| |done]. by replace (j + (i - j))%nat with i by lia.
Qed.

Example C66_ex : full [40; 40]%nat /\ full ([40; 40] ++ [40])%nat /\ apart (placed rfc_md5 ([40; 40] ++ [40])%nat) /\
  (let! g := ring_create rfc_md5 msort [40; 40]%nat in let! g' := ring_create rfc_md5 msort [40; 40; 40]%nat in
   let! a := get_server_id rfc_md5 g 1 in let! b := get_server_id rfc_md5 g' 1 in
   let! c := get_server_id rfc_md5 g 2 in let! d := get_server_id rfc_md5 g' 2 in
   let! l := get_available rfc_md5 g' [7] 2 [true; false; false] in Ok (a, b, (c, d), l)) = Ok (1, 1, (1, 2), [2; 1])%nat.
Proof. split; [done|]. split; [done|]. split; [apply apartb_ok; vmr|vmr]. Qed.

(** ** C67: the cluster *)

(** The cluster is its servers side by side: each answers its own requests as
    if it were alone.  Any caches, any weights. *)
Theorem C67_side_by_side {S W} digest (c c' : cluster S W) g rs bs : cl_ring c = Some g -> cluster_run digest c rs = Ok (c', bs) ->
  length (cl_servers c') = length (cl_servers c) /\ length bs = length rs /\
  forall i v, cl_servers c !! i = Some v -> exists v', cl_servers c' !! i = Some v' /\
    server_run v (part (get_server_id digest g) i rs) = Ok (v', answers (get_server_id digest g) i rs bs).
Proof. intros Hg Hr. destruct (cluster_parts digest rs c c' bs g Hg Hr) as (_ & _ & H1 & H2 & H3). done. Qed.

(** A failed server: its requests are misses and nothing in it changes; for the
    requests of the others there is no difference. *)
Theorem C67_failed_server {S W} digest (c c1 c2 c3 : cluster S W) g i rs bs2 bs3 : cl_ring c = Some g -> set_up c i false = Ok c1 ->
  cluster_run digest c rs = Ok (c2, bs2) -> cluster_run digest c1 rs = Ok (c3, bs3) ->
  (exists v, cl_servers c !! i = Some v /\ cl_servers c3 !! i = Some (mkSrv false (sv_caches v)) /\
    answers (get_server_id digest g) i rs bs3 = replicate (length (part (get_server_id digest g) i rs)) false) /\
  forall j, j <> i -> cl_servers c3 !! j = cl_servers c2 !! j /\
    answers (get_server_id digest g) j rs bs3 = answers (get_server_id digest g) j rs bs2.
Proof.
  intros Hg Hup H2 H3. unfold set_up in Hup. destruct (cl_servers c !! i) as [v|] eqn:Ev; [|done]. injection Hup as <-.
  destruct (C67_side_by_side digest _ _ g rs bs2 Hg H2) as (L2 & _ & P2).
  destruct (C67_side_by_side digest (mkCl (cl_ring c) (cl_weights c) (<[i:=mkSrv false (sv_caches v)]> (cl_servers c))) _ g rs bs3 Hg H3) as (L3 & _ & P3).
  cbn [cl_servers] in *. rewrite insert_length in L3. split.
  - exists v. split; [done|]. destruct (P3 i (mkSrv false (sv_caches v))) as (v' & Hv' & Hr).
    { apply list_lookup_insert. by eapply lookup_lt_Some. }
    rewrite down_run in Hr by done. injection Hr as <- <-. done.
  - intros j Hne. destruct (cl_servers c !! j) as [w|] eqn:Ew.
    + destruct (P2 j w Ew) as (w2 & -> & R2). destruct (P3 j w) as (w3 & -> & R3); [by rewrite list_lookup_insert_ne|].
      rewrite R2 in R3. injection R3 as -> ->. done.
    + apply lookup_ge_None_1 in Ew. rewrite !lookup_ge_None_2 by lia. split; [done|].
      (* nothing goes there *)
      assert (Hno : forall (bs : list bool) rs' (c0 c0' : cluster S W), cl_ring c0 = Some g -> length (cl_servers c0) = length (cl_servers c) ->
        cluster_run digest c0 rs' = Ok (c0', bs) -> answers (get_server_id digest g) j rs' bs = []).
      { intros bs rs'. revert bs. induction rs' as [|r rs' IH]; intros bs c0 c0' Hg0 Hl0 Hrun; cbn [cluster_run] in Hrun.
        - by injection Hrun as <- <-.
        - destruct (cluster_get digest c0 r) as [[c4 b]|] eqn:E1; [|done]. cbn [rbind] in Hrun.
          destruct (cluster_run digest c4 rs') as [[c5 bs5]|] eqn:E2; [|done]. cbn [rbind] in Hrun. injection Hrun as <- <-.
          unfold cluster_get in E1. rewrite Hg0 in E1.
          destruct (get_server_id digest g (r_id r)) as [k|] eqn:Ek; [|done]. cbn [rbind] in E1.
          destruct (cl_servers c0 !! k) as [v0|] eqn:E0; [|done]. apply lookup_lt_Some in E0.
          destruct (server_get v0 r) as [[v1 b1]|] eqn:Eg; [|done]. cbn [rbind] in E1. injection E1 as <- <-.
          rewrite answers_cons. unfold goes. rewrite Ek, bool_decide_false by lia.
          eapply IH; [| |exact E2]; [done|]. cbn [cl_servers]. by rewrite insert_length. }
      rewrite (Hno bs2 rs c c2 Hg eq_refl H2).
      apply (Hno bs3 rs _ c3) in H3; [done|done|]. cbn [cl_servers]. apply insert_length.
Qed.

(** Servers with the default weight get 40 hashes each. *)
Definition equal (ws : list unit) : list nat := replicate (length ws) 40%nat.
Lemma equal_full ws : full (equal ws).
Proof.
  unfold full, equal. rewrite replicate_length. induction ws as [|w ws IH]; [done|]. cbn [length replicate].
  change (sum_list (40 :: replicate (length ws) 40))%nat with (40 + sum_list (replicate (length ws) 40))%nat. rewrite IH. lia.
Qed.

Fixpoint add_servers {S} digest sort (c : cluster S unit) (vs : list (server S)) : res (cluster S unit) :=
  match vs with
  | [] => Ok c
  | v :: vs => let! (c, _) := add_server digest sort equal c v tt in add_servers digest sort c vs
  end.

(** A server with FIFO and LRU caches, one behind the other. *)
Inductive kind : Type := KFifo | KLru (metadata : bool).
Definition cache_of (k : kind * Z * admissioner) : ops qstate * qstate :=
  match k with
  | (KFifo, cap, adm) => (fifo_ops, fifo_init cap adm)
  | (KLru b, cap, adm) => (lru_ops, lru_init b cap adm)
  end.
Definition level_of (k : kind * Z * admissioner) : level :=
  match k with
  | (KFifo, cap, adm) => mkLv pol_fifo cap 0 (abs_init adm)
  | (KLru b, cap, adm) => mkLv pol_lru cap (if b then 16 else 0) (abs_init adm)
  end.

Lemma cache_of_behaves k : 0 <= k.1.2 -> behaves (req_ok 16) (cache_of k) (level_of k).
Proof.
  destruct k as [[[|b] cap] adm]; cbn [fst snd]; intros Hc.
  - eexists _, _. split; [exact (fifo_sim cap 0)|]. split; [exact (q_init_rel e_ins cap 0 adm)|]. split; [by apply abs_init_ok|].
    intros r. unfold req_ok. cbn. lia.
  - eexists _, _. split; [exact (lru_sim cap (if b then 16 else 0))|]. split; [exact (q_init_rel e_last cap (if b then 16 else 0) adm)|].
    split; [apply abs_init_ok; cbn; [done|destruct b; lia]|]. intros r. unfold req_ok. cbn. destruct b; lia.
Qed.

Lemma add_servers_ok {S} digest sort (vs : list (server S)) : forall c, length (cl_weights c) = length (cl_servers c) ->
  exists c', add_servers digest sort c vs = Ok c' /\ cl_servers c' = cl_servers c ++ vs /\ length (cl_weights c') = length (cl_servers c') /\
    (vs <> [] -> cl_ring c' = Some (ring_of digest sort (equal (cl_weights c')))).
Proof.
  induction vs as [|v vs IH]; intros c Hc; cbn [add_servers].
  - exists c. by rewrite app_nil_r.
  - unfold add_server. rewrite create_full by apply equal_full. cbn [rbind].
    destruct (IH (mkCl (Some (ring_of digest sort (equal (cl_weights c ++ [tt])))) (cl_weights c ++ [tt]) (cl_servers c ++ [v]))) as (c' & E & H1 & H2 & H3).
    { cbn. rewrite !app_length. cbn. lia. }
    exists c'. split; [exact E|]. cbn [cl_servers] in H1. rewrite <- app_assoc in H1. split; [done|]. split; [done|]. intros _.
    destruct vs as [|w vs]; [|by apply H3]. cbn in E. injection E as <-. done.
Qed.

Lemma part_ext rt rt' i rs : (forall id, rt id = rt' id) -> part rt i rs = part rt' i rs.
Proof. intros H. unfold part. apply list_filter_iff. intros r. unfold goes. by rewrite H. Qed.
Lemma answers_ext rt rt' i rs bs : (forall id, rt id = rt' id) -> answers rt i rs bs = answers rt' i rs bs.
Proof. intros H. unfold answers. f_equal. apply list_filter_iff. intros r. unfold goes. by rewrite H. Qed.

(** A cluster of such servers, added one by one: every trace is served without a
    fault; each object belongs to one server, the owner of its key; the server
    answers like its levels, each level seeing the misses of the one before,
    each with its policy and within its capacity. *)
Theorem C67_cluster digest sort cfg rs : byte_digest digest -> sorts sort -> cfg <> [] ->
  Forall (Forall (fun k => 0 <= k.1.2)) cfg -> Forall (req_ok 16) rs ->
  exists c c' bs rt,
    add_servers digest sort cluster_init (mkSrv true <$> (fmap cache_of <$> cfg)) = Ok c /\ cluster_run digest c rs = Ok (c', bs) /\
    length bs = length rs /\
    (forall id, owns (placed digest (replicate (length cfg) 40%nat)) (word (digest (id_key id)) 0) (rt id)) /\
    forall i ks, cfg !! i = Some ks -> exists v ls, cl_servers c' !! i = Some v /\
      levels_run (level_of <$> ks) (part (fun id => Ok (rt id)) i rs) (answers (fun id => Ok (rt id)) i rs bs) ls /\
      Forall2 shows (sv_caches v) ls.
Proof.
  intros Hd Hs Hne Hcap Hrs.
  destruct (add_servers_ok digest sort (mkSrv true <$> (fmap cache_of <$> cfg)) cluster_init eq_refl) as (c & Ec & Hsv & Hw & Hring).
  cbn [cl_servers cluster_init app] in Hsv. specialize (Hring ltac:(by destruct cfg)).
  assert (Hn : length (cl_weights c) = length cfg) by (rewrite Hw, Hsv, !fmap_length; done).
  unfold equal in Hring. rewrite Hn in Hring. set (kss := replicate (length cfg) 40%nat) in *. set (g := ring_of digest sort kss) in *.
  assert (Hf : full kss) by (unfold kss; rewrite <- Hn; apply equal_full).
  assert (Hk : kss <> []) by (unfold kss; destruct cfg; done).
  assert (Hlk : length kss = length cfg) by (unfold kss; apply replicate_length).
  assert (Hrt : forall id, exists j, get_server_id digest g id = Ok j /\ (j < length (cl_servers c))%nat).
  { intros id. destruct (server_ok digest sort Hd Hs kss Hf (id_key id) Hk) as (s & E & p & Hp & _). exists s. split; [exact E|].
    apply placed_lt in Hp. cbn [vn_server] in Hp. lia. }
  assert (Hrun : forall i ks, cfg !! i = Some ks -> cl_servers c !! i = Some (mkSrv true (cache_of <$> ks)) /\
    exists v bs ls, server_run (mkSrv true (cache_of <$> ks)) (part (get_server_id digest g) i rs) = Ok (v, bs) /\
      levels_run (level_of <$> ks) (part (get_server_id digest g) i rs) bs ls /\ Forall2 shows (sv_caches v) ls).
  { intros i ks Hi. split; [rewrite Hsv, !list_lookup_fmap, Hi; done|].
    destruct (up_run (req_ok 16) (part (get_server_id digest g) i rs) (mkSrv true (cache_of <$> ks)) (level_of <$> ks) eq_refl) as (v & bs & ls & E & HL & _ & HB).
    - cbn [sv_caches]. apply Forall2_fmap_2. pose proof (Forall_lookup_1 _ _ _ _ Hcap Hi) as HF. clear -HF.
      induction ks as [|k ks IH]; [constructor|]. apply Forall_cons_1 in HF as [H1 H2]. constructor; [by apply cache_of_behaves|by apply IH].
    - unfold part. apply Forall_forall. intros r [_ Hin]%elem_of_list_filter. by apply (Forall_forall (req_ok 16) rs).
    - exists v, bs, ls. split; [done|]. split; [done|]. eapply Forall2_impl; [exact HB|]. apply behaves_shows. }
  destruct (cluster_total digest rs c g Hring Hrt) as (c' & bs & Erun).
  { intros i v Hv. assert (Hi : (i < length cfg)%nat) by (apply lookup_lt_Some in Hv; rewrite Hsv, !fmap_length in Hv; done).
    destruct (lookup_lt_is_Some_2 _ _ Hi) as [ks Hks]. destruct (Hrun i ks Hks) as (E1 & v' & bs & ls & E2 & _). rewrite E1 in Hv. injection Hv as <-.
    by eexists. }
  set (rt := fun id => match get_server_id digest g id with Ok j => j | Err _ => 0%nat end).
  assert (Ert : forall id, get_server_id digest g id = Ok (rt id)).
  { intros id. unfold rt. by destruct (Hrt id) as (j & -> & _). }
  destruct (C67_side_by_side digest c c' g rs bs Hring Erun) as (L1 & L2 & HP).
  exists c, c', bs, rt. split; [exact Ec|]. split; [done|]. split; [done|]. split.
  - intros id. destruct (server_ok digest sort Hd Hs kss Hf (id_key id) Hk) as (s & E & Ho).
    unfold rt, get_server_id. fold g in E. by rewrite E.
  - intros i ks Hi. destruct (Hrun i ks Hi) as (E1 & v & bs1 & ls & E2 & HL & HS).
    destruct (HP i _ E1) as (v' & Hv' & Hr). rewrite E2 in Hr. injection Hr as <- ->.
    exists v, ls. rewrite <- (part_ext _ _ i rs Ert), <- (answers_ext _ _ i rs bs Ert). done.
Qed.

(** Taking server [i] of [n] equal servers away: an object whose owner was not
    the last server is now served by server [o] if [o < i], and by the server
    that was number [o + 1] otherwise. *)
Theorem C67_remove_routes {S} digest sort (c c' : cluster S unit) i x : byte_digest digest -> sorts sort ->
  length (cl_weights c) = length (cl_servers c) -> (2 <= length (cl_servers c))%nat ->
  cl_ring c = Some (ring_of digest sort (equal (cl_weights c))) -> apart (placed digest (equal (cl_weights c))) ->
  (i < length (cl_servers c))%nat -> remove_server digest sort equal c i = Ok (c', x) ->
  forall id, exists o o' g', get_server_id digest (ring_of digest sort (equal (cl_weights c))) id = Ok o /\
    cl_ring c' = Some g' /\ get_server_id digest g' id = Ok o' /\
    (o <> length (cl_servers c) - 1 -> o' = o /\
      cl_servers c' !! o' = if decide (o < i) then cl_servers c !! o else cl_servers c !! (o + 1))%nat.
Proof.
  intros Hd Hs Hw Hn Hg Ha Hi Hrm id. unfold remove_server in Hrm. rewrite decide_False in Hrm by lia.
  rewrite create_full in Hrm by apply equal_full. cbn [rbind] in Hrm. injection Hrm as <- _. cbn [cl_ring cl_servers].
  assert (Hdl : length (delete i (cl_weights c)) = (length (cl_servers c) - 1)%nat).
  { rewrite length_delete by (apply lookup_lt_is_Some_2; lia). lia. }
  assert (Hgrow : equal (cl_weights c) = equal (delete i (cl_weights c)) ++ [40%nat]).
  { unfold equal. rewrite Hdl, Hw. change [40%nat] with (replicate 1 40%nat). rewrite <- replicate_add. f_equal. lia. }
  destruct (C66_grow digest sort Hd Hs (equal (delete i (cl_weights c))) 40%nat) as (g & g' & E1 & E2 & Hk).
  - unfold equal. rewrite Hdl. destruct (length (cl_servers c) - 1)%nat eqn:E; [lia|done].
  - apply equal_full.
  - rewrite <- Hgrow. apply equal_full.
  - by rewrite <- Hgrow.
  - rewrite <- Hgrow in *. rewrite create_full in E1 by apply equal_full. rewrite create_full in E2 by apply equal_full. injection E1 as <-. injection E2 as <-.
    destruct (Hk (id_key id)) as (s & s' & G1 & G2 & Hor). exists s', s, (ring_of digest sort (equal (delete i (cl_weights c)))).
    split; [exact G2|]. split; [done|]. split; [exact G1|]. intros Hl.
    destruct Hor as [->|Hor]; [|exfalso; apply Hl; rewrite Hor; unfold equal; by rewrite replicate_length].
    split; [done|]. destruct (decide (s < i)%nat); [by rewrite lookup_delete_lt|]. rewrite lookup_delete_ge by lia. f_equal. lia.
Qed.

(** Full claim: only the objects of the removed server move.  Refuted with md5:
    of three servers number 0 goes; object 1 was on server 1, which stays, and
    is now looked for on the server that was number 2. *)
Theorem C67_remove_refuted : exists (c c' : cluster nat unit) x g g',
  add_servers rfc_md5 msort cluster_init [mkSrv true []; mkSrv true []; mkSrv false []] = Ok c /\
  cl_ring c = Some g /\ get_server_id rfc_md5 g 1 = Ok 1%nat /\
  remove_server rfc_md5 msort equal c 0 = Ok (c', x) /\ cl_ring c' = Some g' /\
  get_server_id rfc_md5 g' 1 = Ok 1%nat /\ cl_servers c !! 2%nat = Some (mkSrv false []) /\ cl_servers c' !! 1%nat = cl_servers c !! 2%nat.
Proof.
  assert (H3 : get_server_id rfc_md5 (ring_of rfc_md5 msort [40; 40; 40]%nat) 1 = Ok 1%nat) by vmr.
  assert (H2 : get_server_id rfc_md5 (ring_of rfc_md5 msort [40; 40]%nat) 1 = Ok 1%nat) by vmr.
  assert (E1 : ring_create rfc_md5 msort [40]%nat = Ok (ring_of rfc_md5 msort [40]%nat)) by (by apply create_full).
  assert (E2 : ring_create rfc_md5 msort [40; 40]%nat = Ok (ring_of rfc_md5 msort [40; 40]%nat)) by (by apply create_full).
  assert (E3 : ring_create rfc_md5 msort [40; 40; 40]%nat = Ok (ring_of rfc_md5 msort [40; 40; 40]%nat)) by (by apply create_full).
  eexists _, _, _, _, _. split.
  { cbn [add_servers]. unfold add_server. cbn [cluster_init cl_weights cl_servers app].
    unfold equal at 1. cbn [length replicate]. rewrite E1. cbn [rbind cl_weights cl_servers app].
    unfold equal at 1. cbn [length replicate]. rewrite E2. cbn [rbind cl_weights cl_servers app].
    unfold equal at 1. cbn [length replicate]. rewrite E3. cbn [rbind cl_weights cl_servers app]. reflexivity. }
  split; [reflexivity|]. split; [exact H3|]. split.
  { unfold remove_server. cbn [cl_servers cl_weights length]. rewrite decide_False by lia.
    cbn [delete list_delete]. unfold equal. cbn [length replicate]. rewrite E2. cbn [rbind]. reflexivity. }
  split; [reflexivity|]. split; [exact H2|]. split; reflexivity.
Qed.

(** Full claim: any cluster can be asked.  Refuted: with no server added, and
    when the last one has been removed. *)
Theorem C67_empty_refuted {S} digest sort (v : server S) r : sorts sort ->
  cluster_get digest (cluster_init (S:=S) (W:=unit)) r = Err NullDeref /\
  (let! (c, _) := add_server digest sort equal cluster_init v tt in
   let! (c, _) := remove_server digest sort equal c 0 in cluster_get digest c r) = Err OutOfBounds.
Proof.
  intros Hs. split; [done|]. unfold add_server. cbn [cluster_init cl_weights cl_servers app]. rewrite create_full by apply equal_full. cbn [rbind].
  unfold remove_server. cbn [cl_servers length]. rewrite decide_False by lia. cbn [delete list_delete cl_weights cl_servers].
  rewrite create_full by apply equal_full. cbn [rbind]. unfold cluster_get. cbn [cl_ring].
  unfold get_server_id, get_server, vnode_idx, ring_of, equal. cbn [length replicate]. unfold n_point. cbn [rg_n].
  change (Z.of_nat 0 * Z.of_nat n_vnode) with 0. change (Z.to_nat 0) with 0%nat. cbn [idx_loop].
  unfold vn_at. cbn [rg_vn]. unfold n_point. cbn [rg_n]. change (Z.of_nat 0 * Z.of_nat n_vnode) with 0. change (Z.quot (0 + 0) 2) with 0. rewrite decide_True by done.
  cbn [rbind]. rewrite decide_False by lia. change (Z.to_nat 0) with 0%nat.
  cbn [all_points]. destruct (Hs []) as [Hp _]. apply Permutation_nil_r in Hp. rewrite Hp. done.
Qed.

(** Two servers, the first with a FIFO of 2 bytes before an LRU of 10, the second
    with one LRU: objects 3 and 6 are on server 0, object 1 on server 1.  The last
    request for object 3 is a hit in the second level. *)
Example C67_ex : let q i := mkReq i 1 0 0 0 in let rs := map q [3; 6; 7; 1; 3; 1] in
  Forall (req_ok 16) rs /\
  (let! c := add_servers rfc_md5 msort cluster_init (mkSrv true <$> (fmap cache_of <$> [[(KFifo, 2, AdmNone); (KLru false, 10, AdmNone)]; [(KLru true, 100, AdmNone)]])) in
   let! (c, bs) := cluster_run rfc_md5 c rs in
   Ok (bs, (fun v => (fun x => op_occupied x.1 x.2) <$> sv_caches v) <$> cl_servers c)) =
  Ok ([false; false; false; false; true; true], [[2; 3]; [17]]).
Proof. split; [apply (bool_decide_eq_true_1 _); vmr|vmr]. Qed.
