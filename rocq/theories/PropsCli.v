(** C57 (sizes, algorithms and caches of the command line) and C58 (trace types
    and trace parameters). *)
From stdpp Require Import gmap list numbers strings.
From Verif Require Import Base ModelTxt ModelCli SpecCli CliFacts.
Open Scope Z_scope.

(** * The working set *)

Lemma first_size_other i z tr id : i <> id -> first_size ((i, z) :: tr) id = first_size tr id.
Proof. intros H. cbn. by rewrite decide_False. Qed.

Lemma fmap_ext_in {A B} (f g : A -> B) (l : list A) : (forall x, x ∈ l -> f x = g x) -> f <$> l = g <$> l.
Proof. intros H. apply list_fmap_ext. intros i x Hx. apply H. by eapply elem_of_list_lookup_2. Qed.

Lemma wss_loop_spec sf tr : forall seen no nb, exists l,
  NoDup l /\ (forall id, id ∈ l <-> id ∈ tr.*1 /\ id ∉ seen /\ ~ (sf > 1 /\ id mod sf <> 0)) /\
  wss_loop sf seen tr no nb = (no + Z.of_nat (length l), nb + total (first_size tr <$> l)).
Proof.
  induction tr as [|[i z] tr IH]; intros seen no nb.
  { exists []. split; [constructor|]. split; [|cbn; f_equal; lia].
    intros id. split; [by intros ?%elem_of_nil|]. by intros [?%elem_of_nil _]. }
  cbn [wss_loop]. destruct (decide (sf > 1 /\ i mod sf <> 0)) as [Hskip|Hskip].
  { destruct (IH seen no nb) as (l & Hnd & Hl & ->). exists l. split; [done|]. split.
    - intros id. rewrite Hl. cbn. rewrite elem_of_cons. split; [naive_solver|].
      intros ([->|?] & ? & ?); [done|naive_solver].
    - do 2 f_equal. f_equal. apply fmap_ext_in. intros id Hid. rewrite first_size_other; [done|].
      intros ->. by apply Hl in Hid as (_ & _ & ?). }
  destruct (decide (i ∈ seen)) as [Hin|Hin].
  { destruct (IH seen no nb) as (l & Hnd & Hl & ->). exists l. split; [done|]. split.
    - intros id. rewrite Hl. cbn. rewrite elem_of_cons. split; [naive_solver|].
      intros ([->|?] & ? & ?); [done|naive_solver].
    - do 2 f_equal. f_equal. apply fmap_ext_in. intros id Hid. rewrite first_size_other; [done|].
      intros ->. by apply Hl in Hid as (_ & ? & _). }
  destruct (IH ({[i]} ∪ seen) (no + 1) (nb + z)) as (l & Hnd & Hl & ->). exists (i :: l).
  assert (Hni : i ∉ l). { intros (_ & H & _)%Hl. set_solver. }
  split; [by constructor|]. split.
  - intros id. rewrite elem_of_cons, Hl. cbn. rewrite elem_of_cons. split.
    + intros [->|(? & ? & ?)]; [tauto|]. set_solver.
    + intros (? & ? & ?). destruct (decide (id = i)) as [->|]; [by left|]. right. set_solver.
  - f_equal; [cbn; lia|]. cbn [fmap list_fmap total foldr first_size]. rewrite decide_True by done.
    assert ((fun id => first_size ((i, z) :: tr) id) <$> l = first_size tr <$> l) as E.
    { apply fmap_ext_in. intros id Hid. apply first_size_other. by intros ->. }
    cbn [first_size] in E. unfold total in *. rewrite <-E. cbn. lia.
Qed.

Lemma total_perm l k : l ≡ₚ k -> total l = total k.
Proof. unfold total. induction 1; cbn; lia. Qed.

Lemma objects_perm tr ids ids' : objects tr ids -> objects tr ids' -> ids ≡ₚ ids'.
Proof. intros [H1 H2] [H3 H4]. apply NoDup_Permutation; [done..|]. intros x. by rewrite H2, H4. Qed.

(** C57: for a file of at most 1 GiB, the working set is the number of distinct
    objects of the trace and the sum of their sizes at first sight. *)
Theorem C57_working_set fs tr ids :
  fs <= 2 ^ 30 -> objects tr ids ->
  working_set fs tr = (Z.of_nat (length ids), total (first_size tr <$> ids)).
Proof.
  intros Hfs Hobj. unfold working_set, wss_factor, GiB. rewrite !decide_False by lia.
  destruct (wss_loop_spec 1 tr ∅ 0 0) as (l & Hnd & Hl & ->).
  assert (objects tr l) as Hobj'.
  { split; [done|]. intros id. rewrite Hl. split; [by intros (? & _)|]. intros ?. split; [done|]. split; [set_solver|lia]. }
  pose proof (objects_perm _ _ _ Hobj Hobj') as HP.
  f_equal; [rewrite (Permutation_length HP); lia|].
  rewrite (total_perm (first_size tr <$> ids) (first_size tr <$> l)); [lia|]. by apply fmap_Permutation.
Qed.
Example C57_working_set_ex :
  objects [(7, 10); (8, 20); (7, 99); (9, 5)] [7; 8; 9] /\
  working_set 1000 [(7, 10); (8, 20); (7, 99); (9, 5)] = (3, 35).
Proof.
  split; [|vm_compute; reflexivity]. split.
  - repeat (constructor; [rewrite ?elem_of_cons, elem_of_nil; lia|]). constructor.
  - intros id. cbn. rewrite !elem_of_cons, elem_of_nil. naive_solver.
Qed.

(** For larger files it is an estimate: 11 times (above 5 GiB 101 times) what the
    objects whose ids are multiples of 11 (101) make up. *)
Theorem C57_working_set_estimate fs sf tr ids :
  (2 ^ 30 < fs <= 5 * 2 ^ 30 /\ sf = 11 \/ 5 * 2 ^ 30 < fs /\ sf = 101) ->
  objects (filter (fun x => x.1 mod sf = 0) tr) ids ->
  working_set fs tr = (sf * Z.of_nat (length ids), sf * total (first_size tr <$> ids)).
Proof.
  intros Hfs Hobj. unfold working_set, wss_factor, GiB.
  assert ((if decide (fs > 5 * 1073741824) then 101 else if decide (fs > 1073741824) then 11 else 1) = sf) as ->.
  { destruct (decide (fs > 5 * 1073741824)); [lia|]. destruct (decide (fs > 1073741824)); lia. }
  destruct (wss_loop_spec sf tr ∅ 0 0) as (l & Hnd & Hl & ->).
  assert (objects (filter (fun x => x.1 mod sf = 0) tr) l) as Hobj'.
  { split; [done|]. intros id. rewrite Hl. rewrite !elem_of_list_fmap. split.
    - intros ((x & -> & Hx) & _ & Hm). exists x. split; [done|]. apply elem_of_list_filter. split; [|done].
      destruct (decide (x.1 mod sf = 0)); [done|]. exfalso. apply Hm. lia.
    - intros (x & -> & (Hm & Hx)%elem_of_list_filter). split; [by exists x|]. split; [set_solver|]. intros [_ ?]. done. }
  pose proof (objects_perm _ _ _ Hobj Hobj') as HP.
  f_equal; [rewrite (Permutation_length HP); lia|].
  rewrite (total_perm (first_size tr <$> ids) (first_size tr <$> l)); [lia|]. by apply fmap_Permutation.
Qed.
Example C57_working_set_estimate_ex :
  working_set (2 ^ 31) [(22, 10); (8, 20); (33, 7); (22, 9)] = (22, 187).
Proof. vm_compute. reflexivity. Qed.

(** C57 fails for larger files: the working set of a trace may come out as 0, and
    every fraction of it as well. *)
Theorem C57_working_set_refuted : exists fs tr ids,
  objects tr ids /\ (3 <= length ids)%nat /\ Forall (fun x => 1 <= x.2) tr /\ working_set fs tr = (0, 0).
Proof.
  exists (2 ^ 31), [(7, 10); (8, 20); (7, 99); (9, 5)], [7; 8; 9]. split; [apply C57_working_set_ex|].
  split; [cbn; lia|]. split; [repeat constructor; cbn; lia|]. vm_compute. reflexivity.
Qed.

(** * Sizes *)

(** C57: a number with or without a unit, in any case, means that many bytes. *)
Theorem C57_size t n : size_text t n -> conv_size t = Ok n.
Proof. apply conv_size_text. Qed.
Example C57_size_ex : size_text (bytes_of "4Kb") 4096 /\ conv_size (bytes_of "4Kb") = Ok 4096.
Proof.
  split; [|vm_compute; reflexivity].
  exists [52], 4, "kb"%string, [75; 98], (2 ^ 10). repeat split.
  - done.
  - repeat constructor; lia.
  - by apply elem_of_list_In; cbn; tauto.
  - unfold same_text, same_char, bytes_of. cbn. repeat constructor; lia.
Qed.

Section Sizes.
  Context (wss_obj wss_byte : Z) (ignore : bool) (fraction : Z -> list Z -> Z) (part : nat -> Z -> Z).
  Notation wss := (if ignore then wss_obj else wss_byte).
  Notation convert := (conv_cache_sizes wss_obj wss_byte ignore fraction part).

  Definition entry (t : list Z) (n : Z) : Prop := size_text t n \/ (fraction_text t /\ n = fraction wss t).

  Lemma size_tokens_entries ts ns n :
    Forall2 entry ts ns -> n + Z.of_nat (length ts) <= 128 ->
    size_tokens wss_obj wss_byte ignore fraction n ts = Ok ns.
  Proof.
    intros HF. revert n. induction HF as [|t v ts ns Ht _ IH]; intros n Hn; [done|].
    cbn [size_tokens length] in *.
    assert ((if bool_decide (46 ∈ t) then Ok (fraction (the_wss wss_obj wss_byte ignore) t) else conv_size t) = Ok v) as ->.
    { destruct Ht as [Ht|[[H1 H2] ->]].
      - rewrite bool_decide_eq_false_2 by (by apply (size_text_chars t v)). by apply conv_size_text.
      - by rewrite bool_decide_eq_true_2. }
    cbn [rbind]. unfold N_MAX_CACHE_SIZE. rewrite decide_False by lia. rewrite IH by lia. done.
  Qed.
  Lemma size_tokens_many ts ns n :
    Forall2 entry ts ns -> 0 <= n <= 128 -> n + Z.of_nat (length ts) > 128 ->
    size_tokens wss_obj wss_byte ignore fraction n ts = Err OutOfBounds.
  Proof.
    intros HF. revert n. induction HF as [|t v ts ns Ht _ IH]; intros n Hn Hl; [cbn in Hl; lia|].
    cbn [size_tokens length] in *.
    assert ((if bool_decide (46 ∈ t) then Ok (fraction (the_wss wss_obj wss_byte ignore) t) else conv_size t) = Ok v) as ->.
    { destruct Ht as [Ht|[[H1 H2] ->]].
      - rewrite bool_decide_eq_false_2 by (by apply (size_text_chars t v)). by apply conv_size_text.
      - by rewrite bool_decide_eq_true_2. }
    cbn [rbind]. unfold N_MAX_CACHE_SIZE. destruct (decide (n >= 128)); [done|]. rewrite IH by lia. done.
  Qed.
  Lemma entry_chars t n : entry t n -> 44 ∉ t /\ t <> [].
  Proof.
    intros [H|[[H1 H2] _]]; [apply size_text_chars in H; naive_solver|]. split; [done|]. intros ->. by apply elem_of_nil in H1.
  Qed.
  Lemma entries_tokens ts ns : Forall2 entry ts ns -> tokens 44 (comma_list ts) = ts.
  Proof.
    intros HF. apply tokens_comma. induction HF as [|t n ts ns H _ IH]; [constructor|]. constructor; [|done].
    by eapply entry_chars.
  Qed.

  (** C57: a list of at most 128 sizes and fractions gives exactly those cache
      sizes in that order. *)
  Theorem C57_sizes ts ns :
    Forall2 entry ts ns -> ts <> [] -> (length ts <= 128)%nat -> ns <> [0] ->
    convert (comma_list ts) = Ok (Some ns).
  Proof.
    intros HF Hne Hl Hz. unfold conv_cache_sizes. rewrite (entries_tokens _ _ HF).
    rewrite (size_tokens_entries ts ns 0 HF) by lia. cbn [rbind].
    destruct ns as [|[| |] [|? ?]]; done.
  Qed.

  (** C57 fails for longer lists: the 129th size is written past the array. *)
  Theorem C57_sizes_refuted ts ns :
    Forall2 entry ts ns -> (128 < length ts)%nat -> convert (comma_list ts) = Err OutOfBounds.
  Proof.
    intros HF Hl. unfold conv_cache_sizes. rewrite (entries_tokens _ _ HF).
    by rewrite (size_tokens_many ts ns 0 HF) by lia.
  Qed.

  Lemma split_length c s : length (split_on c s) = S (length (filter (fun x : Z => x = c) s)).
  Proof.
    induction s as [|x s IH]; [done|]. cbn [split_on]. destruct (Z.eqb_spec x c) as [->|Hne].
    - rewrite filter_cons_True by done. cbn. by rewrite IH.
    - rewrite filter_cons_False by done. destruct (split_on c s); done.
  Qed.
  Lemma size_tokens_safe ts n :
    Forall (fun t => t <> []) ts -> n + Z.of_nat (length ts) <= 128 ->
    exists ns, size_tokens wss_obj wss_byte ignore fraction n ts = Ok ns.
  Proof.
    intros HF. revert n. induction HF as [|t ts Ht _ IH]; intros n Hn; [by exists []|].
    cbn [size_tokens length] in *.
    assert (exists v, (if bool_decide (46 ∈ t) then Ok (fraction (the_wss wss_obj wss_byte ignore) t) else conv_size t) = Ok v) as [v ->].
    { destruct (bool_decide (46 ∈ t)); [by eexists|]. unfold conv_size. destruct (eqci t (lit "auto")); [by eexists|].
      destruct (last t) eqn:E; [|by apply last_None in E]. repeat case_match; by eexists. }
    cbn [rbind]. unfold N_MAX_CACHE_SIZE. rewrite decide_False by lia.
    destruct (IH (n + 1) ltac:(lia)) as [ns ->]. by eexists.
  Qed.
  (** C57: with fewer than 128 commas the text, whatever it is, is read within
      its bounds. *)
  Theorem C57_sizes_safe s :
    Z.of_nat (length (filter (fun x => x = 44) s)) < 128 -> exists o, convert s = Ok o.
  Proof.
    intros Hl. unfold conv_cache_sizes.
    destruct (size_tokens_safe (tokens 44 s) 0) as [ns ->].
    - apply Forall_forall. intros t. apply token_nonempty.
    - unfold tokens. pose proof (filter_length (fun t : list Z => t <> []) (split_on 44 s)) as H1.
      rewrite split_length in H1. lia.
    - cbn [rbind]. destruct ns as [|[| |] [|? ?]]; by eexists.
  Qed.

  (** C57: "auto" or 0 alone asks for automatic sizes. *)
  Theorem C57_auto t :
    same_text t (bytes_of "auto") \/ size_text t 0 ->
    convert t = Ok (auto_sizes wss_obj wss_byte ignore part).
  Proof.
    intros H. assert (Hc : 44 ∉ t /\ 46 ∉ t /\ t <> [] /\ conv_size t = Ok 0).
    { destruct H as [H|H].
      - pose proof (lower_same_text _ _ H) as Hl.
        assert (forall x, 44 <= x <= 46 -> x ∉ t) as Hx.
        { intros x Hx Hin. apply (elem_of_list_fmap_1 lower) in Hin. rewrite Hl in Hin.
          assert (lower x = x) as Hlx. { unfold lower. destruct (Z.leb_spec 65 x); [lia|done]. } rewrite Hlx in Hin.
          change (x ∈ [97; 117; 116; 111]) in Hin. rewrite !elem_of_cons, elem_of_nil in Hin. lia. }
        split; [apply Hx; lia|]. split; [apply Hx; lia|]. split; [intros ->; by apply Forall2_length in H|].
        unfold conv_size. by rewrite eqci_same.
      - pose proof (size_text_chars _ _ H). apply conv_size_text in H. naive_solver. }
    destruct Hc as (H1 & H2 & H3 & H4). unfold conv_cache_sizes.
    pose proof (tokens_comma [t]) as HT. cbn [comma_list] in HT. rewrite HT by (by repeat constructor).
    cbn [size_tokens]. rewrite bool_decide_eq_false_2 by done. rewrite H4. cbn. done.
  Qed.

  Lemma omap_drop {B} (big : nat -> bool) (f : nat -> B) n : forall a,
    (forall i j, (i <= j)%nat -> big i = true -> big j = true) ->
    exists k, (k <= n)%nat /\ omap (fun i => if big i then Some (f i) else None) (seq a n) = f <$> drop k (seq a n) /\
      Forall (fun i => big i = true) (drop k (seq a n)) /\ (k = n -> Forall (fun i => big i = false) (seq a n)).
  Proof.
    induction n as [|n IH]; intros a Hm; [exists 0%nat; repeat split; (done || constructor)|].
    destruct (big a) eqn:Ea.
    - exists 0%nat. split; [lia|]. cbn [drop].
      assert (HA : Forall (fun i => big i = true) (seq a (S n))).
      { apply Forall_forall. intros i Hi%elem_of_seq. apply (Hm a); [lia|done]. }
      split; [|split; [done|lia]]. induction HA as [|i l Hi _ IHl]; [done|]. cbn. by rewrite Hi, IHl.
    - destruct (IH (S a) Hm) as (k & Hk & E & HF & HN). exists (S k). split; [lia|]. cbn. rewrite Ea. split; [done|].
      split; [done|]. intros ?. constructor; [done|]. apply HN. lia.
  Qed.

  (** C57: the automatic sizes are the products of the larger ratios with the
      working set, as far as they leave room for five objects (ignoring sizes) or
      one hundred; when none does the program ends.  [part i w] is the i-th of
      eight increasing ratios of w. *)
  Theorem C57_auto_sizes :
    (forall i j w w', (i <= j)%nat -> 0 <= w <= w' -> 0 <= part i w <= part j w' /\ part j w' <= w') ->
    0 <= wss_obj <= wss_byte -> wss_byte < 2 ^ 63 ->
    let few := if ignore then 5 else 100 in
    match auto_sizes wss_obj wss_byte ignore part with
    | Some l => exists k, (k < 8)%nat /\ l = (fun i => part i wss) <$> seq k (8 - k) /\ Forall (fun z => few <= z) l
    | None => forall i, (i < 8)%nat -> part i wss_obj < few
    end.
  Proof.
    intros Hpart Ho Hb few. unfold auto_sizes. fold (the_wss wss_obj wss_byte ignore).
    set (big := fun i => if ignore then bool_decide (part i wss_obj > 4) else bool_decide (part i wss_obj >= 100)).
    assert (Hbig : forall i, big i = true <-> few <= part i wss_obj).
    { intros i. unfold big, few. destruct ignore; rewrite bool_decide_eq_true; lia. }
    destruct (omap_drop big (fun i => u64 (part i (the_wss wss_obj wss_byte ignore))) 8 0) as (k & Hk & E & HF & HN).
    { intros i j Hij Hi. apply Hbig in Hi. apply Hbig. destruct (Hpart i j wss_obj wss_obj Hij ltac:(lia)). lia. }
    change (omap _ (seq 0 8)) with (omap (fun i => if big i then Some (u64 (part i (the_wss wss_obj wss_byte ignore))) else None) (seq 0 8)).
    rewrite E. assert (Hd : drop k (seq 0 8) = seq k (8 - k)).
    { clear -Hk. do 9 (destruct k as [|k]; [done|]). lia. }
    rewrite Hd in *. destruct (decide (k = 8%nat)) as [->|Hk8].
    { cbn. intros i Hi. specialize (HN eq_refl). rewrite Forall_forall in HN.
      specialize (HN i ltac:(apply elem_of_seq; lia)). destruct (decide (few <= part i wss_obj)) as [H|]; [|lia].
      apply Hbig in H. congruence. }
    assert (Hw : wss_obj <= the_wss wss_obj wss_byte ignore < 2 ^ 63) by (unfold the_wss; destruct ignore; lia).
    assert (Hf : (fun i => u64 (part i (the_wss wss_obj wss_byte ignore))) <$> seq k (8 - k) =
                 (fun i => part i wss) <$> seq k (8 - k)).
    { apply list_fmap_ext. intros _ i _. unfold u64. fold (the_wss wss_obj wss_byte ignore).
      destruct (Hpart i i (the_wss wss_obj wss_byte ignore) (the_wss wss_obj wss_byte ignore) ltac:(lia) ltac:(lia)).
      apply Z.mod_small. lia. }
    rewrite Hf. destruct (8 - k)%nat as [|m] eqn:Em; [lia|]. cbn [seq fmap list_fmap] in HF |- *.
    exists k. split; [lia|]. rewrite Em. split; [done|].
    change (Forall (fun z => few <= z) ((fun i => part i (the_wss wss_obj wss_byte ignore)) <$> seq k (S m))).
    apply Forall_fmap. eapply Forall_impl; [exact HF|]. intros i Hi. cbn. apply Hbig in Hi.
    destruct (Hpart i i wss_obj (the_wss wss_obj wss_byte ignore) ltac:(lia) ltac:(lia)). lia.
  Qed.
End Sizes.

(** Ratios 1/1000, 3/1000, ... in exact arithmetic, for the examples. *)
Definition ratio_ex (i : nat) (w : Z) : Z := w * default 0 ([1; 3; 10; 30; 100; 200; 400; 800] !! Nat.min i 7) / 1000.
Definition tenth_ex (w : Z) (t : list Z) : Z := w / 10.

Example C57_sizes_ex :
  conv_cache_sizes 300 5000 false tenth_ex ratio_ex (bytes_of "1024,2KB,0.1,3g") =
    Ok (Some [1024; 2048; 500; 3221225472]) /\
  Forall2 (entry 300 5000 false tenth_ex) [bytes_of "1024"; bytes_of "0.1"] [1024; 500] /\
  comma_list [bytes_of "1024"; bytes_of "0.1"] = bytes_of "1024,0.1".
Proof.
  split; [vm_compute; reflexivity|]. split; [|vm_compute; reflexivity]. constructor; [|constructor; [|constructor]].
  - left. exists (bytes_of "1024"), 1024, ""%string, [], 1. repeat split; try done.
    + vm_compute. repeat constructor; discriminate.
    + by apply elem_of_list_In; cbn; tauto.
    + constructor.
  - right. split; [|done]. split; vm_compute.
    + right. left.
    + intros H. repeat (inversion H as [|? ? ? H']; subst; clear H; rename H' into H).
Qed.
Example C57_auto_ex :
  conv_cache_sizes 300 5000 false tenth_ex ratio_ex (bytes_of "AUTO") = Ok (Some [2000; 4000]) /\
  conv_cache_sizes 300 5000 true tenth_ex ratio_ex (bytes_of "0") = Ok (Some [9; 30; 60; 120; 240]) /\
  conv_cache_sizes 30 5000 false tenth_ex ratio_ex (bytes_of "auto") = Ok None.
Proof. vm_compute. repeat split; reflexivity. Qed.
Lemma ratio_ex_ok i j w w' :
  (i <= j)%nat -> 0 <= w <= w' -> 0 <= ratio_ex i w <= ratio_ex j w' /\ ratio_ex j w' <= w'.
Proof.
  intros Hij Hw. unfold ratio_ex.
  set (a := default 0 ([1; 3; 10; 30; 100; 200; 400; 800] !! Nat.min i 7)).
  set (b := default 0 ([1; 3; 10; 30; 100; 200; 400; 800] !! Nat.min j 7)).
  assert (0 <= a <= b /\ b <= 1000).
  { unfold a, b. clear a b. assert (Hm : (Nat.min i 7 <= Nat.min j 7)%nat) by lia.
    assert (Hm7 : (Nat.min j 7 <= 7)%nat) by lia.
    generalize dependent (Nat.min j 7). generalize dependent (Nat.min i 7). intros x y ? ?.
    do 8 (destruct y as [|y]; [do 8 (destruct x as [|x]; [cbn; lia|]); lia|]). lia. }
  split; [split|].
  - apply Z.div_pos; nia.
  - apply Z.div_le_mono; nia.
  - apply Z.div_le_upper_bound; nia.
Qed.

(** C57 fails: common ways to write a size mean something else.  "1KiB" and
    "1 GiB" are 1 byte, "1.5GB" is one and a half working sets, "2e9" is 2, a
    product that does not fit wraps to 0, and 0 in a list is a cache of size 0
    instead of automatic sizes. *)
Theorem C57_size_refuted :
  conv_size (bytes_of "1KiB") = Ok 1 /\ conv_size (bytes_of "1 GiB") = Ok 1 /\ conv_size (bytes_of "2e9") = Ok 2 /\
  conv_size (bytes_of "16777216TB") = Ok 0 /\ conv_size (bytes_of "-2") = Ok (2 ^ 64 - 2) /\
  conv_size (bytes_of "-1MB") = Ok (2 ^ 64 - 2 ^ 20) /\
  (forall wo wb ig fr pt, conv_cache_sizes wo wb ig fr pt (bytes_of "1.5GB") =
     Ok (if decide (fr (if (ig : bool) then wo else wb) (bytes_of "1.5GB") = 0) then auto_sizes wo wb ig pt
         else Some [fr (if ig then wo else wb) (bytes_of "1.5GB")])) /\
  (forall wo wb ig fr pt, conv_cache_sizes wo wb ig fr pt (bytes_of "auto,1GB") = Ok (Some [0; 2 ^ 30])).
Proof.
  split; [vm_compute; reflexivity|]. split; [vm_compute; reflexivity|]. split; [vm_compute; reflexivity|].
  split; [vm_compute; reflexivity|]. split; [vm_compute; reflexivity|]. split; [vm_compute; reflexivity|]. split.
  - intros wo wb ig fr pt. unfold conv_cache_sizes.
    assert (tokens 44 (bytes_of "1.5GB") = [bytes_of "1.5GB"]) as -> by (vm_compute; reflexivity).
    cbn [size_tokens]. rewrite bool_decide_eq_true_2 by (vm_compute; right; left). cbn [rbind].
    rewrite decide_False by (unfold N_MAX_CACHE_SIZE; lia). unfold the_wss. cbn [rbind].
    generalize (fr (if ig then wo else wb) (bytes_of "1.5GB")). intros [|p|p].
    + by rewrite decide_True.
    + by rewrite decide_False.
    + by rewrite decide_False.
  - intros wo wb ig fr pt. unfold conv_cache_sizes.
    assert (tokens 44 (bytes_of "auto,1GB") = [bytes_of "auto"; bytes_of "1GB"]) as -> by (vm_compute; reflexivity).
    cbn [size_tokens].
    assert (bool_decide (46 ∈ bytes_of "auto") = false) as -> by (vm_compute; reflexivity).
    assert (bool_decide (46 ∈ bytes_of "1GB") = false) as -> by (vm_compute; reflexivity).
    assert (conv_size (bytes_of "auto") = Ok 0) as -> by (vm_compute; reflexivity).
    assert (conv_size (bytes_of "1GB") = Ok (2 ^ 30)) as -> by (vm_compute; reflexivity).
    done.
Qed.

(** * Algorithms and caches *)

Definition names_ok (as_ : list (list Z)) : Prop := Forall (fun a => 44 ∉ a) as_ /\ last as_ <> Some [].

Lemma comma_list_nonempty a l : last (a :: l) <> Some [] -> comma_list (a :: l) <> [].
Proof. destruct l as [|b l]; cbn; [by intros H ->|]. intros _ H. by apply app_eq_nil in H as [_ ?]. Qed.
Lemma comma_list_length l : (length l <= S (length (comma_list l)))%nat.
Proof.
  induction l as [|a l IH]; [cbn; lia|]. destruct l as [|b l]; [cbn; lia|].
  change (comma_list (a :: b :: l)) with (a ++ 44 :: comma_list (b :: l)). rewrite app_length. cbn [length] in *. lia.
Qed.

Lemma algo_loop_spec l : forall fuel n,
  names_ok l -> 0 <= n <= 16 -> (length (comma_list l) <= fuel)%nat ->
  algo_loop fuel n (comma_list l) = if decide (n + Z.of_nat (length l) <= 16) then Ok l else Err OutOfBounds.
Proof.
  induction l as [|a l IH]; intros fuel n [HF Hlast] Hn Hfuel.
  { rewrite decide_True by (cbn; lia). by destruct fuel. }
  pose proof (comma_list_nonempty a l Hlast) as Hne. inversion HF as [|? ? Ha HF']; subst.
  destruct fuel as [|fuel]; [destruct (comma_list (a :: l)); [done|cbn in Hfuel; lia]|].
  assert (Hstep : algo_loop (S fuel) n (comma_list (a :: l)) =
    if decide (n >= N_MAX_ALGO) then Err OutOfBounds else
      let '(x, r) := sep 44 (comma_list (a :: l)) in
      let! k := match r with Some s' => algo_loop fuel (n + 1) s' | None => Ok [] end in Ok (x :: k)).
  { destruct (comma_list (a :: l)); done. }
  rewrite Hstep. unfold N_MAX_ALGO. destruct (decide (n >= 16)).
  { rewrite decide_False; [done|]. cbn. lia. }
  destruct l as [|b l].
  - cbn [comma_list]. rewrite sep_no by done. cbn [rbind]. rewrite decide_True; [done|]. cbn. lia.
  - change (comma_list (a :: b :: l)) with (a ++ 44 :: comma_list (b :: l)) in *.
    rewrite sep_app by done. rewrite IH.
    + cbn [length]. destruct (decide (n + 1 + _ <= 16)), (decide (n + _ <= 16)); try done; cbn in *; lia.
    + by split.
    + lia.
    + rewrite app_length in Hfuel. cbn in Hfuel |- *. lia.
Qed.

(** C57: up to 16 names (together shorter than 4096 bytes) are kept as they are;
    more than 16 are written past the array. *)
Theorem C57_algorithms l :
  names_ok l -> (length (comma_list l) < 4096)%nat ->
  parse_algos (comma_list l) = if decide (length l <= 16)%nat then Ok l else Err OutOfBounds.
Proof.
  intros Hok Hl. unfold parse_algos. rewrite decide_False by lia.
  rewrite algo_loop_spec by (done || lia). destruct (decide (0 + _ <= 16)), (decide (_ <= 16)%nat); try done; lia.
Qed.
Example C57_algorithms_ex :
  names_ok [bytes_of "lru"; bytes_of "s3fifo"] /\ comma_list [bytes_of "lru"; bytes_of "s3fifo"] = bytes_of "lru,s3fifo" /\
  parse_algos (bytes_of "lru,s3fifo") = Ok [bytes_of "lru"; bytes_of "s3fifo"].
Proof.
  split; [|split; vm_compute; reflexivity]. split; [|done]. repeat constructor; vm_compute; intros H;
    repeat (inversion H as [|? ? ? H']; subst; clear H; rename H' into H).
Qed.

(** C57: there is one cache for each algorithm and size, and it is found at
    index i * (number of sizes) + j. *)
Theorem C57_caches algos sizes i j a z :
  algos !! i = Some a -> sizes !! j = Some z ->
  cache_list algos sizes !! (i * length sizes + j)%nat = Some (a, z) /\
  length (cache_list algos sizes) = (length algos * length sizes)%nat.
Proof.
  intros Hi Hj. unfold cache_list. pose proof (lookup_lt_Some _ _ _ Hj) as Hlt. revert i Hi.
  induction algos as [|b algos IH]; intros i Hi; [done|]. cbn [mbind list_bind length].
  destruct i as [|i].
  - injection Hi as ->. split.
    + rewrite lookup_app_l by (rewrite fmap_length; lia). cbn. by rewrite list_lookup_fmap, Hj.
    + rewrite app_length, fmap_length. clear IH. assert (forall k : list (list Z),
        length (k ≫= (fun a => (fun z => (a, z)) <$> sizes)) = (length k * length sizes)%nat) as E.
      { induction k as [|x k IHk]; [done|]. cbn. rewrite app_length, fmap_length, IHk. lia. }
      cbn in E. rewrite E. lia.
  - cbn in Hi. destruct (IH i Hi) as [E1 E2]. split.
    + rewrite lookup_app_r by (rewrite fmap_length; lia). rewrite fmap_length.
      replace (S i * length sizes + j - length sizes)%nat with (i * length sizes + j)%nat by lia. exact E1.
    + rewrite app_length, fmap_length. cbn in E2. rewrite E2. lia.
Qed.
Example C57_caches_ex :
  cache_list [[1]; [2]] [10; 20; 30] = [([1], 10); ([1], 20); ([1], 30); ([2], 10); ([2], 20); ([2], 30)].
Proof. reflexivity. Qed.

(** * Trace parameters *)

(** C58: a text of settings sets exactly the fields it names, the last setting of
    a field counts; the other fields keep the caller's value, except that ids are
    not numbers and there is no delimiter unless the text says so. *)
Theorem C58_params t l p :
  settings_text t l -> exists p', parse_params (Some t) p = Ok p' /\
    rp_time p' = default (rp_time p) (last_of sel_time l) /\
    rp_id p' = default (rp_id p) (last_of sel_id l) /\
    rp_size p' = default (rp_size p) (last_of sel_size l) /\
    rp_cnt p' = default (rp_cnt p) (last_of sel_cnt l) /\
    rp_next p' = default (rp_next p) (last_of sel_next l) /\
    rp_idnum p' = default false (last_of sel_idnum l) /\
    rp_hdr p' = default (rp_hdr p) (last_of sel_header l) /\
    rp_hdrset p' = (if last_of sel_header l then true else rp_hdrset p) /\
    rp_fmt p' = (if last_of sel_format l then last_of sel_format l else rp_fmt p) /\
    rp_delim p' = default 0 (last_of sel_delim l).
Proof.
  intros Ht. unfold parse_params. rewrite (param_loop_spec _ _ Ht) by lia.
  match goal with |- context [foldl apply_setting ?q l] => set (p0 := q) end.
  eexists. split; [reflexivity|].
  assert (HF : forall {A B} (field : rparams -> B) (sel : setting -> option A) (g : A -> B),
    (forall p s, field (apply_setting p s) = match sel s with Some a => g a | None => field p end) ->
    field (foldl apply_setting p0 l) = match last_of sel l with Some a => g a | None => field p0 end).
  { intros. by apply fold_field. }
  rewrite (HF _ _ rp_time sel_time id) by (intros [] []; done).
  rewrite (HF _ _ rp_id sel_id id) by (intros [] []; done).
  rewrite (HF _ _ rp_size sel_size id) by (intros [] []; done).
  rewrite (HF _ _ rp_cnt sel_cnt id) by (intros [] []; done).
  rewrite (HF _ _ rp_next sel_next id) by (intros [] []; done).
  rewrite (HF _ _ rp_idnum sel_idnum id) by (intros [] []; done).
  rewrite (HF _ _ rp_hdr sel_header id) by (intros [] []; done).
  rewrite (HF _ _ rp_hdrset sel_header (fun _ => true)) by (intros [] []; done).
  rewrite (HF _ _ rp_fmt sel_format Some) by (intros [] []; done).
  rewrite (HF _ _ rp_delim sel_delim id) by (intros [] []; done).
  unfold p0. cbn [rp_time rp_id rp_size rp_cnt rp_next rp_idnum rp_hdr rp_hdrset rp_fmt rp_delim].
  repeat split; by destruct (last_of _ l).
Qed.

(** The example of the documentation, doc/quickstart_cachesim.md:115. *)
Definition doc_params : list Z := bytes_of "time-col=2, obj-id-col=5, obj_size-COL=4, delimiter=,, has-header=true".
Example C58_params_ex :
  settings_text doc_params [SetTime 2; SetId 5; SetSize 4; SetDelim 44; SetHeader true] /\
  parse_params (Some doc_params) rp0 = Ok (mkRP 2 5 4 0 0 false true true None 44).
Proof.
  split; [|vm_compute; reflexivity].
  assert (Hcol : forall c n, c = 48 + n -> 1 <= n <= 9 -> column_text [c] n).
  { intros c n -> Hn. split; [|split; [|lia]].
    - split; [done|]. split; [repeat constructor; lia|]. cbn [foldl]. lia.
    - cbn [head hd_error]. intros H. injection H as H. lia. }
  assert (Hsp : forall k n, Forall2 (fun a b => same_char a b \/ (a = 95 /\ b = 45)) k (bytes_of n) -> spelled k n) by done.
  change doc_params with (bytes_of "time-col=2" ++ 44 :: [32] ++ (bytes_of "obj-id-col=5" ++ 44 :: [32] ++
    (bytes_of "obj_size-COL=4" ++ 44 :: [32] ++ (bytes_of "delimiter=" ++ 44 :: [44; 32] ++ bytes_of "has-header=true")))).
  repeat (apply st_more; [|repeat constructor; lia| |split; vm_compute; discriminate]); [..|apply st_one].
  - exists (bytes_of "time-col"), [50]. split; [reflexivity|]. split; [vm_compute; intros H; inversion H as [|? ? ? H']; inversion H'|].
    split; [left|by apply Hcol]. apply Hsp. vm_compute bytes_of. repeat (constructor; [unfold same_char; lia|]). constructor.
  - exists (bytes_of "obj-id-col"), [53]. split; [reflexivity|]. split; [vm_compute; intros H; inversion H as [|? ? ? H']; inversion H'|].
    split; [left|by apply Hcol]. apply Hsp. vm_compute bytes_of. repeat (constructor; [unfold same_char; lia|]). constructor.
  - exists (bytes_of "obj_size-COL"), [52]. split; [reflexivity|]. split; [vm_compute; intros H; inversion H as [|? ? ? H']; inversion H'|].
    split; [left|by apply Hcol]. apply Hsp. vm_compute bytes_of. repeat (constructor; [unfold same_char; lia|]). constructor.
  - exists (bytes_of "delimiter"), []. split; [reflexivity|]. split; [apply not_elem_of_nil|].
    split; [|right; right; split; [by left|done]]. apply Hsp. vm_compute bytes_of. repeat (constructor; [unfold same_char; lia|]). constructor.
  - exists (bytes_of "has-header"), (bytes_of "true"). split; [reflexivity|].
    split; [by apply (bool_decide_unpack (44 ∉ bytes_of "true")); vm_compute|].
    split; [right; apply Hsp; vm_compute bytes_of; repeat (constructor; [unfold same_char; lia|]); constructor|].
    exists "true"%string. split; [|left]. unfold same_text. vm_compute bytes_of. repeat (constructor; [unfold same_char; lia|]). constructor.
Qed.

(** C58 fails: the example in the help text of cachesim ends the program; a key
    without a value dereferences NULL; text after a number is accepted; a
    leading zero means octal; a column number is cut to 32 bits. *)
Theorem C58_params_refuted :
  parse_params (Some (bytes_of "obj-id-col=1;delimiter=,")) rp0 = Err AssertFail /\
  parse_params (Some (bytes_of "obj-id-col=1,header")) rp0 = Err NullDeref /\
  parse_params (Some (bytes_of "obj-id-col=1st")) rp0 = Ok (mkRP 0 1 0 0 0 false false false None 0) /\
  parse_params (Some (bytes_of "obj-id-col=010")) rp0 = Ok (mkRP 0 8 0 0 0 false false false None 0) /\
  parse_params (Some (bytes_of "obj-id-col=4294967301")) rp0 = Ok (mkRP 0 5 0 0 0 false false false None 0).
Proof. vm_compute. repeat split. Qed.

(** C58 fails: without parameters the caller's obj_id_is_num is lost, as is a
    delimiter; and a csv trace for which no size column is named is not taken to
    be a trace without sizes. *)
Theorem C58_defaults_refuted :
  (forall p, exists p', parse_params None p = Ok p' /\ rp_idnum p' = false /\ rp_delim p' = 0) /\
  rp_idnum rp0 = true /\
  (forall t l p', settings_text t l -> last_of sel_size l = None ->
     parse_params (Some t) rp0 = Ok p' -> sizes_ignored TCsv p' false = false).
Proof.
  split; [|split; [done|]].
  - intros p. by eexists.
  - intros t l p' Ht Hl Hp. destruct (C58_params t l rp0 Ht) as (q & Hq & _ & _ & Hs & _).
    rewrite Hp in Hq. injection Hq as ->. unfold sizes_ignored. rewrite Hs, Hl. done.
Qed.
Example C58_defaults_ex :
  parse_params (Some (bytes_of "time-col=1,obj-id-col=2")) rp0 = Ok (mkRP 1 2 0 0 0 false false false None 0).
Proof. vm_compute. reflexivity. Qed.

(** * Trace types *)

(** The names the help text and the documentation give. *)
Definition documented_types : list (string * ttype) :=
  [("txt", TTxt); ("csv", TCsv); ("binary", TBin); ("vscsi", TVscsi); ("twr", TTwr);
   ("oracleGeneral", TOracleGeneral); ("oracleGeneralBin", TOracleGeneral); ("lcs", TLcs);
   ("twrNS", TTwrNS); ("CF1", TCF1); ("valpinTrace", TValpin)]%string.

(** C58: a trace type is recognised by its name in any case, whatever the path. *)
Theorem C58_types n ty s path :
  (n, ty) ∈ documented_types -> same_text s (bytes_of n) -> open_type s path = Ok ty.
Proof.
  intros Hn Hs. apply lower_same_text in Hs. unfold open_type, trace_type.
  assert (Hby : forall l, by_name s l = by_name (lit n) l).
  { induction l as [|[m u] l IH]; [done|]. cbn. by rewrite (eqci_via s (lit n) _ Hs), IH. }
  rewrite Hby, (eqci_via s (lit n) _ Hs).
  unfold documented_types in Hn.
  repeat (apply elem_of_cons in Hn as [Hn|Hn]; [injection Hn as -> ->; vm_compute; reflexivity|]).
  by apply elem_of_nil in Hn.
Qed.
Example C58_types_ex : open_type (bytes_of "OracleGENERAL") (bytes_of "x") = Ok TOracleGeneral.
Proof. vm_compute. reflexivity. Qed.

(** C58 fails: "auto" never opens a trace, although the type is detected; and for
    a path shorter than 13 characters the detection reads before it. *)
Theorem C58_auto_refuted :
  (forall path, exists e, open_type (bytes_of "auto") path = Err e) /\
  detect (bytes_of "/data/w92.oracleGeneral.bin") = Ok TOracleGeneral /\
  (forall path, (length path < 13)%nat -> detect path = Err OutOfBounds \/ detect path = Ok TOracleGeneral) /\
  open_type (bytes_of "auto") (bytes_of "trace.vscsi") = Err OutOfBounds.
Proof.
  split; [|split; [vm_compute; reflexivity|split; [|vm_compute; reflexivity]]].
  - intros path. unfold open_type, trace_type.
    change (eqci (bytes_of "auto") (lit "auto")) with true. cbn [rbind].
    destruct (detect path) as [ty|e]; cbn [rbind]; [|by eexists].
    destruct (decide (ty = TUnknown)); cbn [rbind]; [by eexists|]. rewrite decide_True by done. by eexists.
  - intros path Hl. unfold detect. destruct (_ || _); [by right|]. rewrite decide_True by lia. by left.
Qed.

Lemma is_prefix_app n t : is_prefix n (n ++ t) = true.
Proof. induction n as [|x n IH]; [done|]. cbn. by rewrite Z.eqb_refl. Qed.
Lemma has_sub_app n a t : has_sub n (a ++ n ++ t) = true.
Proof.
  induction a as [|x a IH].
  - cbn [app]. destruct (n ++ t) as [|y l] eqn:E; cbn [has_sub]; rewrite <-?E; [|by rewrite is_prefix_app].
    apply app_eq_nil in E as [-> ->]. done.
  - cbn [app has_sub]. rewrite IH. by rewrite orb_true_r.
Qed.

(** C58: detection recognises every path that contains "oracleGeneral." or ends
    with "oracleGeneral", in any case. *)
Theorem C58_detect path a b u :
  (same_text u (bytes_of "oracleGeneral.") /\ path = a ++ u ++ b) \/
  (same_text u (bytes_of "oracleGeneral") /\ path = a ++ u) ->
  detect path = Ok TOracleGeneral.
Proof.
  intros [[Hu ->]|[Hu ->]]; pose proof (lower_same_text _ _ Hu) as Hl; unfold detect.
  - assert (has_subci (lit "oracleGeneral.") (a ++ u ++ b) = true) as ->.
    { unfold has_subci. rewrite !fmap_app, Hl. apply has_sub_app. }
    by rewrite !orb_true_r.
  - destruct (_ || _); [done|]. assert (Hlen : length u = 13%nat) by by rewrite (Forall2_length _ _ _ Hu).
    rewrite app_length. rewrite decide_False by lia.
    replace (length a + length u - 13)%nat with (length a) by lia.
    rewrite drop_app. by rewrite eqci_same.
Qed.
Example C58_detect_ex : detect (bytes_of "/d/trace.ORACLEgeneral") = Ok TOracleGeneral /\ detect (bytes_of "/data/trace.vscsi") = Ok TVscsi.
Proof. vm_compute. done. Qed.
