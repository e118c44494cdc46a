(** C84: the distribution of size changes. *)
From stdpp Require Import gmap list numbers fin_maps.
From Verif Require Import Base ModelAnalyzer SpecAnalyzer AnalyzerFacts ModelSizeChange SpecSizeChange.
Open Scope Z_scope.

Lemma halvings_log2 fuel : forall c, 0 < c < 2 ^ Z.of_nat fuel -> halvings (S fuel) c = Ok (Z.log2 c + 1).
Proof.
  induction fuel as [|k IH]; intros c Hc; [change (2 ^ Z.of_nat 0) with 1 in Hc; lia|].
  rewrite Nat2Z.inj_succ, Z.pow_succ_r in Hc by lia.
  change (halvings (S (S k)) c) with (if decide (c > 0) then let! n := halvings (S k) (c / 2) in Ok (n + 1) else Ok 0).
  rewrite decide_True by lia. destruct (decide (c = 1)) as [->|].
  - change (1 / 2) with 0. cbn. done.
  - assert (0 < c / 2) by (apply Z.div_str_pos; lia). rewrite IH; [|split; [done|apply Z.div_lt_upper_bound; lia]].
    cbn [rbind]. f_equal. rewrite (Z.div_mod c 2) at 2 by lia.
    assert (0 <= c mod 2 < 2) by (apply Z.mod_pos_bound; lia).
    destruct (decide (c mod 2 = 0)) as [->|].
    + rewrite Z.add_0_r, Z.log2_double by lia. lia.
    + replace (c mod 2) with 1 by lia. rewrite Z.log2_succ_double by lia. lia.
Qed.
Lemma pow_label k : 0 <= k <= 14 -> abs_labels !! Z.to_nat (17 + k) = Some (At (2 ^ k)) /\ abs_labels !! Z.to_nat (15 - k) = Some (At (- 2 ^ k)).
Proof.
  intros H. assert (k = 0 \/ k = 1 \/ k = 2 \/ k = 3 \/ k = 4 \/ k = 5 \/ k = 6 \/ k = 7 \/ k = 8 \/ k = 9 \/ k = 10 \/ k = 11 \/ k = 12 \/ k = 13 \/ k = 14) as Hk by lia.
  repeat (destruct Hk as [->|Hk]; [by vm_compute|]). subst. by vm_compute.
Qed.

(** The absolute change of a size is counted under the largest power of two that is
    not larger, with its sign; from 32768 on under ">16384" or "<-16384". *)
Theorem C84_absolute d : - 2 ^ 31 < d < 2 ^ 31 -> exists p, abs_pos d = Ok p /\ 0 <= p < 33 /\
  abs_labels !! Z.to_nat p = Some
    (if decide (d = 0) then At 0
     else if decide (32768 <= d) then Above 16384 else if decide (d <= -32768) then Below (-16384)
     else At (Z.sgn d * 2 ^ Z.log2 (Z.abs d))).
Proof.
  intros Hd. unfold abs_pos. change (Z.quot n_bins_absolute 2) with 16. change n_bins_absolute with 33.
  destruct (decide (d = 0)) as [->|Hz]; [exists 16; split; [done|]; split; [lia|done]|].
  assert (Hlog : forall c, 0 < c -> (c < 32768 -> 0 <= Z.log2 c <= 14) /\ (32768 <= c -> 15 <= Z.log2 c)).
  { intros c Hc. split; intros H.
    - split; [apply Z.log2_nonneg|]. assert (Z.log2 c < 15); [|lia]. apply Z.log2_lt_pow2; [lia|]. change (2 ^ 15) with 32768. lia.
    - change 15 with (Z.log2 32768). by apply Z.log2_le_mono. }
  destruct (decide (d > 0)).
  - rewrite (halvings_log2 32 d) by (change (2 ^ Z.of_nat 32) with (2 ^ 32); lia). cbn [rbind]. destruct (Hlog d ltac:(lia)) as [H1 H2].
    eexists. split; [done|]. destruct (decide (32768 <= d)) as [Hb|Hb].
    + destruct (decide (16 + (Z.log2 d + 1) >= 33)); [split; [lia|done]|]. replace (16 + (Z.log2 d + 1)) with 32 by lia. split; [vm_compute; done|done].
    + rewrite decide_False by lia. rewrite decide_False by lia. split; [lia|]. rewrite decide_False by lia.
      rewrite Z.sgn_pos, Z.abs_eq, Z.mul_1_l by lia. replace (16 + (Z.log2 d + 1)) with (17 + Z.log2 d) by lia. apply pow_label. lia.
  - rewrite decide_False by lia. rewrite (halvings_log2 32 (- d)) by (change (2 ^ Z.of_nat 32) with (2 ^ 32); lia). cbn [rbind].
    destruct (Hlog (- d) ltac:(lia)) as [H1 H2]. eexists. split; [done|]. rewrite decide_False by lia.
    rewrite (decide_False (P := 32768 <= d)) by lia. destruct (decide (d <= -32768)) as [Hb|Hb].
    + destruct (decide (16 - (Z.log2 (- d) + 1) < 0)); (split; [lia|]); [done|]. replace (16 - (Z.log2 (- d) + 1)) with 0 by lia. done.
    + rewrite decide_False by lia. split; [lia|]. rewrite Z.sgn_neg, Z.abs_neq by lia.
      replace (16 - (Z.log2 (- d) + 1)) with (15 - Z.log2 (- d)) by lia. destruct (pow_label (Z.log2 (- d))) as [_ ->]; [lia|]. do 2 f_equal.
Qed.

Lemma bounds_range bs d p : 1 <= bounds_passed bs d p <= Z.of_nat (length bs) + 1.
Proof. induction bs as [|b bs IH]; cbn [bounds_passed length]; [lia|]. destruct (decide _); lia. Qed.
Lemma rel_pos_range d p : 0 <= rel_pos d p < 29.
Proof.
  unfold rel_pos. change (Z.quot n_bins_relative 2) with 14. pose proof (bounds_range rel_bounds d p) as H. change (Z.of_nat (length rel_bounds)) with 13 in H.
  repeat destruct (decide _); lia.
Qed.

(** Relative changes have the wrong sign, and shrinking is not told apart: an object
    that grows (by 1/100000 or more) is counted under a negative label, one that
    shrinks, by whatever part, under "0.0001". *)
Theorem C84_relative_refuted d p : 0 < p -> p <= Z.abs d * 100000 ->
  (0 < d -> rel_labels !! Z.to_nat (rel_pos d p) = Some (Below (-1000)) \/ exists z, z < 0 /\ rel_labels !! Z.to_nat (rel_pos d p) = Some (At z)) /\
  (d < 0 -> rel_labels !! Z.to_nat (rel_pos d p) = Some (At 1)).
Proof.
  intros Hp Hd. unfold rel_pos. change (Z.quot n_bins_relative 2) with 14. rewrite decide_False by lia. rewrite decide_False by lia. split; intros Hs.
  - rewrite decide_True by lia. pose proof (bounds_range rel_bounds d p) as H. change (Z.of_nat (length rel_bounds)) with 13 in H.
    set (k := bounds_passed _ _ _) in *. clearbody k.
    assert (k = 1 \/ k = 2 \/ k = 3 \/ k = 4 \/ k = 5 \/ k = 6 \/ k = 7 \/ k = 8 \/ k = 9 \/ k = 10 \/ k = 11 \/ k = 12 \/ k = 13 \/ k = 14) as Hk by lia.
    repeat (destruct Hk as [->|Hk]; [right; vm_compute; eexists; split; [|reflexivity]; done|]). subst. by left.
  - rewrite decide_False by lia. cbn [bounds_passed rel_bounds]. rewrite decide_True by lia. done.
Qed.
Example C84_relative_ex : rel_labels !! Z.to_nat (rel_pos 100 100) = Some (Below (-1000)) /\
  rel_labels !! Z.to_nat (rel_pos (-50) 100) = Some (At 1) /\ rel_labels !! Z.to_nat (rel_pos 3 10000) = Some (At (-5)).
Proof. by vm_compute. Qed.

#[local] Instance resZ_dec : EqDecision (res Z).
Proof. intros [a|e] [b|e']; try (right; congruence); [destruct (decide (a = b)); [left|right]; congruence|]. destruct e, e'; (left; congruence) || (right; congruence). Defined.
Record sc_ok (s : schg) (past : list areq) (l : list (Z * Z)) : Prop := mkScOk {
  so_n : sc_n s = Z.of_nat (length past);
  so_size : forall x, sc_size s !! x = (fun y => a_size y.2) <$> last_use past x;
  so_abs : forall p, sc_abs s p = Z.of_nat (length (filter (fun c => abs_pos (c.2 - c.1) = Ok p) l));
  so_rel : forall p, sc_rel s p = Z.of_nat (length (filter (fun c => rel_pos (c.2 - c.1) c.1 = p) l)) }.


Lemma sc_add_ok s past l q : sc_ok s past l -> Forall (fun y => 0 <= a_size y < 2 ^ 31) (q :: past) ->
  exists s', sc_add s q = Ok s' /\ sc_ok s' (q :: past)
    (l ++ match last_use past (a_id q) with Some (_, y) => if decide (writes q) then [(a_size y, a_size q)] else [] | None => [] end).
Proof.
  intros [Hn Hs Ha Hr] Hb. inversion Hb as [|? ? Hq Hb']; subst. unfold sc_add. rewrite Hs.
  assert (Hu : u32 (a_size q) = a_size q) by (unfold u32; apply Z.mod_small; lia).
  assert (Hsz : forall x, <[a_id q := u32 (a_size q)]> (sc_size s) !! x = (fun y => a_size y.2) <$> last_use (q :: past) x).
  { intros x. unfold last_use. cbn [list_find]. destruct (decide (a_id q = x)) as [<-|Hx]; [rewrite lookup_insert, Hu; done|].
    rewrite lookup_insert_ne, Hs by done. unfold last_use. destruct (list_find _ past) as [[n y]|]; done. }
  assert (Hlen : sc_n s + 1 = Z.of_nat (length (q :: past))) by (cbn [length]; lia).
  destruct (last_use past (a_id q)) as [[n y]|] eqn:E; cbn [fmap option_fmap option_map snd].
  2: { eexists. split; [done|]. rewrite app_nil_r. by constructor. }
  assert (Hy : 0 <= a_size y < 2 ^ 31).
  { apply list_find_Some in E as (E & _). apply elem_of_list_lookup_2 in E. rewrite Forall_forall in Hb'. by apply Hb'. }
  unfold writes at 1. destruct (decide (a_op q = OP_SET \/ a_op q = OP_REPLACE \/ a_op q = OP_CAS)) as [Hw|Hw].
  2: { eexists. split; [done|]. rewrite app_nil_r. by constructor. }
  unfold sc_overwrite. rewrite !i32_small by lia. rewrite decide_True by lia.
  destruct (C84_absolute (a_size q - a_size y)) as (p & Ep & _); [lia|]. rewrite Ep. cbn [rbind sc_n sc_rel sc_abs sc_size].
  eexists. split; [done|]. constructor; cbn [sc_n sc_rel sc_abs sc_size]; [done|done| |].
  - intros p'. rewrite filter_app, filter_cons, filter_nil, app_length. cbn [fst snd]. unfold bump. rewrite Ha.
    destruct (decide (p' = p)) as [->|Hp]; [rewrite decide_True by done; cbn [length]; lia|].
    rewrite decide_False by (rewrite Ep; congruence). cbn [length]. lia.
  - intros p'. rewrite filter_app, filter_cons, filter_nil, app_length. cbn [fst snd]. unfold bump. rewrite Hr.
    destruct (decide (p' = rel_pos (a_size q - a_size y) (a_size y))) as [->|Hp]; [rewrite decide_True by done; cbn [length]; lia|].
    rewrite decide_False by congruence. cbn [length]. lia.
Qed.
Lemma sc_run_ok tr : forall s past l, sc_ok s past l -> Forall (fun y => 0 <= a_size y < 2 ^ 31) past -> Forall (fun y => 0 <= a_size y < 2 ^ 31) tr ->
  exists s', sc_run s tr = Ok s' /\ sc_ok s' (rev tr ++ past) (l ++ changes past tr).
Proof.
  induction tr as [|q tr IH]; intros s past l H Hb Ht; cbn [sc_run changes rev].
  - exists s. by rewrite app_nil_r.
  - inversion Ht as [|? ? Hq Ht']; subst. destruct (sc_add_ok s past l q H ltac:(by constructor)) as (s1 & E & H1).
    rewrite E. cbn [rbind]. destruct (IH s1 (q :: past) _ H1) as (s2 & E2 & H2); [by constructor|done|].
    exists s2. split; [done|]. rewrite <- !app_assoc in *. done.
Qed.

(** For sizes below 2 GB: the analysis does not fail, and the number at a label is the
    number of requests that write an object again with such a change of its size.
    All of them are counted once in each of the two distributions, so the assertion
    that both have the same sum holds. *)
Theorem C84_counts tr : Forall (fun q => 0 <= a_size q < 2 ^ 31) tr -> exists s, sc_run sc0 tr = Ok s /\
  sc_n s = Z.of_nat (length tr) /\
  (forall p, sc_abs s p = Z.of_nat (length (filter (fun c => abs_pos (c.2 - c.1) = Ok p) (changes [] tr)))) /\
  (forall p, sc_rel s p = Z.of_nat (length (filter (fun c => rel_pos (c.2 - c.1) c.1 = p) (changes [] tr)))) /\
  zsum (sc_abs s <$> seqZ 0 33) = Z.of_nat (length (changes [] tr)) /\
  zsum (sc_rel s <$> seqZ 0 29) = Z.of_nat (length (changes [] tr)).
Proof.
  intros H. destruct (sc_run_ok tr sc0 [] []) as (s & E & [Hn _ Ha Hr]); [by constructor|constructor|done|].
  cbn [app] in Ha, Hr. exists s. split; [done|]. split; [rewrite Hn, app_nil_r, rev_length; done|]. split; [done|]. split; [done|].
  assert (Hc : Forall (fun c => 0 <= c.1 < 2 ^ 31 /\ 0 <= c.2 < 2 ^ 31) (changes [] tr)).
  { clear -H. assert (G : forall past, Forall (fun q => 0 <= a_size q < 2 ^ 31) past -> Forall (fun c => 0 <= c.1 < 2 ^ 31 /\ 0 <= c.2 < 2 ^ 31) (changes past tr)).
    { induction H as [|q tr Hq Ht IH]; intros past Hp; cbn [changes]; [constructor|]. apply Forall_app. split; [|apply IH; by constructor].
      destruct (last_use past (a_id q)) as [[n y]|] eqn:E; [|constructor]. destruct (decide (writes q)); [|constructor].
      apply list_find_Some in E as (E & _). apply elem_of_list_lookup_2 in E. rewrite Forall_forall in Hp. repeat constructor; cbn; try lia; specialize (Hp _ E); cbn in Hp; lia. }
    apply G. constructor. }
  assert (K : forall (f : Z -> Z) (g : Z * Z -> Z) n (l : list (Z * Z)), (forall c, c ∈ l -> 0 <= g c < n) ->
    (forall p, 0 <= p < n -> f p = Z.of_nat (length (filter (fun c => g c = p) l))) -> zsum (f <$> seqZ 0 n) = Z.of_nat (length l)).
  { clear. intros f g n l. revert f. induction l as [|c l IH]; intros f Hg Hf.
    - assert (G : forall L, Forall (fun p => f p = 0) L -> zsum (f <$> L) = 0) by (intros L; induction 1 as [|p L Hp _ IHL]; cbn; [done|]; unfold zsum in IHL; lia).
      apply G, Forall_forall. intros p Hp. apply elem_of_seqZ in Hp. rewrite Hf by lia. done.
    - specialize (IH (fun p => if decide (p = g c) then f p - 1 else f p)). cbn [length].
      rewrite Nat2Z.inj_succ, <- IH.
      + assert (Hin : g c ∈ seqZ 0 n) by (apply elem_of_seqZ; specialize (Hg c (elem_of_list_here _ _)); lia).
        assert (Hnd := NoDup_seqZ 0 n). clear -Hin Hnd. set (L := seqZ 0 n) in *. clearbody L.
        assert (G : forall L, g c ∉ L -> zsum ((fun p => if decide (p = g c) then f p - 1 else f p) <$> L) = zsum (f <$> L)).
        { clear. induction L as [|p L IHL]; intros Hn; [done|]. apply not_elem_of_cons in Hn as [? ?]. cbn. rewrite decide_False by congruence. unfold zsum in IHL. rewrite IHL by done. done. }
        induction Hnd as [|p L Hp Hnd IHL]; [by inversion Hin|]. cbn. destruct (decide (p = g c)) as [->|Hne].
        * specialize (G L Hp). unfold zsum in G. rewrite G. lia.
        * apply elem_of_cons in Hin as [?|Hin]; [congruence|]. specialize (IHL Hin). unfold zsum in IHL. lia.
      + intros c' Hc'. apply Hg. by apply elem_of_list_further.
      + intros p Hp. rewrite Hf, filter_cons by done. destruct (decide (p = g c)) as [->|]; [rewrite decide_True by done; cbn [length]; lia|rewrite decide_False by congruence; done]. }
  split.
  - apply (K (sc_abs s) (fun c => match abs_pos (c.2 - c.1) with Ok p => p | Err _ => -1 end)).
    + intros c Hin. rewrite Forall_forall in Hc. specialize (Hc c Hin). destruct (C84_absolute (c.2 - c.1)) as (p & -> & Hp & _); [lia|done].
    + intros p Hp. rewrite Ha. do 2 f_equal. apply list_filter_iff. intros c. destruct (abs_pos (c.2 - c.1)); split; intros Hx; try congruence. lia.
  - apply (K (sc_rel s) (fun c => rel_pos (c.2 - c.1) c.1)); [intros; apply rel_pos_range|]. intros p _. apply Hr.
Qed.
Example C84_counts_ex : let tr := [mkA 0 1 100 3 0; mkA 1 1 164 3 0; mkA 2 2 7 1 0; mkA 3 1 100 1 0; mkA 4 1 90 5 0; mkA 5 2 7 6 0] in
  changes [] tr = [(100, 164); (100, 90); (7, 7)] /\
  (let! s := sc_run sc0 tr in Ok (sc_abs s 23, sc_abs s 12, sc_abs s 16, sc_n s)) = Ok (1, 1, 1, 6).
Proof. split; vm_compute; reflexivity. Qed.

(** Above 2 GB sizes are cut to 32 bits: growing from 1 byte to 4 GB and one byte is
    counted as no change, and growing from 2 bytes to 2 GB is undefined behaviour. *)
Theorem C84_large_refuted :
  ((let! s := sc_run sc0 [mkA 0 1 1 3 0; mkA 1 1 (2 ^ 32 + 1) 3 0] in Ok (sc_abs s 16)) = Ok 1 /\ abs_labels !! 16%nat = Some (At 0)) /\
  sc_run sc0 [mkA 0 1 2 3 0; mkA 1 1 (2 ^ 31) 3 0] = Err IntOverflow.
Proof. split; [split; vm_compute; reflexivity|vm_compute; reflexivity]. Qed.
