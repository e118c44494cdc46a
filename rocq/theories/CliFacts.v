(** Facts about the text functions of the command line (C57, C58). *)
From stdpp Require Import gmap list numbers strings.
From Verif Require Import Base ModelTxt ModelCli SpecCli.
Open Scope Z_scope.

(** * Case *)

Lemma lower_same a b : same_char a b -> lower a = lower b.
Proof.
  unfold lower. intros [->|[[H ->]|[H ->]]]; [done|..].
  - replace ((65 <=? a) && (a <=? 90)) with true by (symmetry; apply andb_true_iff; lia).
    replace ((65 <=? a + 32) && (a + 32 <=? 90)) with false; [done|]. symmetry. apply andb_false_iff. lia.
  - replace ((65 <=? b) && (b <=? 90)) with true by (symmetry; apply andb_true_iff; lia).
    replace ((65 <=? b + 32) && (b + 32 <=? 90)) with false; [done|]. symmetry. apply andb_false_iff. lia.
Qed.
Lemma lower_same_text a b : same_text a b -> lower <$> a = lower <$> b.
Proof. induction 1 as [|x y a b H _ IH]; [done|]. cbn. by rewrite (lower_same _ _ H), IH. Qed.
Lemma eqci_same a b : same_text a b -> eqci a b = true.
Proof. intros H. unfold eqci. rewrite (lower_same_text _ _ H). by apply bool_decide_eq_true. Qed.
Lemma eqci_lower a b c : lower <$> a = lower <$> b -> eqci a c = eqci b c.
Proof. unfold eqci. by intros ->. Qed.

Lemma lower_digit c : 48 <= c <= 57 -> lower c = c.
Proof. intros H. unfold lower. destruct (Z.leb_spec 65 c); [lia|done]. Qed.
Lemma lower_digits ds : Forall (fun c => 48 <= c <= 57) ds -> lower <$> ds = ds.
Proof. induction 1 as [|c ds Hc _ IH]; [done|]. cbn. by rewrite lower_digit, IH. Qed.

(** * Numbers *)

Definition stop_at (base : Z) (r : list Z) : Prop := match r with [] => True | c :: _ => digit_in base c = None end.

Lemma digit_in_10 c : 48 <= c <= 57 -> digit_in 10 c = Some (c - 48).
Proof.
  intros H. unfold digit_in, digit_val.
  replace ((48 <=? c) && (c <=? 57)) with true by (symmetry; apply andb_true_iff; lia).
  destruct (Z.ltb_spec (c - 48) 10); [done|lia].
Qed.
Lemma run_digits_app ds r a :
  Forall (fun c => 48 <= c <= 57) ds -> stop_at 10 r ->
  run_digits 10 a (ds ++ r) = (foldl (fun a c => 10 * a + (c - 48)) a ds, r).
Proof.
  intros HF Hr. revert a. induction HF as [|c ds Hc _ IH]; intros a; cbn.
  - destruct r as [|c r]; [done|]. cbn in Hr |- *. by rewrite Hr.
  - rewrite digit_in_10 by done. rewrite IH. do 2 f_equal. lia.
Qed.
Lemma number_numeral ds n r : numeral ds n -> stop_at 10 r -> number_in 10 (ds ++ r) = Some (n, r).
Proof.
  intros (Hne & HF & ->) Hr. destruct ds as [|c ds]; [done|].
  unfold number_in. cbn [app]. rewrite digit_in_10 by by inversion HF.
  change (c :: ds ++ r) with ((c :: ds) ++ r). by rewrite run_digits_app.
Qed.
Lemma digit_front ds n r : numeral ds n -> skip_spaces (ds ++ r) = ds ++ r /\ take_sign (ds ++ r) = (false, ds ++ r).
Proof.
  intros (Hne & HF & _). destruct ds as [|c ds]; [done|].
  assert (Hc : 48 <= c <= 57) by by inversion HF. split.
  - cbn. unfold is_space. destruct (Z.eqb_spec c 32); [lia|].
    destruct (Z.leb_spec c 13); [lia|]. by rewrite andb_false_r.
  - cbn. assert (c = 48 \/ c = 49 \/ c = 50 \/ c = 51 \/ c = 52 \/ c = 53 \/ c = 54
                 \/ c = 55 \/ c = 56 \/ c = 57) as Hcs by lia.
    by repeat destruct Hcs as [->|Hcs]; subst.
Qed.
Lemma numeral_nonneg ds n : numeral ds n -> 0 <= n.
Proof.
  intros (_ & HF & ->). assert (forall a, 0 <= a -> 0 <= foldl (fun a c => 10 * a + (c - 48)) a ds) as H; [|by apply H].
  induction HF as [|c ds Hc _ IH]; intros a Ha; cbn; [done|]. apply IH. lia.
Qed.
Lemma strtoul_numeral ds n r : numeral ds n -> stop_at 10 r -> n < 2 ^ 64 -> strtoul10 (ds ++ r) = n.
Proof.
  intros Hn Hr Hlt. unfold strtoul10. destruct (digit_front ds n r Hn) as [-> ->].
  rewrite (number_numeral _ _ _ Hn Hr). destruct (Z.leb_spec (2 ^ 64) n); [lia|done].
Qed.
Lemma strtol_numeral ds n r : numeral ds n -> stop_at 10 r -> n < 2 ^ 63 -> strtol10 (ds ++ r) = n.
Proof.
  intros Hn Hr Hlt. unfold strtol10. destruct (digit_front ds n r Hn) as [-> ->].
  rewrite (number_numeral _ _ _ Hn Hr). unfold clamp_long. destruct (Z.leb_spec (2 ^ 63) n); [lia|done].
Qed.

(** * Sizes *)

Lemma has_sub_digits x n ds r :
  Forall (fun c => 48 <= c <= 57) ds -> ~ 48 <= x <= 57 -> has_sub (x :: n) (ds ++ r) = has_sub (x :: n) r.
Proof.
  intros HF Hx. induction HF as [|c ds Hc _ IH]; [done|]. cbn [app has_sub is_prefix].
  destruct (Z.eqb_spec x c); [lia|]. exact IH.
Qed.
Lemma has_subci_digits x n ds r :
  Forall (fun c => 48 <= c <= 57) ds -> ~ 48 <= lower x <= 57 ->
  has_subci (x :: n) (ds ++ r) = has_sub (lower <$> (x :: n)) (lower <$> r).
Proof.
  intros HF Hx. unfold has_subci. rewrite fmap_app, (lower_digits ds) by done. cbn [fmap list_fmap].
  by apply has_sub_digits.
Qed.

Lemma bytes_lit s : bytes_of s = lit s.
Proof. done. Qed.

Lemma lower_head c x : lower c = x -> 97 <= x <= 122 -> digit_in 10 c = None.
Proof.
  unfold lower, digit_in, digit_val. intros H Hx.
  destruct ((65 <=? c) && (c <=? 90)) eqn:E1; [apply andb_true_iff in E1; destruct E1 as [E1 E1']|].
  - destruct ((48 <=? c) && (c <=? 57)) eqn:E2; [apply andb_true_iff in E2; lia|].
    destruct ((97 <=? c) && (c <=? 122)) eqn:E3; [apply andb_true_iff in E3; lia|].
    destruct (Z.ltb_spec (c - 55) 10); [lia|done].
  - subst x. destruct ((48 <=? c) && (c <=? 57)) eqn:E2; [apply andb_true_iff in E2; lia|].
    replace ((97 <=? c) && (c <=? 122)) with true by (symmetry; apply andb_true_iff; lia).
    destruct (Z.ltb_spec (c - 87) 10); [lia|done].
Qed.

Lemma eqci_auto_digits ds n r : numeral ds n -> eqci (ds ++ r) (lit "auto") = false.
Proof.
  intros (Hne & HF & _). destruct ds as [|c ds]; [done|].
  assert (Hc : 48 <= c <= 57) by by inversion HF.
  apply bool_decide_eq_false. intros H. apply (f_equal head) in H.
  change (Some (lower c) = Some 97) in H. rewrite lower_digit in H by done. injection H as ->. lia.
Qed.

Lemma last_lower (l : list Z) : last (lower <$> l) = lower <$> last l.
Proof. by rewrite fmap_last. Qed.

Lemma conv_size_text t n : size_text t n -> conv_size t = Ok n.
Proof.
  intros (ds & d & u & u' & k & Hd & Hu & Hsame & -> & -> & Hlt).
  pose proof (numeral_nonneg _ _ Hd) as Hd0.
  apply lower_same_text in Hsame.
  assert (HF := proj1 (proj2 Hd)).
  unfold conv_size. rewrite (eqci_auto_digits _ _ _ Hd).
  assert (Hsubs : forall x m, ~ 48 <= lower x <= 57 ->
            has_subci (x :: m) (ds ++ u') = has_sub (lower <$> (x :: m)) (lower <$> bytes_of u)).
  { intros x m Hx. rewrite has_subci_digits by done. by rewrite Hsame. }
  change (lit "kb") with [107; 98]. change (lit "mb") with [109; 98].
  change (lit "gb") with [103; 98]. change (lit "tb") with [116; 98].
  rewrite !Hsubs by (cbn; lia).
  destruct (decide (u = ""%string)) as [->|Hne].
  - assert (u' = []) as -> by (destruct u'; [done|discriminate Hsame]).
    assert (k = 1) as ->. { repeat (apply elem_of_cons in Hu as [Hu|Hu]; [by inversion Hu|]). by apply elem_of_nil in Hu. }
    rewrite app_nil_r. assert (exists c, last ds = Some c /\ 48 <= c <= 57) as (c & Hc & Hcd).
    { destruct (last ds) as [c|] eqn:E.
      - exists c. split; [done|]. rewrite Forall_forall in HF. apply HF. rewrite last_lookup in E. by eapply elem_of_list_lookup_2.
      - apply last_None in E. by destruct Hd. }
    rewrite Hc. cbn [has_sub is_prefix orb andb fmap list_fmap bytes_of String.list_ascii_of_string].
    rewrite lower_digit by done.
    destruct (Z.eqb_spec c 107); [lia|]. destruct (Z.eqb_spec c 109); [lia|].
    destruct (Z.eqb_spec c 103); [lia|]. destruct (Z.eqb_spec c 116); [lia|].
    cbn. rewrite <-(app_nil_r ds). rewrite (strtol_numeral _ _ [] Hd) by (done || lia).
    destruct (Z.eqb_spec d (-1)); [lia|]. unfold u64. f_equal. rewrite Z.mod_small; lia.
  - destruct (last (ds ++ u')) as [c|] eqn:Hl.
    2:{ apply last_None in Hl. apply app_eq_nil in Hl as [-> _]. by destruct Hd. }
    assert (Hlc : last (bytes_of u) <> None -> Some (lower c) = lower <$> last (bytes_of u)).
    { intros H1. rewrite <-last_lower, <-Hsame, last_lower.
      assert (u' <> []) as Hu'. { intros ->. symmetry in Hsame. apply fmap_nil_inv in Hsame. by rewrite Hsame in H1. }
      destruct (exists_last Hu') as (u1 & x & ->). rewrite app_assoc in Hl. rewrite last_snoc in Hl. inversion Hl; subst.
      by rewrite last_snoc. }
    assert (Hstop : forall x m, lower <$> bytes_of u = x :: m -> 97 <= x <= 122 -> stop_at 10 u').
    { intros x m E Hx. rewrite E in Hsame. destruct u' as [|y u']; [done|]. cbn in Hsame |- *.
      injection Hsame as Hy _. by eapply lower_head. }
    assert (Hul : forall r, stop_at 10 r -> k * d < 2 ^ 63 -> 1 <= k -> strtoul10 (ds ++ r) = d).
    { intros r Hr Hb Hk. apply strtoul_numeral; try done. nia. }
    assert (Hmod : forall x, 0 <= x < 2 ^ 63 -> u64 x = x). { intros x Hx. unfold u64. apply Z.mod_small. lia. }
    rewrite Z.mul_comm in Hlt.
    repeat (apply elem_of_cons in Hu as [Hu|Hu]; [inversion Hu; subst|]); [done|..|by apply elem_of_nil in Hu].
    all: cbn in Hlc; specialize (Hlc ltac:(done)); injection Hlc as Hlc; rewrite Hlc; cbn -[strtoul10 u64];
         (rewrite (Hul u'); [|eapply (Hstop _ _ eq_refl); vm_compute; split; discriminate|lia|lia]); f_equal;
         unfold KiB, MiB, GiB, TiB; rewrite Hmod by lia; lia.
Qed.

(** * Lists *)

Lemma split_no c t : c ∉ t -> split_on c t = [t].
Proof.
  induction t as [|x t IH]; intros H; [done|]. apply not_elem_of_cons in H as [H1 H2]. cbn.
  destruct (Z.eqb_spec x c); [congruence|]. by rewrite IH.
Qed.
Lemma split_app c t s : c ∉ t -> split_on c (t ++ c :: s) = t :: split_on c s.
Proof.
  induction t as [|x t IH]; intros H; cbn.
  - by rewrite Z.eqb_refl.
  - apply not_elem_of_cons in H as [H1 H2]. destruct (Z.eqb_spec x c); [congruence|]. by rewrite IH.
Qed.
Lemma split_comma ts : ts <> [] -> Forall (fun t => 44 ∉ t) ts -> split_on 44 (comma_list ts) = ts.
Proof.
  intros Hne HF. induction ts as [|t ts IH]; [done|]. inversion HF; subst.
  destruct ts as [|t' ts]; [by apply split_no|]. change (comma_list (t :: t' :: ts)) with (t ++ 44 :: comma_list (t' :: ts)).
  rewrite split_app by done. by rewrite IH.
Qed.
Lemma tokens_comma ts : Forall (fun t => 44 ∉ t /\ t <> []) ts -> tokens 44 (comma_list ts) = ts.
Proof.
  intros HF. destruct (decide (ts = [])) as [->|Hne]; [done|].
  unfold tokens. rewrite split_comma; [|done|by eapply Forall_impl; [exact HF|intros ? [??]]].
  clear Hne. induction HF as [|t ts [H1 H2] _ IH]; [done|]. by rewrite filter_cons_True, IH.
Qed.
Lemma token_nonempty c s t : t ∈ tokens c s -> t <> [].
Proof. unfold tokens. by intros [H _]%elem_of_list_filter. Qed.

Lemma sep_no c t : c ∉ t -> sep c t = (t, None).
Proof.
  induction t as [|x t IH]; intros H; [done|]. apply not_elem_of_cons in H as [H1 H2]. cbn.
  destruct (Z.eqb_spec x c); [congruence|]. by rewrite IH.
Qed.
Lemma sep_app c t s : c ∉ t -> sep c (t ++ c :: s) = (t, Some s).
Proof.
  induction t as [|x t IH]; intros H; cbn.
  - by rewrite Z.eqb_refl.
  - apply not_elem_of_cons in H as [H1 H2]. destruct (Z.eqb_spec x c); [congruence|]. by rewrite IH.
Qed.

Lemma size_text_chars t n : size_text t n -> t <> [] /\ 44 ∉ t /\ 46 ∉ t.
Proof.
  intros (ds & d & u & u' & k & (Hne & HF & _) & Hu & Hsame & -> & _).
  split; [by destruct ds|].
  assert (forall x, 44 <= x <= 46 -> x ∉ u') as Hu'.
  { intros x Hx Hin. apply (elem_of_list_fmap_1 lower) in Hin. rewrite (lower_same_text _ _ Hsame) in Hin.
    assert (lower x = x) as Hlx. { unfold lower. destruct (Z.leb_spec 65 x); [lia|done]. } rewrite Hlx in Hin.
    assert (Forall (fun uk => Forall (fun y => 97 <= y) (lower <$> bytes_of uk.1)) units) as HU
      by (repeat constructor; vm_compute; discriminate).
    rewrite Forall_forall in HU. specialize (HU _ Hu). cbn in HU. rewrite Forall_forall in HU. specialize (HU _ Hin). lia. }
  rewrite Forall_forall in HF.
  split; intros [Hin|Hin]%elem_of_app; try (specialize (HF _ Hin); lia); by eapply Hu'; [|exact Hin]; lia.
Qed.

(** * Trace parameters *)

Lemma spelled_lower k n : spelled k n -> 95 ∉ bytes_of n -> lower <$> replace_char k 95 45 = lower <$> bytes_of n.
Proof.
  unfold spelled, replace_char. induction 1 as [|a b k l H _ IH]; intros Hn; [done|].
  apply not_elem_of_cons in Hn as [Hb Hl]. cbn. f_equal; [|by apply IH].
  destruct H as [H|[-> ->]]; [|done]. destruct (Z.eqb_spec a 95) as [->|].
  - exfalso. unfold same_char in H. lia.
  - by apply lower_same.
Qed.
Lemma spelled_no_eq k n : spelled k n -> 61 ∉ bytes_of n -> 61 ∉ k.
Proof.
  unfold spelled. induction 1 as [|a b k l H _ IH]; intros Hn; [by apply not_elem_of_nil|].
  apply not_elem_of_cons in Hn as [Hb Hl]. apply not_elem_of_cons. split; [|by apply IH].
  intros <-. unfold same_char in H. lia.
Qed.

Lemma column_spec v n : column_text v n -> column v = Ok n.
Proof.
  intros (Hv & H0 & Hn). pose proof (numeral_nonneg _ _ Hv) as Hn0. unfold column, strtol0.
  destruct (digit_front v n [] Hv) as [E1 E2]. rewrite app_nil_r in E1, E2. rewrite E1, E2.
  assert (number_any v = Some (n, [])) as ->.
  { pose proof (number_numeral v n [] Hv I) as E. rewrite app_nil_r in E.
    destruct (decide (head v = Some 48)) as [Hh|Hh].
    - rewrite (H0 Hh) in *. exact E.
    - destruct v as [|c v]; [by destruct Hv|]. assert (c <> 48) by (intros ->; done). clear Hh H0 E1 E2.
      unfold number_any. destruct c as [|c|c]; try exact E.
      do 6 (destruct c as [c|c|]; try exact E). done. }
  unfold clamp_long. destruct (Z.leb_spec (2 ^ 63) n); [lia|]. rewrite decide_False by (cbn; lia).
  f_equal. unfold i32. rewrite Z.mod_small; lia.
Qed.

Lemma eqci_via a b c : lower <$> a = lower <$> b -> eqci a c = eqci b c.
Proof. unfold eqci. by intros ->. Qed.
Ltac eval_eqci := repeat match goal with
  | |- context [eqci (lit ?a) (lit ?b)] => let v := eval vm_compute in (eqci (lit a) (lit b)) in change (eqci (lit a) (lit b)) with v end;
  cbn [orb].

Lemma is_true_spec v b : bool_text v b -> is_true v = Ok b.
Proof.
  intros (w & H & Hw). apply lower_same_text in H. unfold is_true.
  rewrite !(eqci_via v (lit w) _ H). clear H.
  destruct b; repeat (apply elem_of_cons in Hw as [->|Hw]; [eval_eqci; reflexivity|]); by apply elem_of_nil in Hw.
Qed.
Lemma delim_spec v c : delim_text v c -> delim_of v = Ok c.
Proof.
  intros [(-> & H1 & H2)|[(-> & ->)|([-> | ->] & ->)]]; try done.
  unfold delim_of. destruct c as [|c|c]; try done. do 7 (destruct c as [c|c|]; try done).
Qed.

(** What one setting does. *)
Definition apply_setting (p : rparams) (s : setting) : rparams :=
  let '(mkRP t i z c x num h hs f d) := p in
  match s with
  | SetTime n => mkRP n i z c x num h hs f d
  | SetId n => mkRP t n z c x num h hs f d
  | SetSize n => mkRP t i n c x num h hs f d
  | SetCnt n => mkRP t i z n x num h hs f d
  | SetNext n => mkRP t i z c n num h hs f d
  | SetIdNum b => mkRP t i z c x b h hs f d
  | SetHeader b => mkRP t i z c x num b true f d
  | SetFormat g => mkRP t i z c x num h hs (Some g) d
  | SetDelim n => mkRP t i z c x num h hs f n
  end.

Lemma set_param_spec t s p : setting_text t s ->
  exists k v, t = k ++ 61 :: v /\ 61 ∉ k /\ 44 ∉ v /\ set_param p k v = Ok (apply_setting p s).
Proof.
  intros (k & v & -> & Hv & Hs). exists k, v. split; [done|].
  assert (Hk : forall n, spelled k n -> bool_decide (61 ∈ bytes_of n) = false -> 61 ∉ k).
  { intros n H Hb. eapply spelled_no_eq; [exact H|]. by apply bool_decide_eq_false in Hb. }
  assert (Hl : forall n, spelled k n -> bool_decide (95 ∈ bytes_of n) = false ->
            forall c, eqci (replace_char k 95 45) c = eqci (lit n) c).
  { intros n H Hb c. apply eqci_via. apply spelled_lower; [done|]. by apply bool_decide_eq_false in Hb. }
  destruct p as [pt pi pz pc px pnum ph phs pf pd].
  assert (Hgo : forall n, spelled k n -> bool_decide (61 ∈ bytes_of n) = false -> bool_decide (95 ∈ bytes_of n) = false ->
     (set_param (mkRP pt pi pz pc px pnum ph phs pf pd) (lit n) v = Ok (apply_setting (mkRP pt pi pz pc px pnum ph phs pf pd) s)) ->
     replace_char (lit n) 95 45 = lit n ->
     61 ∉ k /\ 44 ∉ v /\ set_param (mkRP pt pi pz pc px pnum ph phs pf pd) k v = Ok (apply_setting (mkRP pt pi pz pc px pnum ph phs pf pd) s)).
  { intros n Hsp H1 H2 <- Hr. split; [by eapply Hk|]. split; [done|].
    unfold set_param. rewrite Hr. by rewrite !(Hl n Hsp H2). }
  destruct s as [n|n|n|n|n|b|b|f|c].
  all: destruct Hs as [Hsp Hval].
  all: first [apply column_spec in Hval | apply is_true_spec in Hval | apply delim_spec in Hval | subst v].
  all: repeat match type of Hsp with _ \/ _ => destruct Hsp as [Hsp|Hsp] end.
  all: apply (Hgo _ Hsp); [vm_compute; reflexivity|vm_compute; reflexivity| |vm_compute; reflexivity].
  all: unfold set_param; cbv zeta;
       match goal with |- context [replace_char (lit ?n) 95 45] => change (replace_char (lit n) 95 45) with (lit n) end;
       eval_eqci; rewrite ?Hval; reflexivity.
Qed.

Lemma sep_app_last k v : 61 ∉ k -> sep 61 (k ++ 61 :: v) = (k, Some v).
Proof. apply sep_app. Qed.

Lemma skip_sep_app b t : Forall (fun c => c = 32 \/ c = 44) b -> head t <> Some 32 /\ head t <> Some 44 -> skip_sep (b ++ t) = t.
Proof.
  intros HF [H1 H2]. induction HF as [|c b Hc _ IH]; cbn.
  - destruct t as [|c t]; [done|]. cbn in *. destruct (Z.eqb_spec c 32); [by subst|]. destruct (Z.eqb_spec c 44); [by subst|]. done.
  - destruct Hc as [-> | ->]; exact IH.
Qed.

Lemma param_loop_cons fuel p k r :
  61 ∉ k -> param_loop (S fuel) p (k ++ 61 :: r) =
    (let '(v, r2) := sep 44 r in let! p' := set_param p k v in
     match r2 with None => Ok p' | Some s2 => param_loop fuel p' (skip_sep s2) end).
Proof.
  intros Hk. assert (Hs := sep_app_last k r Hk). cbn [param_loop].
  destruct (k ++ 61 :: r) as [|x l] eqn:E; [by apply app_eq_nil in E as [_ ?]|]. by rewrite Hs.
Qed.

Lemma param_loop_spec t l : settings_text t l -> forall fuel p, (length t <= fuel)%nat ->
  param_loop fuel p t = Ok (foldl apply_setting p l).
Proof.
  induction 1 as [|t s Ht|t s b t' l Ht Hb _ IH Hhead]; intros fuel p Hf.
  - by destruct fuel.
  - destruct (set_param_spec t s p Ht) as (k & v & -> & Hk & Hv & Hset).
    rewrite app_length in Hf. cbn in Hf. destruct fuel as [|fuel]; [lia|].
    rewrite param_loop_cons by done. rewrite sep_no by done. rewrite Hset. done.
  - destruct (set_param_spec t s p Ht) as (k & v & -> & Hk & Hv & Hset).
    rewrite !app_length in Hf. cbn in Hf. rewrite app_length in Hf. destruct fuel as [|fuel]; [lia|].
    rewrite <-app_assoc. cbn [app]. rewrite param_loop_cons by done.
    rewrite sep_app by done. rewrite Hset. cbn [rbind]. rewrite skip_sep_app by done.
    cbn [foldl]. apply IH. lia.
Qed.

Lemma fold_field {A B} (field : rparams -> B) (sel : setting -> option A) (g : A -> B) l :
  (forall p s, field (apply_setting p s) = match sel s with Some a => g a | None => field p end) ->
  forall p, field (foldl apply_setting p l) = match last_of sel l with Some a => g a | None => field p end.
Proof.
  intros H. induction l as [|s l IH]; intros p; [done|]. cbn [foldl]. rewrite IH, H. unfold last_of. cbn.
  destruct (sel s) as [a|] eqn:E; [|done]. destruct (omap sel l) as [|x k] eqn:Eo; [done|].
  rewrite <-Eo. change (last (a :: omap sel l)) with (match omap sel l with [] => Some a | _ => last (omap sel l) end).
  rewrite Eo. destruct (last (x :: k)) eqn:El; [done|]. by apply last_None in El.
Qed.
