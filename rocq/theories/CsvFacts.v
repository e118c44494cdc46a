(** Lemmas about the csv parser and the callbacks. *)
From stdpp Require Import gmap list numbers fin_maps.
From Verif Require Import Base ModelReader ModelTxt SpecTxt TxtFacts.
Open Scope Z_scope.

Lemma csv_write_quoted s : csv_write s = quoted s.
Proof.
  unfold csv_write, quoted, QUOTE. cbn [app]. f_equal. f_equal.
  induction s as [|c s IH]; [done|]. cbn. unfold QUOTE.
  destruct (Z.eqb_spec c 34) as [->|Hc].
  - destruct (decide (34 = 34)); [|done]. cbn. by rewrite IH.
  - destruct (decide (c = 34)); [done|]. cbn. by rewrite IH.
Qed.

Lemma csv_parse_app d p a b :
  csv_parse d p (a ++ b) =
    let '(p1, e1) := csv_parse d p a in
    let '(p2, e2) := csv_parse d p1 b in (p2, e1 ++ e2).
Proof.
  revert p. induction a as [|c a IH]; intros p; cbn.
  - by destruct (csv_parse d p b).
  - destruct (csv_char d p c) as [p1 e1]. rewrite IH.
    destruct (csv_parse d p1 a) as [p2 e2], (csv_parse d p2 b) as [p3 e3].
    by rewrite app_assoc.
Qed.

Lemma csv_parse_one d p c : csv_parse d p [c] = csv_char d p c.
Proof. cbn. destruct (csv_char d p c). by rewrite app_nil_r. Qed.

(** A parser between fields. *)
Definition idle (p : pvars) : Prop := p = p_init \/ p = after_field.

Lemma blank_sp d c : blank d c -> is_sp c = true /\ (c =? d) = false /\ is_term c = false.
Proof.
  intros [[-> | ->] H]; (split; [done|]; split; [by apply Z.eqb_neq|done]).
Qed.

Lemma parse_blanks d p b : idle p -> Forall (blank d) b -> csv_parse d p b = (p, []).
Proof.
  intros Hp HF. induction HF as [|c b Hc HF IH]; [done|].
  destruct (blank_sp _ _ Hc) as (E1 & E2 & E3).
  assert (csv_char d p c = (p, [])) as E.
  { unfold csv_char. rewrite E1, E2. by destruct Hp as [-> | ->]. }
  cbn. by rewrite E, IH.
Qed.

(** What the parser does when it next meets a delimiter ([closes_d]), the end
    of the line or of the input ([closes]): it reports the field [s]. *)
Definition closes_d (d : Z) (p : pvars) (s : list Z) : Prop :=
  csv_char d p d = (after_field, [EvField s]).
Definition closes (d : Z) (p : pvars) (s : list Z) : Prop :=
  closes_d d p s /\ csv_char d p 10 = (p_init, [EvField s; EvRow]) /\
  csv_char d p 13 = (p_init, [EvField s; EvRow]) /\ csv_fini p = [EvField s; EvRow].

Lemma is_term_delim d : delim_ok d -> is_term d = false.
Proof.
  intros (_ & H1 & H2 & _). unfold is_term.
  destruct (Z.eqb_spec d 13), (Z.eqb_spec d 10); done.
Qed.
Lemma delim_quote d : delim_ok d -> (d =? QUOTE) = false.
Proof. intros (H & _). by apply Z.eqb_neq. Qed.
Lemma delim_10 d : delim_ok d -> (10 =? d) = false.
Proof. intros (_ & H & _). apply Z.eqb_neq. congruence. Qed.
Lemma delim_13 d : delim_ok d -> (13 =? d) = false.
Proof. intros (_ & _ & H & _). apply Z.eqb_neq. congruence. Qed.

Lemma closes_begun d n e :
  delim_ok d -> closes d (mkP FieldBegun false n e) (unsubmit n e).
Proof.
  intros Hd. unfold closes, closes_d, csv_char, csv_fini.
  cbn [p_state p_quoted p_spaces p_entry after_field p_init].
  rewrite (delim_quote d), Z.eqb_refl, (delim_10 d), (delim_13 d) by done. done.
Qed.

Lemma closes_ended d n e :
  delim_ok d -> closes d (mkP MightHaveEnded true n e) (unsubmit (n + 1) e).
Proof.
  intros Hd. unfold closes, closes_d, csv_char, csv_fini.
  cbn [p_state p_quoted p_spaces p_entry after_field p_init].
  rewrite Z.eqb_refl, (delim_10 d), (delim_13 d) by done. done.
Qed.

Lemma closes_after d : delim_ok d -> closes d after_field [].
Proof.
  intros Hd. unfold closes, closes_d, csv_char, csv_fini.
  cbn [p_state p_quoted p_spaces p_entry after_field p_init].
  rewrite Z.eqb_refl, andb_false_r, (is_term_delim d) by done. done.
Qed.

Lemma closes_d_init d : delim_ok d -> closes_d d p_init [].
Proof.
  intros Hd. unfold closes_d, csv_char.
  cbn [p_state p_quoted p_spaces p_entry after_field p_init].
  rewrite Z.eqb_refl, andb_false_r, (is_term_delim d) by done. done.
Qed.

(** ** Plain fields *)

Definition pchar (d c : Z) : Prop := c <> d /\ c <> 34 /\ c <> 10 /\ c <> 13.

Lemma pchar_tests d c :
  pchar d c -> (c =? QUOTE) = false /\ (c =? d) = false /\ is_term c = false.
Proof.
  intros (H1 & H2 & H3 & H4). unfold is_term, QUOTE.
  rewrite !(proj2 (Z.eqb_neq _ _)) by done. done.
Qed.

Definition trail (n : nat) (s : list Z) : nat :=
  foldl (fun n c => if is_sp c then S n else O) n s.

Lemma parse_body d n e s :
  Forall (pchar d) s ->
  csv_parse d (mkP FieldBegun false n e) s
    = (mkP FieldBegun false (trail n s) (e ++ s), []).
Proof.
  revert n e. induction s as [|c s IH]; intros n e HF.
  - cbn. by rewrite app_nil_r.
  - apply Forall_cons in HF as [Hc HF]. destruct (pchar_tests _ _ Hc) as (E1 & E2 & E3).
    cbn [csv_parse]. unfold csv_char. cbn [p_state p_quoted p_spaces p_entry].
    rewrite E1, E2, E3. cbn [negb andb]. destruct (is_sp c) eqn:Es.
    + rewrite IH by done. cbn [trail foldl]. rewrite Es. cbn. by rewrite <-app_assoc.
    + rewrite IH by done. cbn [trail foldl]. rewrite Es. cbn. by rewrite <-app_assoc.
Qed.

Lemma trail_app n s t : trail n (s ++ t) = trail (trail n s) t.
Proof. unfold trail. by rewrite foldl_app. Qed.

Lemma trail_blanks d n b : Forall (blank d) b -> trail n b = (n + length b)%nat.
Proof.
  intros HF. revert n. induction HF as [|c b Hc HF IH]; intros n; cbn; [lia|].
  destruct (blank_sp _ _ Hc) as (-> & _). rewrite IH. lia.
Qed.

Lemma is_sp_iff c : is_sp c = true <-> (c = 32 \/ c = 9).
Proof. unfold is_sp. rewrite orb_true_iff, !Z.eqb_eq. done. Qed.

Lemma trail_last n s c : last s = Some c -> is_sp c = false -> trail n s = 0%nat.
Proof.
  intros H Hc. apply last_Some in H as [s' ->]. rewrite trail_app. cbn. by rewrite Hc.
Qed.

Lemma unsubmit_app (a b : list Z) n : n = length b -> unsubmit n (a ++ b) = a.
Proof.
  intros ->. unfold unsubmit. rewrite app_length.
  replace (length a + length b - length b)%nat with (length a) by lia. by rewrite take_app.
Qed.

Lemma blank_pchar d c : blank d c -> pchar d c.
Proof. intros [[-> | ->] ?]; by split_and!. Qed.

Lemma parse_plain d p s b :
  delim_ok d -> idle p -> plain d s -> s <> [] -> Forall (blank d) b ->
  exists p', csv_parse d p (s ++ b) = (p', []) /\ closes d p' s.
Proof.
  intros Hd Hp [HF Hends] Hne Hb. destruct s as [|c s]; [done|].
  assert (Hsp : is_sp c = false).
  { destruct (is_sp c) eqn:E; [|done]. apply is_sp_iff in E. exfalso.
    by eapply Hends; [left|]. }
  pose proof HF as HF0. apply Forall_cons in HF as [Hc HF].
  destruct (pchar_tests _ _ Hc) as (E1 & E2 & E3).
  assert (Hch : csv_char d p c = (mkP FieldBegun false 0 [c], [])).
  { unfold csv_char. rewrite Hsp, E1, E2, E3. by destruct Hp as [-> | ->]. }
  cbn [app csv_parse]. rewrite Hch, parse_body.
  2:{ apply Forall_app. split; [done|]. eapply Forall_impl; [exact Hb|]. apply blank_pchar. }
  eexists. split; [done|].
  assert (Ht : trail 0 (s ++ b) = length b).
  { rewrite trail_app, (trail_blanks d) by done.
    enough (trail 0 s = 0%nat) by lia.
    destruct (last s) as [x|] eqn:El.
    - eapply trail_last; [exact El|]. destruct (is_sp x) eqn:E; [|done].
      apply is_sp_iff in E. exfalso. eapply Hends; [right|exact E].
      apply last_Some in El as [s' ->]. rewrite app_comm_cons. apply last_snoc.
    - apply last_None in El as ->. done. }
  rewrite Ht.
  pose proof (closes_begun d (length b) ([c] ++ s ++ b) Hd) as HC.
  assert (Eu : unsubmit (length b) ([c] ++ s ++ b) = c :: s)
    by (rewrite app_assoc; by rewrite unsubmit_app).
  rewrite Eu in HC. exact HC.
Qed.

(** ** Quoted fields *)

Lemma parse_escape d e s :
  delim_ok d ->
  csv_parse d (mkP FieldBegun true 0 e) (csv_escape s) = (mkP FieldBegun true 0 (e ++ s), []).
Proof.
  intros Hd. revert e. induction s as [|c s IH]; intros e; [cbn; by rewrite app_nil_r|].
  assert (Hq : (QUOTE =? d) = false).
  { rewrite Z.eqb_sym. by apply delim_quote. }
  cbn [csv_escape]. destruct (Z.eqb_spec c QUOTE) as [->|Hc].
  - assert (E1 : csv_char d (mkP FieldBegun true 0 e) QUOTE
                 = (mkP MightHaveEnded true 0 (e ++ [QUOTE]), [])) by done.
    assert (E2 : csv_char d (mkP MightHaveEnded true 0 (e ++ [QUOTE])) QUOTE
                 = (mkP FieldBegun true 0 (e ++ [QUOTE]), [])).
    { unfold csv_char. cbn [p_state p_quoted p_spaces p_entry]. by rewrite Hq. }
    cbn [csv_parse]. rewrite E1, E2, IH. by rewrite <-app_assoc.
  - assert (E : csv_char d (mkP FieldBegun true 0 e) c
                = (mkP FieldBegun true 0 (e ++ [c]), [])).
    { unfold csv_char. cbn [p_state p_quoted p_spaces p_entry].
      rewrite (proj2 (Z.eqb_neq c QUOTE)) by done. cbn [negb andb].
      by destruct (c =? d), (is_term c). }
    cbn [csv_parse]. rewrite E, IH. by rewrite <-app_assoc.
Qed.

Lemma parse_ended_blanks d n e b :
  Forall (blank d) b ->
  csv_parse d (mkP MightHaveEnded true n e) b
    = (mkP MightHaveEnded true (n + length b) (e ++ b), []).
Proof.
  intros HF. revert n e. induction HF as [|c b Hc HF IH]; intros n e.
  - cbn. by rewrite app_nil_r, Nat.add_0_r.
  - destruct (blank_sp _ _ Hc) as (E1 & E2 & E3).
    assert (E : csv_char d (mkP MightHaveEnded true n e) c
                = (mkP MightHaveEnded true (S n) (e ++ [c]), [])).
    { unfold csv_char. cbn [p_state p_quoted p_spaces p_entry]. by rewrite E1, E2, E3. }
    cbn [csv_parse]. rewrite E, IH. rewrite <-app_assoc. cbn. do 2 f_equal. lia.
Qed.

Lemma parse_quoted d p s b :
  delim_ok d -> idle p -> Forall (blank d) b ->
  exists p', csv_parse d p (quoted s ++ b) = (p', []) /\ closes d p' s.
Proof.
  intros Hd Hp Hb. rewrite <-csv_write_quoted. unfold csv_write.
  assert (E1 : csv_char d p QUOTE = (mkP FieldBegun true 0 [], [])).
  { unfold csv_char. assert ((QUOTE =? d) = false) as ->
      by (rewrite Z.eqb_sym; by apply delim_quote).
    by destruct Hp as [-> | ->]. }
  rewrite <-app_comm_cons. cbn [csv_parse]. rewrite E1.
  rewrite <-app_assoc, csv_parse_app, parse_escape by done.
  rewrite csv_parse_app, csv_parse_one.
  assert (E2 : csv_char d (mkP FieldBegun true 0 ([] ++ s)) QUOTE
               = (mkP MightHaveEnded true 0 (s ++ [QUOTE]), [])) by done.
  rewrite E2, parse_ended_blanks by done. cbn. eexists. split; [done|].
  pose proof (closes_ended d (length b) ((s ++ [QUOTE]) ++ b) Hd) as HC.
  assert (Eu : unsubmit (length b + 1) ((s ++ [QUOTE]) ++ b) = s).
  { rewrite <-app_assoc. apply unsubmit_app. rewrite app_length. cbn. lia. }
  rewrite Eu in HC. exact HC.
Qed.

(** ** Fields and rows *)

Lemma parse_field d p s e :
  delim_ok d -> idle p -> field_enc d s e ->
  exists p', csv_parse d p e = (p', []) /\ closes_d d p' s /\
    (closes d p' s \/ (p = p_init /\ p' = p_init /\ Forall (blank d) e)).
Proof.
  intros Hd Hp (b1 & b2 & e0 & -> & Hb1 & Hb2 & [[-> Hpl]|[-> Hnl]]).
  - rewrite csv_parse_app, (parse_blanks d p) by done.
    destruct (decide (s = [])) as [->|Hne].
    + cbn [app]. rewrite (parse_blanks d p) by done. exists p. split; [done|].
      destruct Hp as [-> | ->].
      * split; [by apply closes_d_init|]. right. split_and!; [done|done|].
        by apply Forall_app.
      * pose proof (closes_after d Hd) as Hc. split; [apply Hc|by left].
    + destruct (parse_plain d p s b2 Hd Hp Hpl Hne Hb2) as (p' & E & Hc).
      rewrite E. exists p'. split; [done|]. split; [apply Hc|by left].
  - rewrite csv_parse_app, (parse_blanks d p) by done.
    destruct (parse_quoted d p s b2 Hd Hp Hb2) as (p' & E & Hc).
    rewrite E. exists p'. split; [done|]. split; [apply Hc|by left].
Qed.

Lemma joined_cons d e e' es : joined d (e :: e' :: es) = e ++ d :: joined d (e' :: es).
Proof. done. Qed.

Lemma parse_fields d fs es p :
  delim_ok d -> idle p -> Forall2 (field_enc d) fs es -> fs <> [] ->
  (p = p_init -> ~ Forall (blank d) (joined d es)) ->
  exists fs0 s p', fs = fs0 ++ [s] /\
    csv_parse d p (joined d es) = (p', EvField <$> fs0) /\ closes d p' s.
Proof.
  intros Hd Hp HF Hne Hb. revert p Hp Hb.
  induction HF as [|f e fs es He HF IH]; intros p Hp Hb; [done|].
  destruct (parse_field d p f e Hd Hp He) as (p1 & E1 & Hc1 & Hc2).
  destruct es as [|e' es].
  - apply Forall2_nil_inv_r in HF as ->. exists [], f, p1. cbn. split_and!; [done|done|].
    destruct Hc2 as [?|(-> & _ & HB)]; [done|]. exfalso. by apply Hb.
  - destruct fs as [|f' fs]; [by apply Forall2_nil_inv_l in HF|].
    destruct (IH ltac:(done) after_field ltac:(by right) ltac:(done))
      as (fs0 & s & p' & Efs & E2 & Hc).
    exists (f :: fs0), s, p'. rewrite Efs. split_and!; [done| |done].
    rewrite joined_cons, csv_parse_app, E1. cbn [csv_parse]. rewrite Hc1, E2. done.
Qed.

(** All callbacks for one line of the file. *)
Lemma parse_events d fs l l' p es :
  delim_ok d -> csv_text d fs l -> (l' = l ++ [10] \/ l' = l) ->
  csv_parse d p_init l' = (p, es) ->
  es ++ csv_fini p = (EvField <$> fs) ++ [EvRow].
Proof.
  intros Hd (l0 & (ens & HF & -> & Hne & Hb) & Hl) Hl' E.
  destruct (parse_fields d fs ens p_init Hd ltac:(by left) HF Hne ltac:(done))
    as (fs0 & s & p' & -> & E1 & (_ & C10 & C13 & Cf)).
  assert (Hnl : csv_parse d p_init [10] = (p_init, [])).
  { rewrite csv_parse_one. unfold csv_char. cbn. done. }
  rewrite fmap_app, <-app_assoc. cbn [fmap list_fmap app].
  destruct Hl as [-> | ->]; destruct Hl' as [-> | ->].
  - rewrite csv_parse_app, E1, csv_parse_one, C10 in E. injection E as <- <-.
    cbn. by rewrite app_nil_r.
  - rewrite E1 in E. injection E as <- <-. by rewrite Cf.
  - rewrite <-app_assoc, csv_parse_app, E1 in E. cbn [app] in E.
    change [13; 10] with ([13] ++ [10]) in E.
    rewrite csv_parse_app, csv_parse_one, C13, Hnl in E. injection E as <- <-.
    cbn. by rewrite app_nil_r.
  - rewrite csv_parse_app, E1, csv_parse_one, C13 in E. injection E as <- <-.
    cbn. by rewrite app_nil_r.
Qed.

(** * The callbacks *)

Section cb.
  Context (tof hstr : list Z -> Z) (c : csvp) (isnum : bool).

  (** The [k]-th field when the first of [fs] has number [idx]. *)
  Definition fieldfrom (idx : Z) (fs : list (list Z)) (k : Z) : option (list Z) :=
    if decide (idx <= k) then fs !! Z.to_nat (k - idx) else None.

  Lemma fieldfrom_here idx f fs : fieldfrom idx (f :: fs) idx = Some f.
  Proof.
    unfold fieldfrom. destruct (decide _); [|lia]. by rewrite Z.sub_diag.
  Qed.
  Lemma fieldfrom_next idx f fs k :
    k <> idx -> fieldfrom idx (f :: fs) k = fieldfrom (idx + 1) fs k.
  Proof.
    intros H. unfold fieldfrom. destruct (decide (idx <= k)), (decide (idx + 1 <= k));
      try lia; [|done].
    replace (Z.to_nat (k - idx)) with (S (Z.to_nat (k - (idx + 1)))) by lia. done.
  Qed.
  Lemma fieldfrom_past idx fs k : k < idx -> fieldfrom idx fs k = None.
  Proof. intros H. unfold fieldfrom. by destruct (decide _); [lia|]. Qed.

  Definition set_field (o : option (list Z)) (x : Z) (g : list Z -> Z) (q : treq) : treq :=
    match o with Some s => <[x := g s]> q | None => q end.

  (** The request after the fields numbered from [idx] on. *)
  Definition row_from (idx : Z) (fs : list (list Z)) (q : treq) : treq :=
    set_field (fieldfrom idx fs (cv_size c)) F_SIZE (fun s => u32 (default 0 (strtoull s)))
      (set_field (fieldfrom idx fs (cv_time c)) F_TIME tof
        (set_field (fieldfrom idx fs (cv_id c)) F_ID
           (fun s => if isnum then default 0 (strtoull s) else u64 (hstr s)) q)).

  Definition cnt_from (idx : Z) (fs : list (list Z)) (lft : Z) : Z :=
    match fieldfrom idx fs (cv_cnt c) with
    | Some s => i32 (u64 (default 0 (strtoull s) - 1))
    | None => lft
    end.

  (** The numbers of different fields differ. *)
  Definition distinct : Prop :=
    forall a b, (a, b) ∈ [(cv_id c, cv_time c); (cv_id c, cv_size c); (cv_id c, cv_cnt c);
                (cv_time c, cv_size c); (cv_time c, cv_cnt c); (cv_size c, cv_cnt c)] ->
      a <> b \/ a < 1.

  Lemma set_field_comm o1 o2 x1 x2 g1 g2 q :
    x1 <> x2 ->
    set_field o1 x1 g1 (set_field o2 x2 g2 q) = set_field o2 x2 g2 (set_field o1 x1 g1 q).
  Proof. destruct o1, o2; cbn; try done. intros. by apply insert_commute. Qed.

  Lemma cb_fields fs idx q lft :
    distinct -> 1 <= idx ->
    foldl (csv_cb tof hstr c isnum) (q, idx, lft) (EvField <$> fs)
      = (row_from idx fs q, idx + Z.of_nat (length fs), cnt_from idx fs lft).
  Proof.
    intros HD. revert idx q lft. induction fs as [|f fs IH]; intros idx q lft Hi.
    - cbn. unfold row_from, cnt_from, fieldfrom. rewrite Z.add_0_r.
      repeat destruct (decide _); rewrite ?lookup_nil; done.
    - assert (Hd : forall a b, (a, b) ∈ [(cv_id c, cv_time c); (cv_id c, cv_size c);
                (cv_id c, cv_cnt c); (cv_time c, cv_size c); (cv_time c, cv_cnt c);
                (cv_size c, cv_cnt c)] -> a = idx -> b <> idx).
      { intros a b Hab -> ->. destruct (HD _ _ Hab); lia. }
      cbn [fmap list_fmap foldl]. unfold csv_cb at 2. fold csv_cb.
      replace (idx + Z.of_nat (length (f :: fs))) with (idx + 1 + Z.of_nat (length fs))
        by (cbn; lia).
      destruct (Z.eqb_spec idx (cv_id c)) as [E|N1];
        [|destruct (Z.eqb_spec idx (cv_time c)) as [E|N2];
          [|destruct (Z.eqb_spec idx (cv_size c)) as [E|N3];
             [|destruct (Z.eqb_spec idx (cv_cnt c)) as [E|N4]]]].
      + rewrite IH by lia. unfold row_from, cnt_from.
        rewrite (fieldfrom_next idx f fs (cv_time c)) by (eapply Hd; [|by symmetry]; set_solver).
        rewrite (fieldfrom_next idx f fs (cv_size c)) by (eapply Hd; [|by symmetry]; set_solver).
        rewrite (fieldfrom_next idx f fs (cv_cnt c)) by (eapply Hd; [|by symmetry]; set_solver).
        rewrite <-E, fieldfrom_here, (fieldfrom_past (idx + 1) fs idx) by lia. done.
      + rewrite IH by lia. unfold row_from, cnt_from.
        rewrite (fieldfrom_next idx f fs (cv_id c)) by done.
        rewrite (fieldfrom_next idx f fs (cv_size c)) by (eapply Hd; [|by symmetry]; set_solver).
        rewrite (fieldfrom_next idx f fs (cv_cnt c)) by (eapply Hd; [|by symmetry]; set_solver).
        rewrite <-E, fieldfrom_here, (fieldfrom_past (idx + 1) fs idx) by lia.
        do 3 f_equal. cbn [set_field].
        change (<[F_TIME := tof f]> q) with (set_field (Some f) F_TIME tof q).
        by rewrite set_field_comm.
      + rewrite IH by lia. unfold row_from, cnt_from.
        rewrite (fieldfrom_next idx f fs (cv_id c)) by done.
        rewrite (fieldfrom_next idx f fs (cv_time c)) by done.
        rewrite (fieldfrom_next idx f fs (cv_cnt c)) by (eapply Hd; [|by symmetry]; set_solver).
        rewrite <-E, fieldfrom_here, (fieldfrom_past (idx + 1) fs idx) by lia.
        do 2 f_equal. cbn [set_field].
        change (<[F_SIZE := u32 (default 0 (strtoull f))]> q)
          with (set_field (Some f) F_SIZE (fun s => u32 (default 0 (strtoull s))) q).
        rewrite (set_field_comm _ _ F_ID F_SIZE) by done.
        by rewrite (set_field_comm _ _ F_TIME F_SIZE) by done.
      + rewrite IH by lia. unfold row_from, cnt_from.
        rewrite (fieldfrom_next idx f fs (cv_id c)) by done.
        rewrite (fieldfrom_next idx f fs (cv_time c)) by done.
        rewrite (fieldfrom_next idx f fs (cv_size c)) by done.
        by rewrite <-E, fieldfrom_here, (fieldfrom_past (idx + 1) fs idx) by lia.
      + rewrite IH by lia. unfold row_from, cnt_from.
        by rewrite !(fieldfrom_next idx f fs) by done.
  Qed.

  (** One line of the file, decoded. *)
  Lemma csv_line_row fs l l' q lft :
    delim_ok (cv_delim c) -> distinct -> csv_text (cv_delim c) fs l ->
    (l' = l ++ [10] \/ l' = l) ->
    csv_line tof hstr c isnum l' q lft = (row_from 1 fs q, 1, cnt_from 1 fs lft).
  Proof.
    intros Hd HD Hl Hl'. unfold csv_line.
    destruct (csv_parse (cv_delim c) p_init l') as [p es] eqn:E.
    rewrite (parse_events _ _ _ _ _ _ Hd Hl Hl' E).
    rewrite foldl_app, cb_fields by (done || lia). done.
  Qed.
End cb.
