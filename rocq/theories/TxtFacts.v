(** Lemmas about the text reader model. *)
From stdpp Require Import gmap list numbers fin_maps.
From Verif Require Import Base ModelReader ModelTxt SpecTxt.
Open Scope Z_scope.

(** * Lines *)

Lemma nlt_cons l ls :
  newline_terminated (l :: ls) = l ++ 10 :: newline_terminated ls.
Proof. unfold newline_terminated. cbn. by rewrite <-app_assoc. Qed.

Lemma nlt_app ls1 ls2 :
  newline_terminated (ls1 ++ ls2) = newline_terminated ls1 ++ newline_terminated ls2.
Proof. unfold newline_terminated. by rewrite fmap_app, concat_app. Qed.

Lemma take_line_nl l r : 10 ∉ l -> take_line (l ++ 10 :: r) = l ++ [10].
Proof.
  induction l as [|c l IH]; intros H; [done|]. apply not_elem_of_cons in H as [H1 H2].
  cbn. destruct (Z.eqb_spec c 10); [congruence|]. by rewrite IH.
Qed.

Lemma take_line_last l : 10 ∉ l -> take_line l = l.
Proof.
  induction l as [|c l IH]; intros H; [done|]. apply not_elem_of_cons in H as [H1 H2].
  cbn. destruct (Z.eqb_spec c 10); [congruence|]. by rewrite IH.
Qed.

Lemma lines_of_nil f : lines_of f [] -> f = [].
Proof.
  intros [_ [->|(ls' & l & E & _)]]; [done|]. by destruct ls'.
Qed.

Lemma lines_of_cons f l ls :
  lines_of f (l :: ls) ->
  10 ∉ l /\ ((exists r, f = l ++ 10 :: r /\ lines_of r ls) \/
             (ls = [] /\ l <> [] /\ f = l)).
Proof.
  intros [HF Hf]. apply Forall_cons in HF as [Hl HF]. split; [done|].
  destruct Hf as [->|(ls' & l1 & E & Hl1 & ->)].
  - left. exists (newline_terminated ls). split; [apply nlt_cons|]. split; [done|by left].
  - destruct ls' as [|x ls']; cbn in E; injection E as -> ->.
    + right. done.
    + left. exists (newline_terminated ls' ++ l1). rewrite nlt_cons, <-app_assoc.
      split; [done|]. split; [done|]. right. by exists ls', l1.
Qed.

(** Every file has exactly one list of lines. *)
Lemma lines_of_total f : exists ls, lines_of f ls.
Proof.
  induction f as [|c f (ls & HF & IH)].
  { exists []. split; [constructor|by left]. }
  destruct (decide (c = 10)) as [->|Hc].
  - exists ([] :: ls). split; [constructor; [set_solver|done]|].
    destruct IH as [->|(ls' & l & -> & Hl & ->)].
    + left. by rewrite nlt_cons.
    + right. exists ([] :: ls'), l. split_and!; [done|done|by rewrite nlt_cons].
  - destruct ls as [|l ls].
    + apply (conj HF), lines_of_nil in IH as ->. exists [[c]].
      split; [constructor; [set_solver|constructor]|]. right. by exists [], [c].
    + apply Forall_cons in HF as [Hl HF]. exists ((c :: l) :: ls).
      split; [constructor; [set_solver|done]|].
      destruct IH as [->|(ls' & l1 & E & Hl1 & ->)].
      * left. by rewrite !nlt_cons.
      * right. destruct ls' as [|x ls']; cbn in E; injection E as -> ->.
        -- by exists [], (c :: l1).
        -- exists ((c :: x) :: ls'), l1. split_and!; [done|done|by rewrite !nlt_cons].
Qed.

Lemma split_unique (l l' r r' : list Z) :
  10 ∉ l -> 10 ∉ l' -> l ++ 10 :: r = l' ++ 10 :: r' -> l = l' /\ r = r'.
Proof.
  revert l'. induction l as [|c l IH]; intros l' H H' E; destruct l' as [|c' l']; cbn in E.
  - by injection E.
  - injection E as <- E. set_solver.
  - injection E as -> E. set_solver.
  - injection E as <- E. apply IH in E as [-> ->]; set_solver.
Qed.

Lemma lines_of_unique f ls ls' : lines_of f ls -> lines_of f ls' -> ls = ls'.
Proof.
  revert f ls'. induction ls as [|l ls IH]; intros f ls' H H'.
  - apply lines_of_nil in H as ->. destruct ls' as [|l' ls']; [done|].
    apply lines_of_cons in H' as (_ & [(r & E & _)|(_ & ? & E)]).
    + by destruct l'.
    + congruence.
  - destruct ls' as [|l' ls'].
    + apply lines_of_nil in H' as ->. apply lines_of_cons in H as (_ & [(r & E & _)|(_ & ? & E)]).
      * by destruct l.
      * congruence.
    + apply lines_of_cons in H as (Hl & [(r & E & Hr)|(-> & Hn & E)]);
      apply lines_of_cons in H' as (Hl' & [(r' & E' & Hr')|(-> & Hn' & E')]).
      * rewrite E in E'. apply split_unique in E' as [-> ->]; [|done..]. f_equal. by eapply IH.
      * exfalso. apply Hl'. rewrite <-E', E. set_solver.
      * exfalso. apply Hl. rewrite <-E, E'. set_solver.
      * congruence.
Qed.

Lemma lines_of_length f ls : lines_of f ls -> (length ls <= length f)%nat.
Proof.
  revert f. induction ls as [|l ls IH]; intros f H; [cbn; lia|].
  apply lines_of_cons in H as (_ & [(r & -> & Hr)|(-> & Hn & ->)]).
  - apply IH in Hr. rewrite app_length. cbn. lia.
  - destruct l; [done|]. cbn. lia.
Qed.

(** What getline returns at the start of a line. *)
Lemma getline_none f p : lines_of (drop p f) [] -> getline f p = None.
Proof. intros H%lines_of_nil. unfold getline. by rewrite H. Qed.

Lemma getline_some f p l ls :
  lines_of (drop p f) (l :: ls) ->
  exists l', (l' = l ++ [10] \/ (l' = l /\ ls = [] /\ l <> [])) /\
    getline f p = Some (l', (p + length l')%nat) /\
    (p + length l' <= length f)%nat /\
    lines_of (drop (p + length l') f) ls.
Proof.
  intros H. apply lines_of_cons in H as (Hl & [(r & E & Hr)|(-> & Hn & E)]).
  - exists (l ++ [10]). split; [by left|].
    assert (Hlen : (length (l ++ [10%Z]) + length r = length f - p)%nat).
    { rewrite <-drop_length, E, !app_length. cbn. lia. }
    assert (0 < length (l ++ [10%Z]))%nat by (rewrite app_length; cbn; lia).
    split_and!.
    + unfold getline. rewrite E, take_line_nl by done. by destruct l.
    + lia.
    + rewrite <-drop_drop, E.
      replace (l ++ 10 :: r) with ((l ++ [10]) ++ r) by by rewrite <-app_assoc.
      by rewrite drop_app.
  - exists l. split; [by right|].
    assert (Hlen : (length l = length f - p)%nat) by (by rewrite <-drop_length, E).
    assert (0 < length l)%nat by (destruct l; cbn; [done|lia]).
    split_and!.
    + unfold getline. rewrite E, take_line_last by done. by destruct l.
    + lia.
    + rewrite drop_ge by lia. split; [constructor|by left].
Qed.

Lemma nonblank_cons l ls :
  nonblank (l :: ls) = if decide (l = []) then nonblank ls else l :: nonblank ls.
Proof.
  unfold nonblank. destruct (decide (l = [])) as [->|H].
  - apply filter_cons_False. naive_solver.
  - by apply filter_cons_True.
Qed.

Lemma txt_getline_spec fuel f p ls :
  lines_of (drop p f) ls -> (p <= length f)%nat -> (length ls < fuel)%nat ->
  match nonblank ls with
  | [] => txt_getline fuel f p = Ok None
  | l :: r =>
      exists l' p' ls', txt_getline fuel f p = Ok (Some (l', p')) /\
        (p' <= length f)%nat /\ lines_of (drop p' f) ls' /\ nonblank ls' = r /\
        (length ls' < length ls)%nat /\
        (l' = l ++ [10] \/ l' = l) /\ l <> [] /\ 10 ∉ l
  end.
Proof.
  revert fuel p. induction ls as [|l ls IH]; intros fuel p H Hp Hf;
    (destruct fuel as [|fuel]; [lia|]).
  - cbn. by rewrite getline_none.
  - assert (Hnl : 10 ∉ l) by (apply lines_of_cons in H; tauto).
    destruct (getline_some _ _ _ _ H) as (l' & Hl' & Hg & Hp' & Hr).
    rewrite nonblank_cons. cbn [length] in Hf.
    destruct (decide (l = [])) as [->|Hn].
    + destruct Hl' as [->|(-> & _ & ?)]; [|done].
      specialize (IH fuel _ Hr Hp' ltac:(lia)).
      assert (E : txt_getline (S fuel) f p
                  = txt_getline fuel f (p + length ([] ++ [10%Z]))%nat).
      { cbn [txt_getline]. rewrite Hg. by destruct (decide _). }
      rewrite E. destruct (nonblank ls); [done|].
      destruct IH as (l' & p' & ls' & ? & ? & ? & ? & ? & ?).
      exists l', p', ls'. split_and!; [done..|cbn; lia|tauto|tauto|tauto].
    + exists l', (p + length l')%nat, ls.
      split_and!; [|done|done|done|cbn; lia|naive_solver|done|done].
      cbn [txt_getline]. rewrite Hg. destruct (decide (l' = [10])) as [->|]; [|done].
      exfalso. destruct Hl' as [E|(E & _)].
      * destruct l as [|a l]; [done|]. by destruct l.
      * set_solver.
Qed.

Lemma chomp_line l l' : 10 ∉ l -> (l' = l ++ [10] \/ l' = l) -> chomp l' = l.
Proof.
  intros H [-> | ->]; unfold chomp.
  - rewrite last_snoc. cbn. rewrite app_length. cbn.
    replace (length l + 1 - 1)%nat with (length l) by lia. by rewrite take_app.
  - destruct (last l) as [c|] eqn:E; [|done].
    destruct (Z.eqb_spec c 10) as [->|]; [|done].
    exfalso. apply H. rewrite last_lookup in E. by eapply elem_of_list_lookup_2.
Qed.

Lemma cstr_id l : 0 ∉ l -> cstr l = l.
Proof.
  induction l as [|c l IH]; intros H; [done|]. apply not_elem_of_cons in H as [H1 H2].
  cbn. destruct (Z.eqb_spec c 0); [congruence|]. by rewrite IH.
Qed.

(** * Numbers *)

Definition stops (r : list Z) : Prop :=
  match r with [] => True | c :: _ => digit_val c = None end.

Lemma digit_in_dec c : 48 <= c <= 57 -> digit_in 10 c = Some (c - 48).
Proof.
  intros H. unfold digit_in, digit_val.
  replace ((48 <=? c) && (c <=? 57)) with true by (symmetry; apply andb_true_iff; lia).
  destruct (Z.ltb_spec (c - 48) 10); [done|lia].
Qed.

Lemma digits_stop b a r : stops r -> digits b a r = a.
Proof. destruct r; cbn; [done|]. unfold digit_in. by intros ->. Qed.

Lemma digits_run ds r a :
  Forall (fun c => 48 <= c <= 57) ds -> stops r ->
  digits 10 a (ds ++ r) =
    match ds with [] => a
    | _ => Some (foldl (fun a c => 10 * a + (c - 48)) (default 0 a) ds) end.
Proof.
  revert a. induction ds as [|c ds IH]; intros a HF Hr; [by apply digits_stop|].
  apply Forall_cons in HF as [Hc HF]. cbn [digits app].
  rewrite digit_in_dec by done. rewrite IH by done. destruct ds as [|c' ds].
  - cbn. f_equal. lia.
  - cbn [default foldl id]. do 2 f_equal. cbn. f_equal. lia.
Qed.

Lemma stops_nl l : stops (10 :: l).
Proof. done. Qed.
Lemma stops_cr l : stops (13 :: l).
Proof. done. Qed.

Lemma strtoull_decimal ds n r : decimal ds n -> stops r -> strtoull (ds ++ r) = Some n.
Proof.
  intros (Hne & HF & H0 & -> & Hn) Hr.
  destruct ds as [|c ds]; [done|].
  assert (Hc : 48 <= c <= 57) by (by apply Forall_cons in HF as [? _]).
  assert (Hsp : skip_spaces ((c :: ds) ++ r) = (c :: ds) ++ r).
  { cbn. unfold is_space. destruct (Z.eqb_spec c 32); [lia|].
    destruct (Z.leb_spec c 13); [lia|]. by rewrite andb_false_r. }
  assert (Hsg : take_sign ((c :: ds) ++ r) = (false, (c :: ds) ++ r)).
  { cbn. assert (c = 48 \/ c = 49 \/ c = 50 \/ c = 51 \/ c = 52 \/ c = 53 \/ c = 54
                 \/ c = 55 \/ c = 56 \/ c = 57) as Hcs by lia.
    by repeat destruct Hcs as [->|Hcs]; subst. }
  unfold strtoull. rewrite Hsp, Hsg.
  assert (Hm : magnitude ((c :: ds) ++ r)
               = Some (foldl (fun a c => 10 * a + (c - 48)) 0 (c :: ds))).
  { destruct (decide (c = 48)) as [->|Hc0].
    - specialize (H0 eq_refl). injection H0 as ->. cbn [app]. destruct r as [|x r]; [done|].
      unfold magnitude. cbn in Hr.
      destruct ((x =? 120) || (x =? 88)) eqn:Ex.
      + exfalso. apply orb_true_iff in Ex as [->%Z.eqb_eq | ->%Z.eqb_eq]; done.
      + cbn [digits]. change (digit_in 8 48) with (Some 0). unfold digit_in. by rewrite Hr.
    - pose proof (digits_run (c :: ds) r None HF Hr) as HD. cbn [default] in HD. rewrite <-HD.
      assert (c = 49 \/ c = 50 \/ c = 51 \/ c = 52 \/ c = 53 \/ c = 54
              \/ c = 55 \/ c = 56 \/ c = 57) as Hcs by lia.
      by repeat destruct Hcs as [->|Hcs]; subst. }
  rewrite Hm. destruct (Z.leb_spec (2 ^ 64) (foldl (fun a c => 10 * a + (c - 48)) 0 (c :: ds))); [lia|done].
Qed.

(** * Quarks *)

Lemma index_of_app s t u i : index_of s t = Some i -> index_of s (t ++ u) = Some i.
Proof.
  revert i. induction t as [|x t IH]; intros i; cbn; [done|].
  destruct (decide (x = s)); [done|].
  destruct (index_of s t) as [j|]; cbn; [|done]. intros [= <-]. by rewrite (IH j).
Qed.

Lemma index_of_lookup s t i : index_of s t = Some i -> t !! i = Some s.
Proof.
  revert i. induction t as [|x t IH]; intros i; cbn; [done|].
  destruct (decide (x = s)) as [->|]; [by intros [= <-]|].
  destruct (index_of s t) as [j|]; cbn; [|done]. intros [= <-]. by apply IH.
Qed.

Lemma index_of_new s t : index_of s t = None -> index_of s (t ++ [s]) = Some (length t).
Proof.
  induction t as [|x t IH]; cbn; [by destruct (decide (s = s))|].
  destruct (decide (x = s)); [done|]. destruct (index_of s t); cbn; [done|].
  intros _. by rewrite IH.
Qed.

Lemma quark_spec t s v t' :
  quark t s = (v, t') ->
  t `prefix_of` t' /\ exists i, index_of s t' = Some i /\ v = Z.of_nat i + 1.
Proof.
  unfold quark. destruct (index_of s t) as [i|] eqn:E; intros [= <- <-].
  - split; [done|]. by exists i.
  - split; [by exists [s]|]. exists (length t). split; [by apply index_of_new|done].
Qed.

Lemma index_of_prefix s t t' i :
  t `prefix_of` t' -> index_of s t = Some i -> index_of s t' = Some i.
Proof. intros [u ->]. apply index_of_app. Qed.

(** The identifier of a line once the table of quarks is [T]. *)
Definition idf (isnum : bool) (T : list (list Z)) (l : list Z) : Z :=
  if isnum then default 0 (strtoull l)
  else match index_of l T with Some i => Z.of_nat i + 1 | None => 0 end.

Lemma idf_inj T l l' :
  l ∈ T -> l' ∈ T -> idf false T l = idf false T l' -> l = l'.
Proof.
  intros H H'.
  assert (HI : forall x, x ∈ T -> exists i, index_of x T = Some i).
  { intros x. clear. induction T as [|y T IH]; [set_solver|]. intros Hx. cbn.
    destruct (decide (y = x)); [eauto|]. destruct IH as [i ->]; [set_solver|]. cbn. eauto. }
  destruct (HI _ H) as [i Hi], (HI _ H') as [j Hj]. unfold idf. rewrite Hi, Hj. intros E.
  assert (i = j) as <- by lia. apply index_of_lookup in Hi, Hj. congruence.
Qed.

Lemma idf_prefix T T' l : T `prefix_of` T' -> l ∈ T -> idf false T' l = idf false T l.
Proof.
  intros HT H.
  assert (exists i, index_of l T = Some i) as [i Hi].
  { clear -H. induction T as [|y T IH]; [set_solver|]. cbn.
    destruct (decide (y = l)); [eauto|]. destruct IH as [i ->]; [set_solver|]. cbn. eauto. }
  unfold idf. by rewrite Hi, (index_of_prefix _ _ _ _ HT Hi).
Qed.

(** * Reading forward *)

Definition line_ok (isnum : bool) (l : list Z) : Prop :=
  if isnum then is_Some (strtoull l) /\ strtoull (l ++ [10]) = strtoull l else 0 ∉ l.

Lemma decimal_ok l n : decimal l n -> line_ok true l /\ strtoull l = Some n.
Proof.
  intros H. pose proof (strtoull_decimal l n [] H I) as E1. rewrite app_nil_r in E1.
  pose proof (strtoull_decimal l n [10] H (stops_nl _)) as E2. split; [|done].
  split; [by rewrite E1|congruence].
Qed.

Lemma txt_id_spec isnum qs l l' :
  line_ok isnum l -> 10 ∉ l -> (l' = l ++ [10] \/ l' = l) ->
  exists v qs', txt_id isnum qs l' = Ok (v, qs') /\ qs `prefix_of` qs' /\
    (isnum = false -> l ∈ qs') /\
    forall T, qs' `prefix_of` T -> v = idf isnum T l.
Proof.
  intros Hok Hnl Hl'. unfold txt_id. destruct isnum.
  - destruct Hok as [[v Hv] E].
    assert (strtoull l' = Some v) as -> by (destruct Hl' as [-> | ->]; congruence).
    exists v, qs. split_and!; [done|done|done|]. intros T _. unfold idf. by rewrite Hv.
  - assert (cstr (chomp l') = l) as -> by (rewrite (chomp_line l l') by done; by apply cstr_id).
    destruct (quark qs l) as [v qs'] eqn:E. apply quark_spec in E as (Hp & i & Hi & ->).
    exists (Z.of_nat i + 1), qs'. split_and!; [done|done| |].
    + intros _. apply index_of_lookup in Hi. by eapply elem_of_list_lookup_2.
    + intros T HT. unfold idf. by rewrite (index_of_prefix _ _ _ _ HT Hi).
Qed.

Definition txt_req (ignsz : bool) (q : treq) (v : Z) : treq :=
  let q1 := <[F_ID := v]> (prologue q) in if ignsz then <[F_SIZE := 1]> q1 else q1.

Lemma txt_req_again ignsz q v w : txt_req ignsz (txt_req ignsz q v) w = txt_req ignsz q w.
Proof.
  apply map_eq. intros k. unfold txt_req, prologue.
  unfold F_ID, F_SIZE, F_VALID, F_TTL, F_HV.
  destruct ignsz;
    repeat match goal with
    | |- context [<[?i := _]> _ !! k] =>
        destruct (decide (i = k)) as [<-|?];
          [rewrite !lookup_insert; try done|rewrite !(lookup_insert_ne _ i k) by done]
    end; try done;
    repeat (rewrite lookup_insert_ne by lia); rewrite ?lookup_insert; try done.
Qed.

Definition todo (cap nread : Z) {A} (l : list A) : list A :=
  if decide (1 < cap) then take (Z.to_nat (cap - nread)) l else l.

Section fwd.
  Context (tof hstr : list Z -> Z).

  Lemma read_txt_unfold rd q :
    t_csv rd = None -> t_left rd = 0 ->
    read_txt tof hstr rd q =
      if t_no_more rd then Ok (rd, set_invalid q, 1)
      else let! (rd2, q2, st) := txt_read (t_setn rd (t_nread rd + 1)) (prologue q) in
           Ok (rd2, t_sizes rd q2, st).
  Proof.
    intros Hc Hl. unfold read_txt, t_fuel.
    replace (3 * t_size rd + 5)%nat with (S (3 * t_size rd + 4)) by lia.
    cbn [tread]. rewrite Hc, Hl. by destruct (t_no_more rd).
  Qed.

  (** One read on a file of which the lines [ls] are left. *)
  Lemma read_one_txt rd q ls :
    t_csv rd = None -> t_left rd = 0 -> (t_mmap rd < t_size rd)%nat ->
    (t_pos rd <= t_size rd)%nat -> ~ (1 < t_cap rd /\ t_cap rd <= t_nread rd) ->
    lines_of (drop (t_pos rd) (t_file rd)) ls ->
    Forall (line_ok (t_isnum rd)) (nonblank ls) ->
    match nonblank ls with
    | [] => exists pos q', read_txt tof hstr rd q
              = Ok (t_set rd pos (t_nread rd + 1) 0 (t_ltime rd) (t_quarks rd), q', 1)
    | l :: r =>
        exists ls' pos qs' v,
          read_txt tof hstr rd q
            = Ok (t_set rd pos (t_nread rd + 1) 0 (t_ltime rd) qs',
                  txt_req (t_ignsz rd) q v, 0) /\
          (pos <= t_size rd)%nat /\ lines_of (drop pos (t_file rd)) ls' /\
          nonblank ls' = r /\ t_quarks rd `prefix_of` qs' /\
          (t_isnum rd = false -> l ∈ qs') /\
          forall T, qs' `prefix_of` T -> v = idf (t_isnum rd) T l
    end.
  Proof.
    intros Hc Hl Hmm Hp Hcap Hls Hok.
    assert (Hnm : t_no_more rd = false).
    { unfold t_no_more. apply orb_false_iff. split; [by apply Nat.leb_gt|].
      apply andb_false_iff. rewrite Z.ltb_ge, Z.leb_gt. lia. }
    rewrite read_txt_unfold by done. rewrite Hnm. unfold txt_read.
    pose proof (lines_of_length _ _ Hls) as Hlen. rewrite drop_length in Hlen.
    pose proof (txt_getline_spec (S (t_size rd)) _ _ _ Hls Hp) as HG.
    unfold t_size in *. specialize (HG ltac:(lia)).
    cbn [t_setn t_set t_file t_pos t_isnum t_quarks].
    change (t_size (t_setn rd (t_nread rd + 1))) with (length (t_file rd)).
    destruct (nonblank ls) as [|l r].
    - rewrite HG. cbn. eexists _, _. do 3 f_equal. unfold t_seek, t_setn, t_set. cbn. by rewrite Hl.
    - destruct HG as (l' & p' & ls' & Hg & Hp' & Hls' & Hr & _ & Hl' & Hne & Hnl).
      apply Forall_cons in Hok as [Hok _].
      destruct (txt_id_spec (t_isnum rd) (t_quarks rd) l l' Hok Hnl Hl')
        as (v & qs' & Hid & Hpre & Hin & Hv).
      exists ls', p', qs', v. rewrite Hg. cbn. rewrite Hid. cbn.
      split_and!; try done. unfold t_setq, t_seek, t_setn, t_set, t_sizes, txt_req. cbn.
      by rewrite Hl.
  Qed.

  Lemma read_all_txt rd q ls fuel :
    t_csv rd = None -> t_left rd = 0 -> (t_mmap rd < t_size rd)%nat ->
    (t_pos rd <= t_size rd)%nat -> 0 <= t_nread rd ->
    lines_of (drop (t_pos rd) (t_file rd)) ls ->
    Forall (line_ok (t_isnum rd)) (nonblank ls) ->
    (length (nonblank ls) < fuel)%nat ->
    exists T rd' q',
      tread_all tof hstr fuel rd q =
        Ok (txt_req (t_ignsz rd) q <$>
              (idf (t_isnum rd) T <$> todo (t_cap rd) (t_nread rd) (nonblank ls)), rd', q') /\
      (exists pos n, rd' = t_set rd pos n 0 (t_ltime rd) T) /\
      t_quarks rd `prefix_of` T /\
      (t_isnum rd = false -> Forall (.∈ T) (todo (t_cap rd) (t_nread rd) (nonblank ls))).
  Proof.
    revert rd q ls. induction fuel as [|fuel IH]; intros rd q ls Hc Hl Hmm Hp Hn Hls Hok Hf;
      [lia|].
    cbn [tread_all].
    destruct (decide (1 < t_cap rd /\ t_cap rd <= t_nread rd)) as [Hcap|Hcap].
    - rewrite read_txt_unfold by done.
      assert (t_no_more rd = true) as ->.
      { unfold t_no_more. apply orb_true_iff. right. apply andb_true_iff.
        rewrite Z.ltb_lt, Z.leb_le. done. }
      cbn. exists (t_quarks rd), rd, (set_invalid q). unfold todo.
      destruct (decide (1 < t_cap rd)); [|lia].
      replace (Z.to_nat (t_cap rd - t_nread rd)) with 0%nat by lia. rewrite take_0. split_and!; [done| |done|done].
      exists (t_pos rd), (t_nread rd). destruct rd; cbn in *; by rewrite Hl.
    - pose proof (read_one_txt rd q ls Hc Hl Hmm Hp Hcap Hls Hok) as HR.
      destruct (nonblank ls) as [|l r] eqn:Enb.
      + destruct HR as (pos & q' & ->). cbn. eexists (t_quarks rd), _, q'.
        unfold todo. split_and!; [by destruct (decide _); rewrite ?take_nil| |done|].
        * by eexists _, _.
        * by destruct (decide _); rewrite ?take_nil.
      + destruct HR as (ls' & pos & qs' & v & -> & Hp' & Hls' & Hr & Hpre & Hin & Hv).
        cbn [rbind Z.eqb]. set (rd1 := t_set rd pos (t_nread rd + 1) 0 (t_ltime rd) qs').
        apply Forall_cons in Hok as [_ Hok].
        destruct (IH rd1 (txt_req (t_ignsz rd) q v) ls') as (T & rd' & q' & HR & (pos' & n' & Hrd') & HT & HinT);
          try done; [cbn; lia|by rewrite Hr|rewrite Hr; cbn in Hf; lia|].
        rewrite HR. cbn. exists T, rd', q'.
        assert (Etodo : todo (t_cap rd) (t_nread rd) (l :: r)
                = l :: todo (t_cap rd) (t_nread rd + 1) r).
        { unfold todo. destruct (decide (1 < t_cap rd)); [|done].
          replace (Z.to_nat (t_cap rd - t_nread rd))
            with (S (Z.to_nat (t_cap rd - (t_nread rd + 1)))) by lia. done. }
        rewrite Etodo. cbn in HT. split_and!.
        * rewrite Hr. cbn [fmap list_fmap]. rewrite (Hv T) by done. do 3 f_equal.
          change (t_ignsz rd1) with (t_ignsz rd). change (t_isnum rd1) with (t_isnum rd).
          cbn. f_equal. apply list_fmap_ext. intros i x _. apply txt_req_again.
        * exists pos', n'. by rewrite Hrd'.
        * by etransitivity.
        * intros Hs. rewrite Hr in HinT. constructor; [|by apply HinT].
          specialize (Hin Hs). destruct HT as [u ->]. set_solver.
  Qed.
End fwd.
