(** Reading csv files: the forward sequence of requests and the cursor. *)
From stdpp Require Import gmap list numbers fin_maps.
From Verif Require Import Base ModelReader ModelTxt SpecTxt TxtFacts CsvFacts TxtCursor.
Open Scope Z_scope.

(** * The requests that the rows stand for *)

(** The number that a decimal text denotes. *)
Definition dec_value (s : list Z) : Z := foldl (fun a c => 10 * a + (c - 48)) 0 s.

Section rows.
  Context (tof hstr : list Z -> Z) (tp : tparams).

  (** The request after a row with the fields [fs], when the caller's buffer
      held [q]: object id, time and size are taken from the fields that the
      parameters name; whatever is not named keeps its value. *)
  Definition csv_req (fs : list (list Z)) (q : treq) : treq :=
    let put k x (g : list Z -> Z) q :=
      match field fs k with Some s => <[x := g s]> q | None => q end in
    put (tp_size tp) F_SIZE dec_value
      (put (tp_time tp) F_TIME tof
        (put (tp_id tp) F_ID
           (fun s => if tp_isnum tp then dec_value s else u64 (hstr s)) q)).

  (** How many requests the row stands for. *)
  Definition csv_count (fs : list (list Z)) : nat :=
    match field fs (tp_cnt tp) with Some s => Z.to_nat (dec_value s) | None => 1%nat end.

  (** The parameters name different fields (0: no such field). *)
  Definition fields_differ : Prop :=
    forall a b, (a, b) ∈ [(tp_id tp, tp_time tp); (tp_id tp, tp_size tp); (tp_id tp, tp_cnt tp);
                (tp_time tp, tp_size tp); (tp_time tp, tp_cnt tp); (tp_size tp, tp_cnt tp)] ->
      a <> b \/ a < 1.

  (** Numbers are written in decimal and are in range. *)
  Definition row_ok (fs : list (list Z)) : Prop :=
    (forall s, tp_isnum tp = true -> field fs (tp_id tp) = Some s -> exists n, decimal s n) /\
    (forall s, field fs (tp_size tp) = Some s -> exists n, decimal s n /\ n < 2 ^ 32) /\
    (1 <= tp_cnt tp -> exists s n, field fs (tp_cnt tp) = Some s /\ decimal s n /\ 1 <= n <= 2 ^ 31).

  (** All requests of the rows, in order: rows of size zero are dropped if the
      reader is told so, other rows are repeated as often as they say.  Before
      each row the reader resets hv, ttl and valid ([prologue]); if object
      sizes are ignored, the delivered size is 1. *)
  Definition sized (q : treq) : treq := if tp_ignsz tp then <[F_SIZE := 1]> q else q.

  Fixpoint csv_reqs (rows : list (list (list Z))) (q : treq) : list treq :=
    match rows with
    | [] => []
    | fs :: rows' =>
        let q1 := csv_req fs q in
        if (fget q1 F_SIZE =? 0) && tp_ign0 tp then csv_reqs rows' q1
        else replicate (csv_count fs) (sized q1) ++ csv_reqs rows' (prologue (sized q1))
    end.

  Definition csv_requests (rows : list (list (list Z))) (q : treq) : list treq :=
    csv_reqs rows (prologue q).

  (** * Proofs *)

  Definition cp (d : Z) (h : bool) : csvp :=
    mkCsv d h (tp_time tp) (tp_id tp) (tp_size tp) (tp_cnt tp).

  Lemma decimal_value s n : decimal s n -> n = dec_value s /\ 0 <= n < 2 ^ 64 /\ strtoull s = Some n.
  Proof.
    intros H. pose proof (decimal_ok _ _ H) as [_ E]. destruct H as (_ & _ & _ & -> & ?).
    done.
  Qed.

  Lemma row_from_req d h fs q : row_ok fs -> row_from tof hstr (cp d h) (tp_isnum tp) 1 fs q = csv_req fs q.
  Proof.
    intros (H1 & H2 & _). unfold row_from, csv_req, set_field.
    change (fieldfrom 1 fs) with (field fs). cbn [cp cv_size cv_time cv_id].
    assert (Es : forall s, field fs (tp_size tp) = Some s ->
              u32 (default 0 (strtoull s)) = dec_value s).
    { intros s E. destruct (H2 s E) as (n & Hn & Hlt).
      apply decimal_value in Hn as (-> & Hb & ->).
      cbn. unfold u32. by rewrite Z.mod_small by lia. }
    assert (Ei : forall s, field fs (tp_id tp) = Some s ->
              (if tp_isnum tp then default 0 (strtoull s) else u64 (hstr s))
              = if tp_isnum tp then dec_value s else u64 (hstr s)).
    { intros s E. destruct (tp_isnum tp); [|done]. destruct (H1 s eq_refl E) as (n & Hn).
      by apply decimal_value in Hn as (-> & Hb & ->). }
    destruct (field fs (tp_size tp)) as [s1|], (field fs (tp_id tp)) as [s2|];
      rewrite ?(Es s1 eq_refl), ?(Ei s2 eq_refl); done.
  Qed.

  Lemma cnt_from_count d h fs lft :
    row_ok fs -> (tp_cnt tp < 1 -> lft = 0) ->
    cnt_from (cp d h) 1 fs lft = Z.of_nat (csv_count fs) - 1 /\ (1 <= csv_count fs)%nat.
  Proof.
    intros (_ & _ & H3) Hl. unfold cnt_from, csv_count.
    change (fieldfrom 1 fs) with (field fs). cbn [cp cv_cnt].
    destruct (decide (1 <= tp_cnt tp)) as [Hc|Hc].
    - destruct (H3 Hc) as (s & n & -> & Hn & Hr). apply decimal_value in Hn as (E & Hb & ->).
      rewrite <-E. cbn [default id]. split; [|lia]. rewrite Z2Nat.id by lia.
      unfold u64. rewrite Z.mod_small by lia. unfold i32.
      rewrite Z.mod_small by lia. lia.
    - assert (field fs (tp_cnt tp) = None) as ->; [|rewrite Hl; lia].
      unfold field. by destruct (decide _).
  Qed.

  Lemma csv_req_time fs q : is_Some (q !! F_TIME) -> is_Some (csv_req fs q !! F_TIME).
  Proof.
    intros H. unfold csv_req.
    destruct (field fs (tp_size tp)), (field fs (tp_time tp)), (field fs (tp_id tp));
      rewrite ?(lookup_insert_ne _ F_SIZE F_TIME), ?lookup_insert,
        ?(lookup_insert_ne _ F_ID F_TIME) by done; eauto.
  Qed.

  (** The state of a reader on a csv file. *)
  Definition csv_state (d : Z) (h : bool) (rd : treader) : Prop :=
    t_csv rd = Some (cp d h) /\ t_isnum rd = tp_isnum tp /\ t_ign0 rd = tp_ign0 tp /\
    t_ignsz rd = tp_ignsz tp.

  Lemma csv_read_S fuel c rd q :
    csv_read tof hstr (S fuel) c rd q =
      match getline (t_file rd) (t_pos rd) with
      | None => Ok (rd, set_invalid q, 1)
      | Some (l, pos) =>
          let '(q1, _, lft) := csv_line tof hstr c (t_isnum rd) l q (t_left rd) in
          let rd1 := t_setleft (t_seek rd pos) lft in
          if (fget q1 F_SIZE =? 0) && t_ign0 rd then
            if t_fwd rd then csv_read tof hstr fuel c rd1 q1
            else tread_above tof hstr fuel rd1 q1
          else
            Ok (if 0 <? lft then t_setlt rd1 (fget q1 F_TIME) else rd1, q1, 0)
      end.
  Proof. done. Qed.

  Lemma tread_S fuel rd q :
    tread tof hstr (S fuel) rd q =
      if t_no_more rd then Ok (rd, set_invalid q, 1)
      else if 0 <? t_left rd then
        Ok (t_setleft rd (t_left rd - 1), t_sizes rd (<[F_TIME := t_ltime rd]> q), 0)
      else
        let rd1 := t_setn rd (t_nread rd + 1) in
        let! (rd2, q2, st) :=
          match t_csv rd with
          | None => txt_read rd1 (prologue q)
          | Some c => csv_read tof hstr fuel c rd1 (prologue q)
          end in
        Ok (rd2, t_sizes rd q2, st).
  Proof. done. Qed.

  (** csv_read on a file of which the rows [rows] are left. *)
  Lemma csv_read_spec d h rows : forall rd q ls fuel,
    delim_ok d -> fields_differ -> csv_state d h rd -> t_fwd rd = true ->
    (tp_cnt tp < 1 -> t_left rd = 0) ->
    (t_pos rd <= t_size rd)%nat -> lines_of (drop (t_pos rd) (t_file rd)) ls ->
    Forall2 (csv_text d) rows ls -> Forall row_ok rows ->
    is_Some (q !! F_TIME) -> (length rows < fuel)%nat ->
    (csv_reqs rows q = [] /\
       exists rd' q', csv_read tof hstr fuel (cp d h) rd q = Ok (rd', q', 1) /\
         exists pos n lft lt, rd' = t_set rd pos n lft lt (t_quarks rd)) \/
    (exists rows' ls' n q1 pos lt,
       csv_reqs rows q = replicate (S n) (sized q1) ++ csv_reqs rows' (prologue (sized q1)) /\
       csv_read tof hstr fuel (cp d h) rd q
         = Ok (t_set rd pos (t_nread rd) (Z.of_nat n) lt (t_quarks rd), q1, 0) /\
       (n <> O -> q1 !! F_TIME = Some lt) /\ (tp_cnt tp < 1 -> n = O) /\
       (pos <= t_size rd)%nat /\ lines_of (drop pos (t_file rd)) ls' /\
       Forall2 (csv_text d) rows' ls' /\ Forall row_ok rows' /\ is_Some (q1 !! F_TIME)).
  Proof.
    induction rows as [|fs rows IH];
      intros rd q ls fuel Hd HD Hst Hfw Hl Hp Hls HF Hok Hq Hf.
    - left. split; [done|]. apply Forall2_nil_inv_l in HF as ->.
      destruct fuel as [|fuel]; [lia|]. rewrite csv_read_S, getline_none by done.
      exists rd, (set_invalid q). split; [done|].
      exists (t_pos rd), (t_nread rd), (t_left rd), (t_ltime rd). by destruct rd.
    - destruct ls as [|l ls]; [by apply Forall2_nil_inv_r in HF|].
      apply Forall2_cons in HF as [Hl1 HF]. apply Forall_cons in Hok as [Hok1 Hok].
      cbn [length] in Hf. destruct fuel as [|fuel]; [lia|].
      destruct (getline_some _ _ _ _ Hls) as (l' & Hl' & Hg & Hp' & Hr).
      destruct Hst as (S1 & S2 & S3 & S4).
      rewrite csv_read_S, Hg, S2, S3, Hfw.
      assert (Hl'' : l' = l ++ [10] \/ l' = l) by naive_solver.
      rewrite (csv_line_row tof hstr (cp d h) (tp_isnum tp) fs l l' q (t_left rd) Hd HD Hl1 Hl'').
      rewrite row_from_req by done.
      destruct (cnt_from_count d h fs (t_left rd) Hok1 Hl) as [Ec Hc]. rewrite Ec.
      cbn [csv_reqs]. destruct ((fget (csv_req fs q) F_SIZE =? 0) && tp_ign0 tp) eqn:Ez.
      + apply (IH (t_setleft (t_seek rd (t_pos rd + length l')) (Z.of_nat (csv_count fs) - 1))
                 (csv_req fs q) ls fuel); try done; [|by apply csv_req_time|lia].
        intros Hcn. cbn. unfold csv_count, field. by rewrite decide_False by lia.
      + right. destruct (csv_count fs) as [|n] eqn:En; [lia|].
        replace (Z.of_nat (S n) - 1) with (Z.of_nat n) by lia.
        exists rows, ls, n, (csv_req fs q), (t_pos rd + length l')%nat,
          (if 0 <? Z.of_nat n then fget (csv_req fs q) F_TIME else t_ltime rd).
        split_and!; [done| | | |done|done|done|done|by apply csv_req_time].
        * unfold t_setlt, t_setleft, t_seek, t_set. cbn.
          destruct (Z.ltb_spec 0 (Z.of_nat n)); done.
        * intros Hn. destruct (Z.ltb_spec 0 (Z.of_nat n)); [|lia].
          destruct (csv_req_time fs q Hq) as [t Ht]. unfold fget. by rewrite Ht.
        * intros Hcn. unfold csv_count, field in En. rewrite decide_False in En by lia. congruence.
  Qed.

  Lemma sized_idem q : sized (sized q) = sized q.
  Proof. unfold sized. destruct (tp_ignsz tp); [|done]. by rewrite insert_insert. Qed.

  Lemma sized_time q : sized q !! F_TIME = q !! F_TIME.
  Proof. unfold sized. destruct (tp_ignsz tp); [|done]. by rewrite lookup_insert_ne. Qed.

  Lemma prologue_time q : prologue q !! F_TIME = q !! F_TIME.
  Proof. unfold prologue. by rewrite !lookup_insert_ne. Qed.

  Lemma todo_cons cap n {A} (x : A) l :
    ~ (1 < cap /\ cap <= n) -> todo cap n (x :: l) = x :: todo cap (n + 1) l.
  Proof.
    intros H. unfold todo. destruct (decide (1 < cap)); [|done].
    replace (Z.to_nat (cap - n)) with (S (Z.to_nat (cap - (n + 1)))) by lia. done.
  Qed.

  (** Read calls are counted, so a limit is exact if rows are not repeated. *)
  Lemma tread_all_csv d h : forall fuel rd q rows ls,
    delim_ok d -> fields_differ -> csv_state d h rd -> t_fwd rd = true ->
    (1 < t_cap rd -> tp_cnt tp < 1 /\ t_left rd = 0) ->
    (t_mmap rd < t_size rd)%nat -> 0 <= t_left rd -> 0 <= t_nread rd ->
    (0 < t_left rd -> q !! F_TIME = Some (t_ltime rd) /\ sized q = q) ->
    (t_pos rd <= t_size rd)%nat -> lines_of (drop (t_pos rd) (t_file rd)) ls ->
    Forall2 (csv_text d) rows ls -> Forall row_ok rows -> is_Some (q !! F_TIME) ->
    let out := todo (t_cap rd) (t_nread rd)
                 (replicate (Z.to_nat (t_left rd)) q ++ csv_reqs rows (prologue q)) in
    (length out < fuel)%nat ->
    exists rd' q', tread_all tof hstr fuel rd q = Ok (out, rd', q') /\
      (exists pos n lft lt, rd' = t_set rd pos n lft lt (t_quarks rd)).
  Proof.
    induction fuel as [|fuel IH];
      intros rd q rows ls Hd HD Hst Hfw Hcap Hmm Hl0 Hn0 Hrep Hp Hls HF Hok Hq out Hf; [lia|].
    assert (Hsz : forall x, t_sizes rd x = sized x).
    { intros x. unfold t_sizes, sized. destruct Hst as (_ & _ & _ & ->). done. }
    cbn [tread_all]. unfold read_txt, t_fuel.
    replace (3 * t_size rd + 5)%nat with (S (3 * t_size rd + 4)) by lia.
    destruct (decide (1 < t_cap rd /\ t_cap rd <= t_nread rd)) as [Hc|Hc].
    { rewrite tread_S.
      assert (t_no_more rd = true) as ->.
      { unfold t_no_more. apply orb_true_iff. right. apply andb_true_iff.
        rewrite Z.ltb_lt, Z.leb_le. done. }
      cbn. exists rd, (set_invalid q). unfold out, todo.
      destruct (decide (1 < t_cap rd)); [|lia].
      replace (Z.to_nat (t_cap rd - t_nread rd)) with 0%nat by lia. rewrite take_0.
      split; [done|]. exists (t_pos rd), (t_nread rd), (t_left rd), (t_ltime rd). by destruct rd. }
    assert (Hnm : t_no_more rd = false).
    { unfold t_no_more. apply orb_false_iff. split; [by apply Nat.leb_gt|].
      apply andb_false_iff. rewrite Z.ltb_ge, Z.leb_gt. lia. }
    rewrite tread_S, Hnm. destruct (Z.ltb_spec 0 (t_left rd)) as [Hpos|Hzero].
    - assert (Hcap1 : ~ 1 < t_cap rd) by (intros H; apply Hcap in H; lia).
      destruct (Hrep Hpos) as [Hqt Hqs]. cbn [rbind]. change (0 =? 0) with true. cbn match.
      rewrite Hsz, insert_id, Hqs by done.
      assert (Eout : out = q :: todo (t_cap rd) (t_nread rd) (replicate (Z.to_nat (t_left rd - 1)) q ++ csv_reqs rows (prologue q))).
      { unfold out, todo. rewrite !decide_False by done.
        replace (Z.to_nat (t_left rd)) with (S (Z.to_nat (t_left rd - 1))) by lia. done. }
      rewrite Eout in Hf |- *. cbn [length] in Hf.
      destruct (IH (t_setleft rd (t_left rd - 1)) q rows ls)
        as (rd' & q' & E & pos' & n' & lft' & lt' & Hrd'); try done.
      { cbn. lia. }
      { cbn in *. lia. }
      rewrite E. cbn. eexists _, _. split; [done|]. exists pos', n', lft', lt'. by rewrite Hrd'.
    - assert (Hz : t_left rd = 0) by lia.
      pose proof (lines_of_length _ _ Hls) as Hlen. rewrite drop_length in Hlen.
      pose proof (Forall2_length _ _ _ HF) as Hrl. unfold t_size in Hp.
      destruct Hst as (S1 & S2 & S3 & S4). rewrite S1.
      destruct (csv_read_spec d h rows (t_setn rd (t_nread rd + 1)) (prologue q) ls
                  (3 * t_size rd + 4)) as [(E0 & E)|HR]; try done.
      { by rewrite prologue_time. }
      { unfold t_size. lia. }
      + destruct E as (rd' & q' & E & pos' & n' & lft' & lt' & Hrd').
        cbv zeta. rewrite E. cbn. unfold out. rewrite Hz, E0. cbn.
        exists rd', (t_sizes rd q'). split; [|exists pos', n', lft', lt'; by rewrite Hrd'].
        do 3 f_equal. unfold todo. change (replicate (Z.to_nat 0) q ++ []) with ([] : list treq).
        by destruct (decide _); rewrite ?take_nil.
      + destruct HR as (rows' & ls' & n & q1 & pos & lt & Ereq & E & Hlt & Hcn & Hp' & Hls' & HF' & Hok' & Hq1).
        cbv zeta. rewrite E. cbn [rbind]. change (0 =? 0) with true. cbn match.
        rewrite Hsz. unfold out in Hf |- *. rewrite Hz, Ereq in Hf |- *. change (Z.to_nat 0) with O in Hf |- *.
        cbn [replicate app] in Hf |- *. rewrite (todo_cons _ _ (sized q1)) in Hf |- * by done.
        cbn [length] in Hf.
        set (rd1 := t_set _ _ _ _ _ _).
        destruct (IH rd1 (sized q1) rows' ls') as (rd' & q' & E' & pos' & n' & lft' & lt' & Hrd'); try done.
        { cbn. intros H. destruct (Hcap H) as [H1 _]. rewrite (Hcn H1). lia. }
        { cbn. lia. }
        { cbn. lia. }
        { cbn. intros Hn. rewrite sized_time, sized_idem. split; [|done]. apply Hlt. lia. }
        { by rewrite sized_time. }
        { change (t_left rd1) with (Z.of_nat n). change (t_nread rd1) with (t_nread rd + 1).
          change (t_cap rd1) with (t_cap rd). rewrite Nat2Z.id. lia. }
        rewrite E'. change (t_left rd1) with (Z.of_nat n). change (t_nread rd1) with (t_nread rd + 1).
        change (t_cap rd1) with (t_cap rd). rewrite Nat2Z.id. cbn. eexists _, _. split; [done|].
        exists pos', n', lft', lt'. by rewrite Hrd'.
  Qed.
End rows.
