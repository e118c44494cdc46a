(** C29, C30, C31: binary trace readers, record layouts and samplers. *)
From stdpp Require Import gmap list numbers fin_maps.
From Verif Require Import Base ModelReader SpecReader ReaderFacts.
Open Scope Z_scope.

(** * C29: the reader is a cursor over the records of the file

    The request that a reader with trace type [t] delivers for the bytes [r]
    of one record, when the caller passes the request buffer [q]: hv, ttl and
    valid are reset, the fields of the format are assigned, and obj_size is
    replaced by 1 when object sizes are ignored.  What the fields are for each
    format is C30 below. *)
Definition decoded (t : ttype) (ignsz : bool) (q : treq) (r : list Z) : treq :=
  match dec_table (table_of t) r 0 (prologue q) with
  | Ok q1 => if ignsz then <[F_SIZE := 1]> q1 else q1
  | Err _ => q
  end.

(** Is the record kept, or is it a zero-size request that the reader drops? *)
Definition kept (t : ttype) (ign0 fwd : bool) (q : treq) (r : list Z) : bool :=
  match dec_table (table_of t) r 0 (prologue q) with
  | Ok q1 => negb (skipb t ign0 fwd q1)
  | Err _ => false
  end.

Inductive rop : Type :=
| OpRead (q : treq)             (* read_one_req *)
| OpAbove (q : treq)            (* read_one_req_above *)
| OpSkip (N : nat)              (* skip_n_req *)
| OpBack                        (* go_back_one_req *)
| OpBack2                       (* go_back_two_req *)
| OpReset                       (* reset_reader *)
| OpClone                       (* continue with clone_reader's result *)
| OpDir (fwd : bool)            (* reader->read_direction = ... *)
| OpSeek (num den : nat).       (* reader_set_read_pos(num / den) *)

Inductive rans : Type :=
| AnReq (a : option treq)
| AnBool (b : bool)
| AnNum (n : nat)
| AnUnit.

Definition rop_step (h : Z -> Z) (rd : reader) (o : rop) : res (reader * rans) :=
  match o with
  | OpRead q =>
      let! (rd1, q1, st) := read_one_req h rd q in
      Ok (rd1, AnReq (if st =? 0 then Some q1 else None))
  | OpAbove q =>
      let! (rd1, q1, st) := read_one_req_above h rd q in
      Ok (rd1, AnReq (if st =? 0 then Some q1 else None))
  | OpSkip N => let '(rd1, k) := skip_n_req rd N in Ok (rd1, AnNum k)
  | OpBack => let '(rd1, st) := go_back_one rd in Ok (rd1, AnBool (st =? 0))
  | OpBack2 => let '(rd1, st) := go_back_two rd in Ok (rd1, AnBool (st =? 0))
  | OpReset => Ok (reset_reader rd, AnUnit)
  | OpClone => Ok (clone_reader rd, AnUnit)
  | OpDir b => Ok (set_fwd rd b, AnUnit)
  | OpSeek num den => Ok (set_read_pos rd num den, AnUnit)
  end.

Fixpoint rop_run (h : Z -> Z) (rd : reader) (os : list rop) : res (reader * list rans) :=
  match os with
  | [] => Ok (rd, [])
  | o :: os' =>
      let! (rd1, a) := rop_step h rd o in
      let! (rd2, l) := rop_run h rd1 os' in
      Ok (rd2, a :: l)
  end.

(** The same operations on a cursor over [rs]. *)
Definition cur_step (t : ttype) (ign0 ignsz : bool) (cap : Z) (rs : list (list Z))
  (s : cursor) (o : rop) (a : rans) (s' : cursor) : Prop :=
  let read q s a s' :=
    exists r, cur_read rs (fun fwd => kept t ign0 fwd q) cap s r s' /\
              a = AnReq (decoded t ignsz q <$> r) in
  match o with
  | OpRead q => read q s a s'
  | OpAbove q =>
      exists b s1, cur_back2 s b s1 /\
        if (b : bool) then read q s1 a s' else a = AnReq None /\ s' = s1
  | OpSkip N => exists k, cur_skip rs s N k s' /\ a = AnNum k
  | OpBack => exists b, cur_back s b s' /\ a = AnBool b
  | OpBack2 => exists b, cur_back2 s b s' /\ a = AnBool b
  | OpReset => a = AnUnit /\ s' = mkCur 0 0 (c_fwd s)
  | OpClone => a = AnUnit /\ s' = mkCur 0 0 true
  | OpDir b => a = AnUnit /\ s' = mkCur (c_pos s) (c_cnt s) b
  | OpSeek num den =>
      a = AnUnit /\ s' = mkCur (length rs * num / den) (c_cnt s) (c_fwd s)
  end.

Fixpoint cur_run t ign0 ignsz cap rs (s : cursor) (os : list rop) (l : list rans)
  (s' : cursor) : Prop :=
  match os, l with
  | [], [] => s' = s
  | o :: os', a :: l' =>
      exists s1, cur_step t ign0 ignsz cap rs s o a s1 /\
                 cur_run t ign0 ignsz cap rs s1 os' l' s'
  | _, _ => False
  end.

(** Seeking by a fraction is only right for traces without a header
    (C29_seek_header_refuted). *)
Definition rop_ok (start : nat) (o : rop) : Prop :=
  match o with
  | OpSeek num den => start = O /\ (0 < den)%nat /\ (num <= den)%nat
  | _ => True
  end.

(** Which traces the theorem covers: whole records, a record size above zero,
    no oracleSysTwrNS trace whose reader aborts on a zero-size get, no IQQ trace
    (C29_clone_iqq_refuted), and vscsi traces start at offset 0. *)
Definition trace_ok (t : ttype) (start : nat) (ign0 : bool) (n : nat) (file : list Z) : Prop :=
  (0 < item_size t)%nat /\
  length file = (start + n * item_size t)%nat /\
  (t = T_OSYS_TWRNS -> ign0 = false) /\
  (t = T_VSCSI1 \/ t = T_VSCSI2 -> start = O).

Lemma wr_dec t isz r q :
  Forall (fun e => f_off e + f_width e <= isz)%nat (table_of t) ->
  (isz <= length r)%nat -> dec_table (table_of t) r 0 q = Ok (wr t r ∪ q).
Proof.
  intros Hf Hl. rewrite dec_table_empty. unfold wr.
  destruct (dec_table_ok (table_of t) r 0 ∅ isz) as [w Hw]; [done|cbn; lia|].
  rewrite Hw. reflexivity.
Qed.

Lemma decoded_dlv t isz i q r :
  Forall (fun e => f_off e + f_width e <= isz)%nat (table_of t) ->
  (isz <= length r)%nat -> decoded t i q r = dlv t i q r.
Proof. intros Hf Hl. unfold decoded. rewrite (wr_dec t isz) by done. reflexivity. Qed.

Lemma kept_keepr t isz b1 b2 q r :
  Forall (fun e => f_off e + f_width e <= isz)%nat (table_of t) ->
  (isz <= length r)%nat -> kept t b1 b2 q r = keepr t b1 b2 q r.
Proof. intros Hf Hl. unfold kept. rewrite (wr_dec t isz) by done. reflexivity. Qed.

Lemma first_kept_ext {R} (k1 k2 : R -> bool) l :
  Forall (fun r => k1 r = k2 r) l -> first_kept k1 l = first_kept k2 l.
Proof. induction 1 as [|r l E H IH]; cbn; [done|]. rewrite E, IH. done. Qed.

Lemma chop_full isz n l :
  (n * isz <= length l)%nat -> Forall (fun r => length r = isz) (chop isz n l).
Proof.
  revert l. induction n as [|n IH]; intros l H; cbn; constructor.
  - rewrite take_length. lia.
  - apply IH. rewrite drop_length. lia.
Qed.

Lemma recs_full rd n c : rinv rd n c -> Forall (fun r => (rd_isz rd <= length r)%nat) (recs rd n).
Proof.
  intros H. unfold recs. eapply Forall_impl; [apply chop_full|].
  - rewrite drop_length. destruct H. lia.
  - cbn. intros. lia.
Qed.

Lemma recs_length rd n : length (recs rd n) = n.
Proof. apply chop_length. Qed.

(** Reader [rd] stands where cursor [s] stands. *)
Record rel (t : ttype) (n : nat) (file : list Z) (start : nat) (cap : Z)
  (ign0 ignsz : bool) (isamp : option sampler) (rd : reader) (s : cursor) : Prop := {
  rl_inv : rinv rd n (c_pos s);
  rl_type : rd_type rd = t;
  rl_isz : rd_isz rd = item_size t;
  rl_file : rd_file rd = file;
  rl_start : rd_start rd = start;
  rl_cap : rd_cap rd = cap;
  rl_ign0 : rd_ign0 rd = ign0;
  rl_ignsz : rd_ignsz rd = ignsz;
  rl_cnt : rd_nread rd = c_cnt s;
  rl_fwd : rd_fwd rd = c_fwd s;
  rl_samp : rd_samp rd = None;
  rl_isamp : rd_isamp rd = isamp
}.

Section cursor_proof.
  Context (h : Z -> Z) (t : ttype) (n : nat) (file : list Z) (start : nat) (cap : Z)
          (ign0 ignsz : bool) (isamp : option sampler).
  Context (Hst : stored_type t = t) (Hok : trace_ok t start ign0 n file).
  Let rs := chop (item_size t) n (drop start file).
  Let R := rel t n file start cap ign0 ignsz isamp.

  Lemma rel_recs rd s : R rd s -> recs rd n = rs.
  Proof. intros H. unfold recs. rewrite (rl_isz _ _ _ _ _ _ _ _ _ _ H), (rl_file _ _ _ _ _ _ _ _ _ _ H), (rl_start _ _ _ _ _ _ _ _ _ _ H). done. Qed.

  Lemma rel_setup :
    R (set_samp (setup_reader t file start cap ign0 ignsz isamp) None) (mkCur 0 0 true).
  Proof.
    destruct Hok as (H1 & H2 & H3 & H4). split; cbn; rewrite ?Hst; try done.
    split; cbn; rewrite ?Hst; try done; try lia.
    - assert (F := table_fits t). rewrite Hst in F. exact F.
    - intros E. apply H3. destruct t; done.
  Qed.

  Lemma rel_move rd s c' cnt' :
    R rd s -> (c' <= n)%nat ->
    R (set_nread (set_off rd (rd_start rd + c' * rd_isz rd)%nat) cnt') (mkCur c' cnt' (c_fwd s)).
  Proof.
    intros H Hc. assert (Hi := rl_inv _ _ _ _ _ _ _ _ _ _ H).
    destruct H. split; cbn; try done.
    apply rinv_set_nread. apply rinv_set_off with (c_pos s); done.
  Qed.

  Lemma rel_move0 rd s c' :
    R rd s -> (c' <= n)%nat ->
    R (set_off rd (rd_start rd + c' * rd_isz rd)%nat) (mkCur c' (c_cnt s) (c_fwd s)).
  Proof.
    intros H Hc. assert (M := rel_move rd s c' (c_cnt s) H Hc).
    replace (set_nread (set_off rd (rd_start rd + c' * rd_isz rd)%nat) (c_cnt s))
      with (set_off rd (rd_start rd + c' * rd_isz rd)%nat) in M; [done|].
    rewrite <- (rl_cnt _ _ _ _ _ _ _ _ _ _ H). destruct rd; done.
  Qed.

  Lemma rel_read rd s q :
    R rd s -> exists rd' q' st s' r,
      read_raw rd q = Ok (rd', q', st) /\ R rd' s' /\
      cur_read rs (fun fwd => kept t ign0 fwd q) cap s r s' /\
      (st = 0 \/ st = 1) /\
      (if st =? 0 then Some q' else None) = decoded t ignsz q <$> r /\
      (st <> 0 -> fget q' F_VALID = 0).
  Proof.
    intros H. assert (Hi := rl_inv _ _ _ _ _ _ _ _ _ _ H).
    assert (Hfit := ri_fit _ _ _ Hi). assert (Hfull := recs_full _ _ _ Hi).
    assert (Hrs := rel_recs _ _ H).
    assert (Hlen : length rs = n) by (rewrite <- Hrs; apply recs_length).
    assert (HS := read_raw_spec rd n (c_pos s) q Hi).
    assert (Hle := ri_le _ _ _ Hi).
    rewrite (rl_type _ _ _ _ _ _ _ _ _ _ H) in Hfit.
    rewrite (rl_cap _ _ _ _ _ _ _ _ _ _ H), (rl_cnt _ _ _ _ _ _ _ _ _ _ H) in HS.
    assert (Hinv0 : fget (set_invalid q) F_VALID = 0).
    { unfold fget, set_invalid. rewrite lookup_insert. done. }
    destruct (decide ((n <= c_pos s)%nat \/ 1 < cap /\ cap <= c_cnt s)) as [Hd|Hd].
    - exists rd, (set_invalid q), 1, s, None. split_and!; try done; [|by right].
      split; [done|]. rewrite Hlen. unfold capped. split; [done|]. intros [? ?]. lia.
    - assert (Hk : first_kept (kept t ign0 (c_fwd s) q) (drop (c_pos s) rs)
        = first_kept (keepr (rd_type rd) (rd_ign0 rd) (rd_fwd rd) q) (drop (c_pos s) (recs rd n))).
      { rewrite Hrs, (rl_type _ _ _ _ _ _ _ _ _ _ H), (rl_ign0 _ _ _ _ _ _ _ _ _ _ H), (rl_fwd _ _ _ _ _ _ _ _ _ _ H).
        apply first_kept_ext. apply Forall_drop. rewrite <- Hrs.
        eapply Forall_impl; [exact Hfull|]. cbn. intros r Hr.
        eapply kept_keepr; [exact Hfit|exact Hr]. }
      rewrite <- Hk in HS. rewrite Hrs in HS.
      destruct (first_kept _ (drop (c_pos s) rs)) as [[k r]|] eqn:Ek.
      + destruct HS as (S1 & S2 & S3).
        exists (set_nread (set_off rd (rd_start rd + (c_pos s + k + 1) * rd_isz rd)%nat) (c_cnt s + 1)),
          (dlv (rd_type rd) (rd_ignsz rd) q r), 0,
          (mkCur (c_pos s + k + 1) (c_cnt s + 1) (c_fwd s)), (Some r).
        split_and!; try done.
        * apply rel_move; [done|lia].
        * split; [done|]. cbn [c_fwd c_pos c_cnt]. rewrite Hlen. unfold capped.
          split; [intros ?; lia|]. intros _. split; [done|]. rewrite Ek. done.
        * by left.
        * cbn. rewrite (rl_type _ _ _ _ _ _ _ _ _ _ H), (rl_ignsz _ _ _ _ _ _ _ _ _ _ H).
          f_equal. symmetry. eapply decoded_dlv; [exact Hfit|].
          rewrite <- Hrs in S2. rewrite Forall_lookup in Hfull. exact (Hfull _ _ S2).
      + destruct HS as (q' & S1 & S2 & S3).
        exists (set_nread (set_off rd (rd_start rd + n * rd_isz rd)%nat) (c_cnt s + 1)), q', 1,
          (mkCur n (c_cnt s + 1) (c_fwd s)), None.
        split_and!; try done.
        * apply rel_move; [done|lia].
        * split; [done|]. cbn [c_fwd c_pos c_cnt]. rewrite Hlen. unfold capped.
          split; [intros ?; lia|]. intros _. split; [done|]. rewrite Ek. done.
        * by right.
  Qed.

  Lemma rel_back rd s :
    R rd s -> exists rd' st s' b,
      go_back_one rd = (rd', st) /\ R rd' s' /\ cur_back s b s' /\ (st =? 0) = b.
  Proof.
    intros H. assert (Hi := rl_inv _ _ _ _ _ _ _ _ _ _ H).
    unfold go_back_one, cur_back. destruct (c_pos s) as [|p] eqn:Ep.
    - exists rd, 1, s, false. split_and!; try done.
      destruct (Nat.leb_spec (rd_start rd + rd_isz rd) (rd_off rd)); [|done].
      rewrite (ri_off _ _ _ Hi) in *. assert (Hz := ri_isz _ _ _ Hi). lia.
    - exists (set_off rd (rd_start rd + p * rd_isz rd)%nat), 0, (mkCur p (c_cnt s) (c_fwd s)), true.
      split_and!; try done.
      + destruct (Nat.leb_spec (rd_start rd + rd_isz rd) (rd_off rd)) as [|Hlt].
        * do 2 f_equal. rewrite (ri_off _ _ _ Hi). lia.
        * rewrite (ri_off _ _ _ Hi) in Hlt. lia.
      + apply rel_move0; [done|]. assert (Hle := ri_le _ _ _ Hi). lia.
  Qed.

  Lemma rel_back2 rd s :
    R rd s -> exists rd' st s' b,
      go_back_two rd = (rd', st) /\ R rd' s' /\ cur_back2 s b s' /\ (st =? 0) = b.
  Proof.
    intros H. destruct (rel_back _ _ H) as (rd1 & st1 & s1 & b1 & E1 & H1 & (C1 & C2 & C3) & B1).
    unfold go_back_two. rewrite E1, B1.
    destruct (c_pos s) as [|p] eqn:Ep.
    - destruct C3 as [-> C3]. exists rd1, 1, s1, false. split_and!; try done.
      unfold cur_back2. rewrite Ep. split_and!; try done.
    - destruct C3 as [-> C3].
      destruct (rel_back _ _ H1) as (rd2 & st2 & s2 & b2 & E2 & H2 & (D1 & D2 & D3) & B2).
      exists rd2, st2, s2, b2. split_and!; try done.
      unfold cur_back2. rewrite Ep. rewrite C3 in D3.
      split_and!; [congruence|congruence| |]; destruct p; destruct D3 as [D3 D4]; try done.
      rewrite D4. lia.
  Qed.

  Lemma rel_step rd s o :
    isamp = None -> R rd s -> rop_ok start o ->
    exists rd' a s', rop_step h rd o = Ok (rd', a) /\ R rd' s' /\
                     cur_step t ign0 ignsz cap rs s o a s'.
  Proof.
    intros Hns H Ho. assert (Hi := rl_inv _ _ _ _ _ _ _ _ _ _ H).
    assert (Hrs := rel_recs _ _ H).
    assert (Hlen : length rs = n) by (rewrite <- Hrs; apply recs_length).
    destruct o as [q|q|N| | | | |b|num den]; cbn [rop_step cur_step].
    - destruct (rel_read rd s q H) as (rd' & q' & st & s' & r & E & HR & C & _ & Ea & _).
      unfold read_one_req. rewrite (rl_samp _ _ _ _ _ _ _ _ _ _ H), E. cbn [rbind].
      eexists _, _, _. split_and!; [done|exact HR|]. exists r. split; [exact C|]. rewrite Ea. done.
    - destruct (rel_back2 rd s H) as (rd1 & st1 & s1 & b & E1 & H1 & C1 & B1).
      unfold read_one_req_above. rewrite E1, B1. destruct b.
      + destruct (rel_read rd1 s1 q H1) as (rd' & q' & st & s' & r & E & HR & C & _ & Ea & _).
        unfold read_one_req. rewrite (rl_samp _ _ _ _ _ _ _ _ _ _ H1), E. cbn [rbind].
        eexists _, _, _. split_and!; [done|exact HR|]. exists true, s1. split; [done|].
        exists r. split; [exact C|]. rewrite Ea. done.
      + cbn [rbind]. eexists _, _, _. split_and!; [done|exact H1|]. exists false, s1.
        split; [done|]. done.
    - unfold skip_n_req.
      assert (Hz := ri_isz _ _ _ Hi). assert (Hle := ri_le _ _ _ Hi).
      assert (Hl := ri_len _ _ _ Hi). assert (Hoff := ri_off _ _ _ Hi).
      destruct (Nat.leb_spec (rd_off rd + N * rd_isz rd) (file_size rd)) as [L|L].
      + assert ((c_pos s + N <= n)%nat) by (unfold file_size in L; rewrite Hl, Hoff in L; nia).
        eexists _, _, (mkCur (c_pos s + N) (c_cnt s) (c_fwd s)). split_and!; [done| |].
        * replace (rd_off rd + N * rd_isz rd)%nat
            with (rd_start rd + (c_pos s + N) * rd_isz rd)%nat by (rewrite Hoff; lia).
          apply rel_move0; [done|lia].
        * exists N. split; [|done]. unfold cur_skip. cbn. rewrite Hlen. split_and!; lia || done.
      + assert ((n < c_pos s + N)%nat) by (unfold file_size in L; rewrite Hl, Hoff in L; nia).
        assert (Hk : ((file_size rd - rd_off rd) / rd_isz rd = n - c_pos s)%nat).
        { unfold file_size. rewrite Hl, Hoff.
          replace (rd_start rd + n * rd_isz rd - (rd_start rd + c_pos s * rd_isz rd))%nat
            with ((n - c_pos s) * rd_isz rd)%nat by nia.
          apply Nat.div_mul. lia. }
        eexists _, _, (mkCur n (c_cnt s) (c_fwd s)). split_and!; [done| |].
        * unfold file_size. rewrite Hl. apply rel_move0; [done|lia].
        * exists (n - c_pos s)%nat. rewrite Hk. split; [|done]. unfold cur_skip. cbn. rewrite Hlen.
          split_and!; lia || done.
    - destruct (rel_back rd s H) as (rd1 & st1 & s1 & b & E1 & H1 & C1 & B1).
      rewrite E1. eexists _, _, _. split_and!; [done|exact H1|]. exists b. rewrite B1. done.
    - destruct (rel_back2 rd s H) as (rd1 & st1 & s1 & b & E1 & H1 & C1 & B1).
      rewrite E1. eexists _, _, _. split_and!; [done|exact H1|]. exists b. rewrite B1. done.
    - eexists _, _, (mkCur 0 0 (c_fwd s)). split_and!; try done.
      unfold reset_reader. assert (M := rel_move rd s 0 0 H ltac:(lia)).
      replace (rd_start rd + 0 * rd_isz rd)%nat with (rd_start rd) in M by lia. exact M.
    - eexists _, _, (mkCur 0 0 true). split_and!; try done.
      assert (M := rel_setup). unfold clone_reader.
      destruct H. rewrite rl_type0, rl_file0, rl_start0, rl_cap0, rl_ign1, rl_ignsz0, rl_isamp0.
      rewrite Hns in M |- *. exact M.
    - eexists _, _, (mkCur (c_pos s) (c_cnt s) b). split_and!; try done.
      destruct H. split; cbn; try done. apply rinv_set_fwd. done.
    - destruct Ho as (Hs0 & Hden & Hnum).
      eexists _, _, (mkCur (n * num / den) (c_cnt s) (c_fwd s)).
      rewrite Hlen. split_and!; try done.
      unfold set_read_pos.
      assert (Hz := ri_isz _ _ _ Hi). assert (Hl := ri_len _ _ _ Hi).
      assert (Hst0 : rd_start rd = O) by (rewrite (rl_start _ _ _ _ _ _ _ _ _ _ H); done).
      assert (Hfs : file_size rd = (n * rd_isz rd)%nat) by (unfold file_size; lia).
      assert (Ho : (file_size rd * num / den - (file_size rd * num / den) mod rd_isz rd
                    = rd_start rd + (n * num / den) * rd_isz rd)%nat).
      { rewrite Hfs, Hst0. set (o := (n * rd_isz rd * num / den)%nat).
        assert (Hdm := Nat.div_mod o (rd_isz rd) ltac:(lia)).
        assert (Hq : (o / rd_isz rd = n * num / den)%nat).
        { unfold o. rewrite Nat.div_div by lia. rewrite (Nat.mul_comm den).
          rewrite <- Nat.div_div by lia.
          replace (n * rd_isz rd * num)%nat with (n * num * rd_isz rd)%nat by lia.
          rewrite Nat.div_mul by lia. done. }
        rewrite <- Hq. lia. }
      rewrite Ho. apply rel_move0; [done|].
      apply Nat.div_le_upper_bound; [lia|]. nia.
  Qed.

  Lemma rel_run rd s os :
    isamp = None -> R rd s -> Forall (rop_ok start) os ->
    exists rd' l s', rop_run h rd os = Ok (rd', l) /\ R rd' s' /\
                     cur_run t ign0 ignsz cap rs s os l s'.
  Proof.
    intros Hns H Ho. revert rd s H. induction Ho as [|o os Ho Hos IH]; intros rd s H.
    - exists rd, [], s. cbn. done.
    - destruct (rel_step rd s o Hns H Ho) as (rd1 & a & s1 & E1 & H1 & C1).
      destruct (IH _ _ H1) as (rd2 & l & s2 & E2 & H2 & C2).
      cbn [rop_run]. rewrite E1. cbn [rbind]. rewrite E2. cbn [rbind].
      exists rd2, (a :: l), s2. split_and!; [done|done|]. cbn. exists s1. done.
  Qed.
End cursor_proof.

(** Every sequence of reads (forward or backward), skips, go-backs, resets,
    clones, direction changes and seeks on a trace of whole records behaves as
    the cursor does, never fails, and reads nothing outside the file. *)
Theorem C29_cursor h t n file start cap ign0 ignsz os :
  t <> T_IQQ -> trace_ok t start ign0 n file -> Forall (rop_ok start) os ->
  exists rd' l s',
    rop_run h (setup_reader t file start cap ign0 ignsz None) os = Ok (rd', l) /\
    cur_run t ign0 ignsz cap (chop (item_size t) n (drop start file))
            (mkCur 0 0 true) os l s'.
Proof.
  intros Ht Hok Hos.
  assert (Hst : stored_type t = t) by (destruct t; done).
  destruct (rel_run h t n file start cap ign0 ignsz None Hst Hok _ _ os eq_refl
             (rel_setup t n file start cap ign0 ignsz None Hst Hok) Hos)
    as (rd' & l & s' & E & _ & C).
  exists rd', l, s'. done.
Qed.

(** ** Reading a whole trace *)

Lemma first_kept_filter {R} (k : R -> bool) l :
  match first_kept k l with
  | Some (i, r) => List.filter k l = r :: List.filter k (drop (i + 1) l)
  | None => List.filter k l = []
  end.
Proof.
  induction l as [|r l IH]; cbn; [done|]. destruct (k r) eqn:E.
  - cbn. rewrite drop_0. done.
  - destruct (first_kept k l) as [[i r']|]; cbn; exact IH.
Qed.

(** What the client loop sees: the kept records in file order, decoded; only
    the first [cap] of them when a limit above one is set. *)
Definition visible (t : ttype) (ign0 ignsz : bool) (cap : Z) (q : treq)
  (rs : list (list Z)) : list treq :=
  let l := map (decoded t ignsz q) (List.filter (kept t ign0 true q) rs) in
  if 1 <? cap then take (Z.to_nat cap) l else l.

Section read_all.
  Context (h : Z -> Z) (t : ttype) (n : nat) (file : list Z) (start : nat) (cap : Z)
          (ign0 ignsz : bool) (isamp : option sampler).
  Context (Hst : stored_type t = t) (Hok : trace_ok t start ign0 n file).
  Context (q0 : treq).
  Let rs := chop (item_size t) n (drop start file).
  Let R := rel t n file start cap ign0 ignsz isamp.

  (** The requests still to come at cursor [s]. *)
  Definition todo (s : cursor) : list treq :=
    let l := map (decoded t ignsz q0) (List.filter (kept t ign0 true q0) (drop (c_pos s) rs)) in
    if 1 <? cap then take (Z.to_nat (cap - c_cnt s)) l else l.

  Lemma tfit : Forall (fun e => f_off e + f_width e <= item_size t)%nat (table_of t).
  Proof using Hst. assert (F := table_fits t). rewrite Hst in F. exact F. Qed.

  Lemma rs_full : Forall (fun r => length r = item_size t) rs.
  Proof using Hok. apply chop_full. rewrite drop_length. destruct Hok as (_ & Hl & _). lia. Qed.

  Lemma decoded_agree q r :
    agree t ignsz q q0 -> length r = item_size t ->
    decoded t ignsz q r = decoded t ignsz q0 r.
  Proof using Hst.
    intros Ha Hl. assert (F := tfit).
    rewrite !(decoded_dlv t (item_size t)) by (done || lia).
    apply dlv_eq with (item_size t); [done|lia|done].
  Qed.

  Lemma kept_agree q r fwd :
    agree t ignsz q q0 -> length r = item_size t ->
    kept t ign0 fwd q r = kept t ign0 fwd q0 r.
  Proof using Hst.
    intros Ha Hl. assert (F := tfit).
    rewrite !(kept_keepr t (item_size t)) by (done || lia).
    eapply keepr_eq; [exact F|lia|exact Ha].
  Qed.

  Lemma read_raw_todo rd s q :
    R rd s -> c_fwd s = true -> agree t ignsz q q0 ->
    match todo s with
    | [] => exists rd' s' q', read_raw rd q = Ok (rd', q', 1) /\ R rd' s' /\
              c_fwd s' = true /\ todo s' = [] /\ agree t ignsz q' q0
    | x :: l => exists rd' s', read_raw rd q = Ok (rd', x, 0) /\ R rd' s' /\
              c_fwd s' = true /\ todo s' = l /\ agree t ignsz x q0
    end.
  Proof.
    intros H Hfw Ha. assert (Hi := rl_inv _ _ _ _ _ _ _ _ _ _ H).
    assert (F := tfit). assert (Hfull := rs_full).
    assert (Hrs : recs rd n = rs) by exact (rel_recs _ _ _ _ _ _ _ _ _ _ H).
    assert (HS := read_raw_spec rd n (c_pos s) q Hi).
    assert (Hle := ri_le _ _ _ Hi).
    rewrite (rl_cap _ _ _ _ _ _ _ _ _ _ H), (rl_cnt _ _ _ _ _ _ _ _ _ _ H) in HS.
    assert (Hlen : length rs = n) by (rewrite <- Hrs; apply recs_length).
    destruct (decide ((n <= c_pos s)%nat \/ 1 < cap /\ cap <= c_cnt s)) as [Hd|Hd].
    - assert (E : todo s = []).
      { unfold todo. destruct Hd as [Hd|[Hd1 Hd2]].
        - rewrite drop_ge by lia. cbn. destruct (1 <? cap); [|done]. apply take_nil.
        - rewrite (proj2 (Z.ltb_lt 1 cap)) by lia.
          replace (Z.to_nat (cap - c_cnt s)) with O by lia. done. }
      rewrite E. exists rd, s, (set_invalid q). split_and!; try done.
      eapply agree_trans; [apply agree_insert; unfold wfields; set_solver|done].
    - assert (Hk : first_kept (kept t ign0 true q0) (drop (c_pos s) rs)
        = first_kept (keepr (rd_type rd) (rd_ign0 rd) (rd_fwd rd) q) (drop (c_pos s) (recs rd n))).
      { rewrite Hrs, (rl_type _ _ _ _ _ _ _ _ _ _ H), (rl_ign0 _ _ _ _ _ _ _ _ _ _ H), (rl_fwd _ _ _ _ _ _ _ _ _ _ H), Hfw.
        apply first_kept_ext. apply Forall_drop.
        eapply Forall_impl; [exact Hfull|]. cbn. intros r Hr.
        rewrite <- (kept_agree q r true Ha Hr).
        eapply kept_keepr; [exact F|lia]. }
      rewrite <- Hk in HS. rewrite Hrs in HS.
      assert (Hff := first_kept_filter (kept t ign0 true q0) (drop (c_pos s) rs)).
      destruct (first_kept _ (drop (c_pos s) rs)) as [[k r]|] eqn:Ek.
      + destruct HS as (S1 & S2 & S3).
        assert (Hlr : length r = item_size t) by (rewrite Forall_lookup in Hfull; exact (Hfull _ _ S2)).
        set (s' := mkCur (c_pos s + k + 1) (c_cnt s + 1) (c_fwd s)).
        assert (E : todo s = decoded t ignsz q0 r :: todo s').
        { unfold todo. rewrite Hff. cbn [map]. rewrite drop_drop.
          cbn [c_pos c_cnt s']. rewrite (Nat.add_assoc (c_pos s) k 1).
          destruct (Z.ltb_spec 1 cap); [|done].
          replace (Z.to_nat (cap - c_cnt s)) with (S (Z.to_nat (cap - (c_cnt s + 1)))) by lia.
          done. }
        rewrite E.
        assert (Ex : dlv (rd_type rd) (rd_ignsz rd) q r = decoded t ignsz q0 r).
        { rewrite (rl_type _ _ _ _ _ _ _ _ _ _ H), (rl_ignsz _ _ _ _ _ _ _ _ _ _ H).
          rewrite <- (decoded_agree q r Ha Hlr). symmetry.
          eapply decoded_dlv; [exact F|lia]. }
        rewrite Ex in S3. eexists _, s'. split_and!; [exact S3| | |done|].
        * apply (rel_move _ _ _ _ _ _ _ _ rd s (c_pos s + k + 1) (c_cnt s + 1) H). lia.
        * done.
        * rewrite <- (decoded_agree q r Ha Hlr).
          eapply agree_trans; [|exact Ha].
          rewrite (decoded_dlv t (item_size t)) by (done || lia).
          eapply dlv_agree; [exact F|lia].
      + destruct HS as (q' & S1 & S2 & S3).
        assert (E : todo s = []).
        { unfold todo. rewrite Hff. cbn. destruct (1 <? cap); [|done]. apply take_nil. }
        rewrite E. set (s' := mkCur n (c_cnt s + 1) (c_fwd s)).
        eexists _, s', q'. split_and!; [exact S1| |done| |].
        * apply (rel_move _ _ _ _ _ _ _ _ rd s n (c_cnt s + 1) H). lia.
        * unfold todo. cbn [c_pos s']. rewrite drop_ge by lia. cbn.
          destruct (1 <? cap); [|done]. apply take_nil.
        * rewrite (rl_type _ _ _ _ _ _ _ _ _ _ H), (rl_ignsz _ _ _ _ _ _ _ _ _ _ H) in S3.
          eapply agree_trans; [exact S3|exact Ha].
  Qed.

  Lemma read_all_todo fuel : forall rd s q,
    R rd s -> c_fwd s = true -> agree t ignsz q q0 -> (length (todo s) < fuel)%nat ->
    exists rd' q', read_all h fuel rd q = Ok (todo s, rd', q').
  Proof.
    induction fuel as [|fuel IH]; intros rd s q H Hfw Ha Hf; [lia|].
    assert (HR := read_raw_todo rd s q H Hfw Ha).
    cbn [read_all]. unfold read_one_req. rewrite (rl_samp _ _ _ _ _ _ _ _ _ _ H).
    destruct (todo s) as [|x l] eqn:E.
    - destruct HR as (rd' & s' & q' & E1 & _). rewrite E1. cbn. eexists _, _. done.
    - destruct HR as (rd' & s' & E1 & H1 & Hf1 & Et & Ha1). rewrite E1. cbn [rbind Z.eqb].
      destruct (IH rd' s' x H1 Hf1 Ha1) as (rd2 & q2 & E2); [rewrite Et; cbn in Hf; lia|].
      rewrite E2, Et. cbn. eexists _, _. done.
  Qed.

  (** *** With a sampler *)

  Fixpoint sfind (sp : sampler) (L : list treq) : option (treq * sampler * list treq) :=
    match L with
    | [] => None
    | x :: l =>
        let '(ok, sp1, x1) := do_sample h sp x in
        if (ok : bool) then Some (x1, sp1, l) else sfind sp1 l
    end.

  Fixpoint ssel (sp : sampler) (L : list treq) : list treq :=
    match L with
    | [] => []
    | x :: l =>
        let '(ok, sp1, x1) := do_sample h sp x in
        if (ok : bool) then x1 :: ssel sp1 l else ssel sp1 l
    end.

  Lemma ssel_sfind sp L :
    ssel sp L = match sfind sp L with
                | None => []
                | Some (x, sp', l) => x :: ssel sp' l
                end.
  Proof.
    revert sp. induction L as [|x l IH]; intros sp; cbn; [done|].
    destruct (do_sample h sp x) as [[ok sp1] x1]. destruct ok; [done|]. apply IH.
  Qed.

  Lemma sfind_length sp L x sp' l : sfind sp L = Some (x, sp', l) -> (length l < length L)%nat.
  Proof.
    revert sp. induction L as [|y L IH]; intros sp; cbn; [done|].
    destruct (do_sample h sp y) as [[ok sp1] x1]. destruct ok.
    - intros [= <- <- <-]. lia.
    - intros E. apply IH in E. lia.
  Qed.

  Lemma do_sample_agree sp q ok sp1 q1 :
    do_sample h sp q = (ok, sp1, q1) -> agree t ignsz q1 q.
  Proof.
    unfold do_sample. destruct sp as [k|k m].
    - intros [= _ _ <-]. apply agree_insert. unfold wfields. set_solver.
    - destruct (m + 1 =? k); intros [= _ _ <-]; apply agree_refl.
  Qed.

  Lemma sample_loop_todo fuel : forall sp rd s q st,
    R rd s -> c_fwd s = true -> agree t ignsz q q0 -> (length (todo s) + 1 < fuel)%nat ->
    let '(ok, sp1, q1) := do_sample h sp q in
    if (ok : bool) then sample_loop h fuel sp rd q st = Ok (sp1, rd, q1, st)
    else match sfind sp1 (todo s) with
         | None => exists sp2 rd2 q2, sample_loop h fuel sp rd q st = Ok (sp2, rd2, q2, 1)
         | Some (x, sp2, l) =>
             exists rd2 s2, sample_loop h fuel sp rd q st = Ok (sp2, rd2, x, 0) /\
               R rd2 s2 /\ c_fwd s2 = true /\ todo s2 = l /\ agree t ignsz x q0
         end.
  Proof.
    induction fuel as [|fuel IH]; intros sp rd s q st H Hfw Ha Hf; [lia|].
    cbn [sample_loop]. destruct (do_sample h sp q) as [[ok sp1] q1] eqn:Es.
    destruct ok; [done|].
    assert (Ha1 : agree t ignsz q1 q0).
    { eapply agree_trans; [eapply do_sample_agree; exact Es|exact Ha]. }
    rewrite (rl_fwd _ _ _ _ _ _ _ _ _ _ H), Hfw.
    assert (HR := read_raw_todo rd s q1 H Hfw Ha1).
    destruct (todo s) as [|x l] eqn:E.
    - cbn [sfind]. destruct HR as (rd' & s' & q' & E1 & _). rewrite E1. cbn.
      eexists _, _, _. done.
    - destruct HR as (rd' & s' & E1 & H1 & Hf1 & Et & Hax). rewrite E1. cbn [rbind Z.eqb].
      assert (IH' := IH sp1 rd' s' x 0 H1 Hf1 Hax). rewrite Et in IH'.
      cbn [length] in Hf. specialize (IH' ltac:(lia)).
      cbn [sfind]. destruct (do_sample h sp1 x) as [[ok2 sp2] x2] eqn:Es2.
      destruct ok2.
      + exists rd', s'. split_and!; try done.
        eapply agree_trans; [eapply do_sample_agree; exact Es2|exact Hax].
      + exact IH'.
  Qed.

  Definition ign (q : treq) : treq := if ignsz then <[F_SIZE := 1]> q else q.

  Lemma do_sample_ign sp q :
    do_sample h sp (ign q) = let '(ok, sp1, q1) := do_sample h sp q in (ok, sp1, ign q1).
  Proof.
    unfold do_sample, ign. destruct sp as [k|k m].
    - destruct ignsz; [|done]. unfold fget.
      rewrite !(lookup_insert_ne q F_SIZE) by done.
      rewrite (insert_commute q F_SIZE F_HV) by done. done.
    - destruct (m + 1 =? k); done.
  Qed.

  Lemma ign_ign q : ign (ign q) = ign q.
  Proof. unfold ign. destruct ignsz; [|done]. rewrite insert_insert. done. Qed.

  (** Every deliverable request is unchanged by [ign]. *)
  Lemma todo_ign s : Forall (fun x => ign x = x) (todo s).
  Proof.
    assert (G : Forall (fun x => ign x = x)
      (map (decoded t ignsz q0) (List.filter (kept t ign0 true q0) (drop (c_pos s) rs)))).
    { apply Forall_map. apply Forall_forall. intros r Hr.
      apply elem_of_list_In, filter_In in Hr as [Hr _]. apply elem_of_list_In in Hr.
      assert (F := tfit). assert (Hfull := rs_full).
      rewrite Forall_forall in Hfull.
      assert (Hl : length r = item_size t).
      { apply Hfull. apply elem_of_list_lookup in Hr as [i Hi]. rewrite lookup_drop in Hi.
        apply elem_of_list_lookup. eauto. }
      rewrite (decoded_dlv t (item_size t)) by (done || lia).
      unfold dlv. apply ign_ign. }
    unfold todo. destruct (1 <? cap); [|done]. apply Forall_take. done.
  Qed.

  Lemma sfind_ign sp L x sp' l :
    Forall (fun x => ign x = x) L -> sfind sp L = Some (x, sp', l) -> ign x = x.
  Proof.
    revert sp. induction L as [|y L IH]; intros sp HL; cbn; [done|].
    inversion HL as [|? ? Hy HL']; subst.
    destruct (do_sample h sp y) as [[ok sp1] y1] eqn:Es. destruct ok.
    - intros [= <- <- <-]. assert (D := do_sample_ign sp y). rewrite Es, Hy, Es in D.
      congruence.
    - apply IH. done.
  Qed.

  (** One sampled read. *)
  Lemma read_sampled rd s q sp :
    R (set_samp rd None) s -> rd_samp rd = Some sp ->
    c_fwd s = true -> agree t ignsz q q0 ->
    match sfind sp (todo s) with
    | None => exists rd2 q2, read_one_req h rd q = Ok (rd2, q2, 1)
    | Some (x, sp2, l) =>
        exists rd2 s2, read_one_req h rd q = Ok (rd2, x, 0) /\
          R (set_samp rd2 None) s2 /\ rd_samp rd2 = Some sp2 /\
          c_fwd s2 = true /\ todo s2 = l /\ agree t ignsz x q0
    end.
  Proof.
    intros H Hsp Hfw Ha.
    assert (HR := read_raw_todo _ s q H Hfw Ha).
    unfold read_one_req. rewrite Hsp.
    change (no_more rd) with (no_more (set_samp rd None)).
    change (set_nread (set_samp rd None) (rd_nread rd + 1))
      with (set_nread (set_samp rd None) (rd_nread (set_samp rd None) + 1)).
    change (file_size rd) with (file_size (set_samp rd None)).
    unfold read_raw in HR.
    destruct (no_more (set_samp rd None)) eqn:En.
    { destruct (todo s) as [|x l] eqn:E; cbn [sfind].
      - eexists _, _. done.
      - destruct HR as (? & ? & HR & _). discriminate. }
    assert (Hig : forall q, ign_size (set_samp rd None) q = ign q).
    { intros q'. unfold ign_size, ign. rewrite (rl_ignsz _ _ _ _ _ _ _ _ _ _ H). done. }
    assert (Hfuel : forall s', (length (todo s') + 1 < S (S (file_size (set_samp rd None))))%nat).
    { intros s'. assert (length (todo s') <= n)%nat.
      { unfold todo. assert (Hl0 : forall l : list (list Z),
          (length (map (decoded t ignsz q0) (List.filter (kept t ign0 true q0) l)) <= length l)%nat).
        { intros l. rewrite map_length. induction l as [|a l IHl]; cbn; [lia|].
          destruct (kept t ign0 true q0 a); cbn; lia. }
        assert (Hl1 := Hl0 (drop (c_pos s') rs)).
        rewrite drop_length in Hl1. unfold rs in Hl1 at 2. rewrite chop_length in Hl1.
        destruct (1 <? cap); [rewrite take_length|]; lia. }
      assert (Hi := rl_inv _ _ _ _ _ _ _ _ _ _ H). unfold file_size.
      rewrite (ri_len _ _ _ Hi). assert (Hz := ri_isz _ _ _ Hi). nia. }
    destruct (item_read _ _ _) as [[[rd1 q1] st1]|er] eqn:Ei; cbn [rbind] in HR |- *.
    2:{ destruct (todo s); [destruct HR as (? & ? & ? & HR & _)|destruct HR as (? & ? & HR & _)];
          discriminate. }
    rewrite Hig in HR.
    destruct (todo s) as [|x l] eqn:E.
    - destruct HR as (rd' & s' & q' & [= <- <- ->] & H1 & Hf1 & Et & Ha1).
      assert (Ha1' : agree t ignsz q1 q0).
      { intros z Hz. rewrite <- (Ha1 z Hz). unfold ign. unfold wfields in Hz.
        destruct ignsz; [|done].
        rewrite lookup_insert_ne; [done|]. intros <-. set_solver. }
      assert (HL := sample_loop_todo _ sp rd1 s' q1 1 H1 Hf1 Ha1' (Hfuel s')).
      destruct (do_sample h sp q1) as [[ok sp1] q1'] eqn:Es. rewrite Et in HL. cbn [sfind] in HL |- *.
      destruct ok.
      + rewrite HL. cbn. eexists _, _. done.
      + destruct HL as (sp2 & rd2 & q2 & HL). rewrite HL. cbn. eexists _, _. done.
    - destruct HR as (rd' & s' & HR & H1 & Hf1 & Et & Ha1).
      injection HR as -> Hx ->.
      assert (Ha1' : agree t ignsz q1 q0).
      { intros z Hz. rewrite <- (Ha1 z Hz), <- Hx. unfold ign. unfold wfields in Hz.
        destruct ignsz; [|done].
        rewrite lookup_insert_ne; [done|]. intros <-. set_solver. }
      assert (HL := sample_loop_todo _ sp rd' s' q1 0 H1 Hf1 Ha1' (Hfuel s')).
      assert (HD := do_sample_ign sp q1). rewrite Hx in HD.
      cbn [sfind]. destruct (do_sample h sp q1) as [[ok sp1] q1'] eqn:Es.
      rewrite HD. rewrite Et in HL. destruct ok.
      + rewrite HL. cbn [rbind]. change (ign_size rd q1') with (ign_size (set_samp rd None) q1').
        rewrite Hig. eexists _, s'. split_and!; [done| |done|done|done|].
        * destruct H1. split; try done. destruct rl_inv0; split; done.
        * eapply agree_trans; [|exact Ha1]. symmetry in HD. 
          eapply do_sample_agree. symmetry. exact HD.
      + assert (HF : Forall (fun x => ign x = x) l).
        { assert (G := todo_ign s). rewrite E in G. inversion G; done. }
        destruct (sfind sp1 l) as [[[y sp2] l2]|] eqn:Ef.
        * destruct HL as (rd2 & s2 & HL & H2 & Hf2 & Et2 & Ha2). rewrite HL. cbn [rbind].
          change (ign_size rd y) with (ign_size (set_samp rd None) y). rewrite Hig.
          rewrite (sfind_ign _ _ _ _ _ HF Ef).
          eexists _, s2. split_and!; [done| |done|done|done|done].
          destruct H2. split; try done. destruct rl_inv0; split; done.
        * destruct HL as (sp2 & rd2 & q2 & HL). rewrite HL. cbn. eexists _, _. done.
  Qed.

  Lemma read_all_sampled fuel : forall rd s q sp,
    R (set_samp rd None) s -> rd_samp rd = Some sp ->
    c_fwd s = true -> agree t ignsz q q0 -> (length (todo s) < fuel)%nat ->
    exists rd' q', read_all h fuel rd q = Ok (ssel sp (todo s), rd', q').
  Proof.
    induction fuel as [|fuel IH]; intros rd s q sp H Hsp Hfw Ha Hf; [lia|].
    assert (HR := read_sampled rd s q sp H Hsp Hfw Ha).
    cbn [read_all]. rewrite ssel_sfind.
    destruct (sfind sp (todo s)) as [[[x sp2] l]|] eqn:E.
    - destruct HR as (rd2 & s2 & E2 & H2 & Hs2 & Hf2 & Et & Ha2). rewrite E2. cbn [rbind Z.eqb].
      apply sfind_length in E.
      destruct (IH rd2 s2 x sp2 H2 Hs2 Hf2 Ha2) as (rd3 & q3 & E3); [rewrite Et; lia|].
      rewrite E3, Et. cbn. eexists _, _. done.
    - destruct HR as (rd2 & q2 & E2). rewrite E2. cbn. eexists _, _. done.
  Qed.
End read_all.

Lemma todo_start t n file start cap ign0 ignsz q b :
  todo t n file start cap ign0 ignsz q (mkCur 0 0 b)
  = visible t ign0 ignsz cap q (chop (item_size t) n (drop start file)).
Proof. unfold todo, visible. cbn [c_pos c_cnt]. rewrite drop_0, Z.sub_0_r. done. Qed.

Lemma visible_length t ign0 ignsz cap q rs :
  (length (visible t ign0 ignsz cap q rs) <= length rs)%nat.
Proof.
  unfold visible.
  assert (H : (length (map (decoded t ignsz q) (List.filter (kept t ign0 true q) rs)) <= length rs)%nat).
  { rewrite map_length. induction rs as [|a l IHl]; cbn; [lia|].
    destruct (kept t ign0 true q a); cbn; lia. }
  destruct (1 <? cap); [rewrite take_length|]; lia.
Qed.

(** The client loop on a fresh reader sees exactly the kept records of the
    file, in order, up to the limit; [fuel] only has to exceed the number of
    records. *)
Theorem C29_read_all h t n file start cap ign0 ignsz q fuel :
  t <> T_IQQ -> trace_ok t start ign0 n file -> (n < fuel)%nat ->
  exists rd' q',
    read_all h fuel (setup_reader t file start cap ign0 ignsz None) q
    = Ok (visible t ign0 ignsz cap q (chop (item_size t) n (drop start file)), rd', q').
Proof.
  intros Ht Hok Hf. assert (Hst : stored_type t = t) by (destruct t; done).
  assert (HR := rel_setup t n file start cap ign0 ignsz None Hst Hok).
  destruct (read_all_todo h t n file start cap ign0 ignsz None Hst Hok q fuel _ _ q HR
              eq_refl (agree_refl _ _ _)) as (rd' & q' & E).
  - rewrite todo_start. assert (L := visible_length t ign0 ignsz cap q (chop (item_size t) n (drop start file))).
    rewrite chop_length in L. lia.
  - rewrite todo_start in E. exists rd', q'. exact E.
Qed.

(** In particular, when no record is dropped and no limit is set, the loop
    sees file_size / item_size requests, the number that get_num_of_req
    reports, and the [i]-th one is the [i]-th record. *)
Theorem C29_count h t n file start cap ign0 ignsz q fuel :
  t <> T_IQQ -> trace_ok t start ign0 n file -> (n < fuel)%nat -> cap <= 1 ->
  Forall (fun r => kept t ign0 true q r = true) (chop (item_size t) n (drop start file)) ->
  exists l rd' q',
    read_all h fuel (setup_reader t file start cap ign0 ignsz None) q = Ok (l, rd', q') /\
    length l = ((length file - start) / item_size t)%nat /\
    n_total_req (setup_reader t file start cap ign0 ignsz None) = length l /\
    forall i, (i < length l)%nat ->
      l !! i = Some (decoded t ignsz q (take (item_size t) (drop (start + i * item_size t) file))).
Proof.
  intros Ht Hok Hf Hcap Hk.
  destruct (C29_read_all h t n file start cap ign0 ignsz q fuel Ht Hok Hf) as (rd' & q' & E).
  destruct Hok as (Hz & Hl & _).
  set (rs := chop (item_size t) n (drop start file)) in *.
  assert (Ev : visible t ign0 ignsz cap q rs = map (decoded t ignsz q) rs).
  { unfold visible. rewrite (proj2 (Z.ltb_ge 1 cap)) by lia. f_equal.
    clear E. induction Hk as [|r l Hr Hk IH]; cbn; [done|]. rewrite Hr. f_equal. exact IH. }
  rewrite Ev in E. eexists _, rd', q'. split; [exact E|].
  assert (Hd : ((length file - start) / item_size t = n)%nat).
  { rewrite Hl. replace (start + n * item_size t - start)%nat with (n * item_size t)%nat by lia.
    apply Nat.div_mul. lia. }
  assert (Hn : length (map (decoded t ignsz q) rs) = n).
  { rewrite map_length. apply chop_length. }
  rewrite Hn, Hd. split_and!; [done| |].
  - unfold n_total_req, file_size. cbn. exact Hd.
  - intros i Hi. rewrite list_lookup_fmap. unfold rs. rewrite chop_lookup by done.
    cbn. rewrite drop_drop. done.
Qed.

(** Whatever was done before, a reset reader and a clone deliver the whole
    sequence again. *)
Theorem C29_replay h t n file start cap ign0 ignsz os q fuel rd l :
  t <> T_IQQ -> trace_ok t start ign0 n file -> Forall (rop_ok start) os -> (n < fuel)%nat ->
  rop_run h (setup_reader t file start cap ign0 ignsz None) os = Ok (rd, l) ->
  rd_fwd rd = true ->
  exists rd1 q1 rd2 q2,
    read_all h fuel (reset_reader rd) q
    = Ok (visible t ign0 ignsz cap q (chop (item_size t) n (drop start file)), rd1, q1) /\
    read_all h fuel (clone_reader rd) q
    = Ok (visible t ign0 ignsz cap q (chop (item_size t) n (drop start file)), rd2, q2).
Proof.
  intros Ht Hok Hos Hf Erun Hfw. assert (Hst : stored_type t = t) by (destruct t; done).
  destruct (rel_run h t n file start cap ign0 ignsz None Hst Hok _ _ os eq_refl
             (rel_setup t n file start cap ign0 ignsz None Hst Hok) Hos)
    as (rd' & l' & s' & E & HR & C).
  assert (Heq : Ok (rd', l') = Ok (rd, l)) by (rewrite <- E; exact Erun).
  injection Heq as -> ->.
  assert (L := visible_length t ign0 ignsz cap q (chop (item_size t) n (drop start file))).
  rewrite chop_length in L.
  assert (HR1 : rel t n file start cap ign0 ignsz None (reset_reader rd) (mkCur 0 0 true)).
  { assert (M := rel_move t n file start cap ign0 ignsz None rd s' 0 0 HR ltac:(lia)).
    replace (rd_start rd + 0 * rd_isz rd)%nat with (rd_start rd) in M by lia.
    rewrite <- (rl_fwd _ _ _ _ _ _ _ _ _ _ HR), Hfw in M. exact M. }
  destruct (read_all_todo h t n file start cap ign0 ignsz None Hst Hok q fuel _ _ q HR1
              eq_refl (agree_refl _ _ _)) as (rd1 & q1 & E1).
  { rewrite todo_start. lia. }
  rewrite todo_start in E1.
  destruct (C29_read_all h t n file start cap ign0 ignsz q fuel Ht Hok Hf) as (rd2 & q2 & E2).
  exists rd1, q1, rd2, q2. split; [exact E1|].
  unfold clone_reader. destruct HR.
  rewrite rl_type0, rl_file0, rl_start0, rl_cap0, rl_ign1, rl_ignsz0, rl_isamp0. exact E2.
Qed.

(** ** Reading backward

    traceConv.cpp and the distance tools read a trace from its end: seek to
    the end, step back, read, then read_one_req_above until it fails. *)
Definition backward_ops (n : nat) (q : treq) : list rop :=
  OpDir false :: OpSeek 1 1 :: OpBack :: OpRead q :: replicate n (OpAbove q).

Lemma kept_back t ign0 q r :
  skip_of t <> SkSize0Any \/ ign0 = false ->
  (item_size t <= length r)%nat -> stored_type t = t ->
  kept t ign0 false q r = true.
Proof.
  intros Hs Hl Hst. assert (F := table_fits t). rewrite Hst in F. unfold kept.
  rewrite (wr_dec t (item_size t)) by done. unfold skipb.
  destruct (skip_of t) eqn:E; try done; rewrite ?andb_false_r; try done.
  destruct Hs as [Hs| ->]; [done|]. rewrite andb_false_r. done.
Qed.

Theorem C29_backward h t n file cap ign0 ignsz q :
  t <> T_IQQ -> trace_ok t 0 ign0 (S n) file -> cap <= 1 ->
  skip_of t <> SkSize0Any \/ ign0 = false ->
  exists rd',
    rop_run h (setup_reader t file 0 cap ign0 ignsz None) (backward_ops (S n) q)
    = Ok (rd', AnUnit :: AnUnit :: AnBool true ::
           map (fun r => AnReq (Some (decoded t ignsz q r))) (rev (chop (item_size t) (S n) file))
           ++ [AnReq None]).
Proof.
  intros Ht Hok Hcap Hsk. assert (Hst : stored_type t = t) by (destruct t; done).
  set (rs := chop (item_size t) (S n) file).
  assert (Hlen : length rs = S n) by apply chop_length.
  assert (Hfull : Forall (fun r => length r = item_size t) rs).
  { apply chop_full. destruct Hok as (_ & Hl & _). lia. }
  assert (Hk : forall p r, rs !! p = Some r ->
    first_kept (kept t ign0 false q) (drop p rs) = Some (O, r)).
  { intros p r Hr. rewrite (drop_S _ _ _ Hr). cbn. rewrite kept_back; try done.
    rewrite Forall_lookup in Hfull. rewrite (Hfull _ _ Hr). done. }
  set (R := rel t (S n) file 0 cap ign0 ignsz None).
  (* one read above, from position p + 2 *)
  assert (Hab : forall m rd s, R rd s -> c_fwd s = false -> c_pos s = S m -> (S m <= S n)%nat ->
    exists rd', rop_run h rd (replicate (S m) (OpAbove q))
      = Ok (rd', map (fun r => AnReq (Some (decoded t ignsz q r))) (rev (take m rs)) ++ [AnReq None])).
  { induction m as [|m IH]; intros rd s HR Hfw Hp Hm.
    - destruct (rel_step h t (S n) file 0 cap ign0 ignsz None Hst Hok rd s (OpAbove q) eq_refl HR I)
        as (rd1 & a & s1 & E1 & H1 & b & s2 & (B1 & B2 & B3 & B4) & C).
      rewrite Hp in B3. cbn in B3. subst b. destruct C as [-> ->].
      exists rd1. cbn [replicate rop_run]. rewrite E1. cbn. done.
    - destruct (rel_step h t (S n) file 0 cap ign0 ignsz None Hst Hok rd s (OpAbove q) eq_refl HR I)
        as (rd1 & a & s1 & E1 & H1 & b & s2 & (B1 & B2 & B3 & B4) & C).
      rewrite Hp in B3. cbn in B3. subst b. destruct C as (r & (C1 & C2 & C3) & ->).
      rewrite Hp in B4. replace (S (S m) - 2)%nat with m in B4 by lia.
      destruct (lookup_lt_is_Some_2 rs m ltac:(lia)) as [rm Hrm].
      rewrite drop_0 in C3. fold rs in C3. rewrite Hlen, B4, B2, Hfw in C3.
      destruct C3 as [C3 C4]. { split; [lia|]. unfold capped. lia. }
      rewrite (Hk m rm Hrm) in C4. destruct C4 as [-> C4].
      destruct (IH rd1 s1 H1 ltac:(congruence) ltac:(lia) ltac:(lia)) as (rd2 & E2).
      exists rd2. change (replicate (S (S m)) (OpAbove q)) with (OpAbove q :: replicate (S m) (OpAbove q)).
      cbn [rop_run]. rewrite E1. cbn [rbind]. rewrite E2. cbn [rbind].
      rewrite (take_S_r _ _ _ Hrm), rev_app_distr. cbn. done. }
  assert (H0 := rel_setup t (S n) file 0 cap ign0 ignsz None Hst Hok).
  destruct (rel_step h t (S n) file 0 cap ign0 ignsz None Hst Hok _ _ (OpDir false) eq_refl H0 I)
    as (rd1 & a1 & s1 & E1 & H1 & -> & ->).
  assert (Hsk1 : rop_ok 0 (OpSeek 1 1)) by (cbn; lia).
  destruct (rel_step h t (S n) file 0 cap ign0 ignsz None Hst Hok _ _ (OpSeek 1 1) eq_refl H1 Hsk1)
    as (rd2 & a2 & s2 & E2 & H2 & -> & ->).
  rewrite drop_0 in H2. fold rs in H2. rewrite Hlen in H2.
  replace (S n * 1 / 1)%nat with (S n) in H2 by (rewrite Nat.mul_1_r, Nat.div_1_r; done).
  destruct (rel_step h t (S n) file 0 cap ign0 ignsz None Hst Hok _ _ OpBack eq_refl H2 I)
    as (rd3 & a3 & s3 & E3 & H3 & b & (B1 & B2 & B3 & B4) & ->).
  subst b.
  destruct (rel_step h t (S n) file 0 cap ign0 ignsz None Hst Hok _ _ (OpRead q) eq_refl H3 I)
    as (rd4 & a4 & s4 & E4 & H4 & r & (C1 & C2 & C3) & ->).
  destruct (lookup_lt_is_Some_2 rs n ltac:(lia)) as [rn Hrn].
  rewrite drop_0 in C3. fold rs in C3. rewrite Hlen, B4, B2 in C3. cbn [c_fwd] in *.
  destruct C3 as [C3 C4]. { split; [lia|]. unfold capped. lia. }
  rewrite (Hk n rn Hrn) in C4. destruct C4 as [-> C4].
  destruct (Hab n rd4 s4 H4 ltac:(congruence) ltac:(lia) ltac:(lia)) as (rd5 & E5).
  exists rd5. unfold backward_ops. cbn [rop_run].
  change (set_samp (setup_reader t file 0 cap ign0 ignsz None) None)
    with (setup_reader t file 0 cap ign0 ignsz None) in E1.
  rewrite E1. cbn [rbind]. rewrite E2. cbn [rbind]. rewrite E3. cbn [rbind].
  rewrite E4. cbn [rbind]. rewrite E5. cbn [rbind].
  assert (Ers : rev rs = rn :: rev (take n rs)).
  { rewrite <- (take_ge rs (S n)) at 1 by lia.
    rewrite (take_S_r _ _ _ Hrn), rev_app_distr. done. }
  rewrite Ers. done.
Qed.

(** ** A concrete trace *)

Ltac tok :=
  unfold trace_ok; split; [apply Nat.ltb_lt; reflexivity|];
  split; [vm_compute; reflexivity|]; split; [intros; discriminate|];
  intros [?|?]; discriminate.

(** Records of the oracleGeneral layout (also used below for C30). *)
Definition enc_ogen (time id size next : Z) : list Z :=
  le_bytes 4 time ++ le_bytes 8 id ++ le_bytes 4 size ++ le_bytes 8 next.

Definition ex_file : list Z :=
  enc_ogen 10 77 100 2 ++ enc_ogen 11 88 0 (-1) ++ enc_ogen 12 77 100 (-1).

Definition ids (l : list treq) : list Z := map (fun q => fget q F_ID) l.

Example C29_ex :
  trace_ok T_OGEN 0 true 3 ex_file /\
  (* the zero-size request is dropped ... *)
  (exists l rd q, read_all id 4 (setup_reader T_OGEN ex_file 0 (-1) true false None) ∅
      = Ok (l, rd, q) /\ ids l = [77; 77] /\ map (fun q => fget q F_NEXT) l = [2; int64_max]) /\
  (* ... unless the user asked to keep it *)
  (exists l rd q, read_all id 4 (setup_reader T_OGEN ex_file 0 (-1) false false None) ∅
      = Ok (l, rd, q) /\ ids l = [77; 88; 77]) /\
  (* backward *)
  (exists rd, rop_run id (setup_reader T_OGEN ex_file 0 (-1) true false None)
      (backward_ops 3 ∅)
    = Ok (rd, AnUnit :: AnUnit :: AnBool true ::
        map (fun r => AnReq (Some (decoded T_OGEN false ∅ r)))
            [enc_ogen 12 77 100 (-1); enc_ogen 11 88 0 (-1); enc_ogen 10 77 100 2]
        ++ [AnReq None])).
Proof.
  split; [tok|].
  split; [eexists _, _, _; split; [vm_compute; reflexivity|split; vm_compute; reflexivity]|].
  split; [eexists _, _, _; split; [vm_compute; reflexivity|vm_compute; reflexivity]|].
  eexists. vm_compute. reflexivity.
Qed.

(** ** Where the full statement fails *)

(** A trailing partial record only causes a warning; the read after the last
    whole record then accesses memory behind the file. *)
Theorem C29_ragged_refuted :
  exists file, length file = 20%nat /\
    n_total_req (setup_reader T_IQI file 0 (-1) true false None) = 1%nat /\
    read_all id 5 (setup_reader T_IQI file 0 (-1) true false None) ∅ = Err OutOfBounds.
Proof.
  exists (le_bytes 4 1 ++ le_bytes 8 7 ++ le_bytes 4 1 ++ le_bytes 4 2).
  vm_compute. done.
Qed.

(** A limit of one request is ignored: the whole trace is read. *)
Theorem C29_cap_one_refuted :
  exists l rd q,
    read_all id 4 (setup_reader T_OGEN ex_file 0 1 true false None) ∅ = Ok (l, rd, q) /\
    length l = 2%nat.
Proof. eexists _, _, _. split; vm_compute; reflexivity. Qed.

(** setup_reader without parameters never initialises the limit: some initial
    memory contents cut the trace short. *)
Theorem C29_null_params_refuted :
  exists garbage file l rd q,
    trace_ok T_IQI 0 true 3 file /\
    read_all id 4 (setup_reader_null T_IQI file garbage) ∅ = Ok (l, rd, q) /\
    length l = 2%nat.
Proof.
  exists 2, (concat (replicate 3 (le_bytes 4 1 ++ le_bytes 8 7 ++ le_bytes 4 1))).
  eexists _, _, _. split; [|split; vm_compute; reflexivity].
  tok.
Qed.

(** An IQQ trace (20-byte records) is stored as an IQI trace, so its clone uses
    16-byte records: the clone delivers other requests than the original. *)
Theorem C29_clone_iqq_refuted :
  exists file l1 rd1 q1 l2 rd2 q2,
    length file = (4 * item_size T_IQQ)%nat /\
    read_all id 9 (setup_reader T_IQQ file 0 (-1) true false None) ∅ = Ok (l1, rd1, q1) /\
    read_all id 9 (clone_reader (setup_reader T_IQQ file 0 (-1) true false None)) ∅
      = Ok (l2, rd2, q2) /\
    ids l1 = [7; 7; 7; 7] /\ ids l2 <> ids l1 /\ length l2 = 5%nat.
Proof.
  exists (concat (replicate 4 (le_bytes 4 1 ++ le_bytes 8 7 ++ le_bytes 8 100))).
  eexists _, _, _, _, _, _.
  split; [reflexivity|]. split; [vm_compute; reflexivity|]. split; [vm_compute; reflexivity|].
  split; [vm_compute; reflexivity|]. split; [|vm_compute; reflexivity].
  vm_compute. discriminate.
Qed.

(** Seeking rounds the absolute file offset, not the offset behind the header:
    in a trace with a header (an LCS trace has 1024 bytes) reading the last
    request returns bytes of two neighbouring records. *)
Theorem C29_seek_header_refuted :
  exists file rd q,
    trace_ok (T_BIN (mkBin [BI; BQ] 2 1 0 0 0 0)) 1024 true 2 file /\
    chop 12 2 (drop 1024 file)
      = [le_bytes 4 1 ++ le_bytes 8 7; le_bytes 4 2 ++ le_bytes 8 9] /\
    read_last_req id
      (setup_reader (T_BIN (mkBin [BI; BQ] 2 1 0 0 0 0)) file 1024 (-1) true false None) ∅
      = Ok (rd, q) /\
    fget q F_ID <> 9 /\ fget q F_TIME <> 2.
Proof.
  exists (replicate 1024 0 ++ le_bytes 4 1 ++ le_bytes 8 7 ++ le_bytes 4 2 ++ le_bytes 8 9).
  eexists _, _.
  split; [tok|].
  split; [vm_compute; reflexivity|]. split; [vm_compute; reflexivity|].
  split; vm_compute; discriminate.
Qed.

(** The wiki readers also drop zero-size records when reading backward: the
    read then moves forward again and the same request is returned for ever. *)
Theorem C29_backward_wiki_refuted :
  exists file rd l,
    length file = (3 * item_size T_WIKI19u)%nat /\
    rop_run id (setup_reader T_WIKI19u file 0 (-1) true false None) (backward_ops 6 ∅)
      = Ok (rd, AnUnit :: AnUnit :: AnBool true :: l) /\
    map (fun a => match a with AnReq (Some q) => fget q F_ID | _ => 0 end) l
      = [9; 9; 9; 9; 9; 9; 9].
Proof.
  exists (le_bytes 4 1 ++ le_bytes 8 7 ++ le_bytes 4 1 ++ le_bytes 2 0 ++
          le_bytes 4 2 ++ le_bytes 8 8 ++ le_bytes 4 0 ++ le_bytes 2 0 ++
          le_bytes 4 3 ++ le_bytes 8 9 ++ le_bytes 4 1 ++ le_bytes 2 0).
  eexists _, _. split; [reflexivity|]. split; [vm_compute; reflexivity|].
  vm_compute. reflexivity.
Qed.

(** reset_reader does not reset the counter of a temporal sampler: after a
    reset in the middle of a period other requests are delivered.  (A clone
    gets a fresh counter.) *)
Theorem C29_reset_temporal_refuted :
  exists file l1 rd1 q1 l2 rd2 q2,
    trace_ok T_IQI 0 true 3 file /\
    read_all id 4 (setup_reader T_IQI file 0 (-1) true false (Some (Temporal 2 0))) ∅
      = Ok (l1, rd1, q1) /\
    read_all id 4 (reset_reader rd1) ∅ = Ok (l2, rd2, q2) /\
    ids l1 = [8] /\ ids l2 = [7; 9].
Proof.
  exists (le_bytes 4 1 ++ le_bytes 8 7 ++ le_bytes 4 1 ++
          le_bytes 4 2 ++ le_bytes 8 8 ++ le_bytes 4 1 ++
          le_bytes 4 3 ++ le_bytes 8 9 ++ le_bytes 4 1).
  eexists _, _, _, _, _, _.
  split; [tok|].
  split; [vm_compute; reflexivity|]. split; [vm_compute; reflexivity|].
  split; vm_compute; reflexivity.
Qed.

(** read_first_req restores the position but not the number of requests read:
    a reader limited to two requests delivers a third one. *)
Theorem C29_read_first_cap_refuted :
  exists file rd1 a rd2 q2 rd3 q3,
    trace_ok T_IQI 0 true 3 file /\
    rop_run id (setup_reader T_IQI file 0 2 true false None) [OpRead ∅; OpRead ∅]
      = Ok (rd1, a) /\
    read_one_req id rd1 ∅ = Ok (rd1, set_invalid ∅, 1) /\
    read_first_req id rd1 ∅ = Ok (rd2, q2) /\
    read_one_req id rd2 ∅ = Ok (rd3, q3, 0) /\ fget q3 F_ID = 9.
Proof.
  exists (le_bytes 4 1 ++ le_bytes 8 7 ++ le_bytes 4 1 ++
          le_bytes 4 2 ++ le_bytes 8 8 ++ le_bytes 4 1 ++
          le_bytes 4 3 ++ le_bytes 8 9 ++ le_bytes 4 1).
  eexists _, _, _, _, _, _.
  split; [tok|].
  split; [vm_compute; reflexivity|]. split; [vm_compute; reflexivity|].
  split; [vm_compute; reflexivity|]. split; vm_compute; reflexivity.
Qed.

(** * C31: samplers *)

Lemma hv_not_field t : F_HV ∉ fields (table_of t).
Proof.
  destruct t; cbn [table_of fields map f_field]; try (cbn; set_solver).
  unfold bin_table, fields. rewrite !map_app, !elem_of_app.
  assert (G : forall fld idx conv, F_HV <> fld ->
     F_HV ∉ map f_field (bin_field p fld idx conv)).
  { intros fld idx conv Hne. unfold bin_field. destruct idx as [|k]; [set_solver|].
    destruct (b_fmt p !! k); cbn; set_solver. }
  intros [H|[H|[H|[H|H]]]]; revert H; apply G; discriminate.
Qed.

Lemma decoded_hv t i q r :
  stored_type t = t -> (item_size t <= length r)%nat -> fget (decoded t i q r) F_HV = 0.
Proof.
  intros Hst Hl. assert (F := table_fits t). rewrite Hst in F.
  rewrite (decoded_dlv t (item_size t)) by done. unfold dlv.
  assert (G : (wr t r ∪ prologue q) !! F_HV = Some 0).
  { rewrite lookup_union_r.
    - rewrite prologue_lookup. done.
    - apply eq_None_not_Some. intros S. apply (wr_dom t (item_size t) r _ F Hl) in S.
      apply (hv_not_field t S). }
  unfold fget. destruct i; [rewrite lookup_insert_ne by done|]; rewrite G; done.
Qed.

Definition sampled_id (h : Z -> Z) (k : Z) (x : Z) : bool := h x mod k =? 0.

Lemma ssel_spatial h k L :
  Forall (fun x => fget x F_HV = 0) L ->
  ssel h (Spatial k) L
  = map (fun x => <[F_HV := h (fget x F_ID)]> x)
        (List.filter (fun x => sampled_id h k (fget x F_ID)) L).
Proof.
  induction 1 as [|x L Hx HL IH]; cbn [ssel List.filter map]; [done|].
  unfold do_sample. rewrite Hx. cbn [Z.eqb]. unfold sampled_id at 1.
  destruct (h (fget x F_ID) mod k =? 0); cbn [map]; rewrite IH; done.
Qed.

Lemma visible_hv t ign0 ignsz cap q isz n file start :
  stored_type t = t -> isz = item_size t -> (n * isz <= length file - start)%nat ->
  Forall (fun x => fget x F_HV = 0) (visible t ign0 ignsz cap q (chop isz n (drop start file))).
Proof.
  intros Hst -> Hl.
  assert (G : Forall (fun x => fget x F_HV = 0)
    (map (decoded t ignsz q) (List.filter (kept t ign0 true q) (chop (item_size t) n (drop start file))))).
  { apply Forall_map. apply Forall_forall. intros r Hr.
    apply elem_of_list_In, filter_In in Hr as [Hr _]. apply elem_of_list_In in Hr.
    assert (Hf : Forall (fun r => length r = item_size t) (chop (item_size t) n (drop start file))).
    { apply chop_full. rewrite drop_length. lia. }
    rewrite Forall_forall in Hf. apply decoded_hv; [done|]. rewrite (Hf r Hr). done. }
  unfold visible. destruct (1 <? cap); [|done]. apply Forall_take. done.
Qed.

(** With a spatial sampler of rate 1/k the client loop sees exactly the
    requests, among those it would see without a sampler, whose object id
    hashes to a multiple of k, in the same order (and with the hash stored in
    the request).  [h] is any hash function. *)
Theorem C31_spatial h t n file start cap ign0 ignsz q fuel k :
  t <> T_IQQ -> trace_ok t start ign0 n file -> (n < fuel)%nat -> 1 < k ->
  exists rd' q',
    read_all h fuel (setup_reader t file start cap ign0 ignsz (Some (Spatial k))) q
    = Ok (map (fun x => <[F_HV := h (fget x F_ID)]> x)
           (List.filter (fun x => sampled_id h k (fget x F_ID))
              (visible t ign0 ignsz cap q (chop (item_size t) n (drop start file)))), rd', q').
Proof.
  intros Ht Hok Hf Hk. assert (Hst : stored_type t = t) by (destruct t; done).
  assert (HR := rel_setup t n file start cap ign0 ignsz (Some (Spatial k)) Hst Hok).
  destruct (read_all_sampled h t n file start cap ign0 ignsz (Some (Spatial k)) Hst Hok q fuel
              _ _ q (Spatial k) HR eq_refl eq_refl (agree_refl _ _ _)) as (rd' & q' & E).
  - rewrite todo_start. assert (L := visible_length t ign0 ignsz cap q (chop (item_size t) n (drop start file))).
    rewrite chop_length in L. lia.
  - rewrite todo_start, ssel_spatial in E.
    + exists rd', q'. exact E.
    + apply visible_hv; [done|done|]. destruct Hok as (_ & Hl & _). lia.
Qed.

Definition count_id (x : Z) (l : list treq) : nat :=
  length (List.filter (fun q => fget q F_ID =? x) l).

(** All requests of an object or none, the same choice for every trace. *)
Theorem C31_spatial_all_or_none h k :
  1 < k -> exists chosen : Z -> bool,
  forall t n file start cap ign0 ignsz q fuel,
  t <> T_IQQ -> trace_ok t start ign0 n file -> (n < fuel)%nat ->
  exists l rd' q',
    read_all h fuel (setup_reader t file start cap ign0 ignsz (Some (Spatial k))) q
    = Ok (l, rd', q') /\
    forall x, count_id x l
      = if chosen x
        then count_id x (visible t ign0 ignsz cap q (chop (item_size t) n (drop start file)))
        else O.
Proof.
  intros Hk. exists (sampled_id h k). intros t n file start cap ign0 ignsz q fuel Ht Hok Hf.
  destruct (C31_spatial h t n file start cap ign0 ignsz q fuel k Ht Hok Hf Hk) as (rd' & q' & E).
  eexists _, rd', q'. split; [exact E|]. intros x.
  generalize (visible t ign0 ignsz cap q (chop (item_size t) n (drop start file))) as L. clear.
  intros L. unfold count_id. induction L as [|y L IH]; cbn [List.filter map]; [destruct (sampled_id h k x); done|].
  destruct (sampled_id h k (fget y F_ID)) eqn:Ey; cbn [List.filter map].
  - assert (Eid : fget (<[F_HV := h (fget y F_ID)]> y) F_ID = fget y F_ID).
    { unfold fget at 1. rewrite lookup_insert_ne by done. done. }
    rewrite Eid. destruct (Z.eqb_spec (fget y F_ID) x) as [<-|Hne]; cbn [length].
    + rewrite Ey in IH |- *. rewrite IH. done.
    + exact IH.
  - rewrite IH. destruct (Z.eqb_spec (fget y F_ID) x) as [<-|Hne]; [|done].
    rewrite Ey. done.
Qed.

Lemma ssel_temporal h k m L :
  (0 < k)%nat -> (m < k)%nat ->
  length (ssel h (Temporal (Z.of_nat k) (Z.of_nat m)) L) = ((length L + m) / k)%nat /\
  forall i, (i < length (ssel h (Temporal (Z.of_nat k) (Z.of_nat m)) L))%nat ->
    ssel h (Temporal (Z.of_nat k) (Z.of_nat m)) L !! i = L !! ((i + 1) * k - 1 - m)%nat.
Proof.
  intros Hk. revert m. induction L as [|x L IH]; intros m Hm; cbn [ssel].
  - split; [cbn; rewrite Nat.div_small; lia|]. cbn. intros. lia.
  - unfold do_sample. destruct (Z.eqb_spec (Z.of_nat m + 1) (Z.of_nat k)) as [E|E].
    + destruct (IH 0%nat ltac:(lia)) as [I1 I2]. change (Z.of_nat 0) with 0 in *.
      assert (k = m + 1)%nat as -> by lia.
      split.
      * cbn [length]. rewrite I1.
        replace (S (length L) + m)%nat with (length L + 0 + 1 * (m + 1))%nat by lia.
        rewrite Nat.div_add by lia. lia.
      * intros [|i] Hi.
        -- replace ((0 + 1) * (m + 1) - 1 - m)%nat with O by lia. done.
        -- cbn [length] in Hi. cbn [lookup list_lookup]. rewrite I2 by lia.
           replace ((S i + 1) * (m + 1) - 1 - m)%nat with (S ((i + 1) * (m + 1) - 1 - 0)) by nia.
           done.
    + destruct (IH (S m) ltac:(lia)) as [I1 I2].
      replace (Z.of_nat m + 1) with (Z.of_nat (S m)) by lia. split.
      * rewrite I1. cbn [length]. f_equal. lia.
      * intros i Hi. rewrite I2 by done.
        replace ((i + 1) * k - 1 - m)%nat with (S ((i + 1) * k - 1 - S m)) by nia. done.
Qed.

(** With a temporal sampler the client loop sees exactly every k-th of the
    requests it would see without a sampler. *)
Theorem C31_temporal h t n file start cap ign0 ignsz q fuel k :
  t <> T_IQQ -> trace_ok t start ign0 n file -> (n < fuel)%nat -> (1 < k)%nat ->
  exists l rd' q',
    read_all h fuel
      (setup_reader t file start cap ign0 ignsz (Some (Temporal (Z.of_nat k) 0))) q
    = Ok (l, rd', q') /\
    every_kth k (visible t ign0 ignsz cap q (chop (item_size t) n (drop start file))) l.
Proof.
  intros Ht Hok Hf Hk. assert (Hst : stored_type t = t) by (destruct t; done).
  assert (HR := rel_setup t n file start cap ign0 ignsz (Some (Temporal (Z.of_nat k) 0)) Hst Hok).
  destruct (read_all_sampled h t n file start cap ign0 ignsz (Some (Temporal (Z.of_nat k) 0)) Hst Hok q fuel
              _ _ q (Temporal (Z.of_nat k) 0) HR eq_refl eq_refl (agree_refl _ _ _)) as (rd' & q' & E).
  - rewrite todo_start. assert (L := visible_length t ign0 ignsz cap q (chop (item_size t) n (drop start file))).
    rewrite chop_length in L. lia.
  - rewrite todo_start in E. eexists _, rd', q'. split; [exact E|].
    destruct (ssel_temporal h k 0 (visible t ign0 ignsz cap q (chop (item_size t) n (drop start file))))
      as [L1 L2]; [lia|lia|]. change (Z.of_nat 0) with 0 in *.
    split; [rewrite L1; f_equal; lia|]. intros i Hi. rewrite L2 by done. f_equal. lia.
Qed.

Example C31_ex :
  let file := enc_ogen 1 6 1 3 ++ enc_ogen 2 7 1 (-1) ++ enc_ogen 3 6 1 (-1) ++
              enc_ogen 4 8 1 (-1) ++ enc_ogen 5 9 1 (-1) in
  trace_ok T_OGEN 0 true 5 file /\
  (exists l rd q, read_all id 6 (setup_reader T_OGEN file 0 (-1) true false (Some (Spatial 3))) ∅
      = Ok (l, rd, q) /\ ids l = [6; 6; 9]) /\
  (exists l rd q, read_all id 6 (setup_reader T_OGEN file 0 (-1) true false (Some (Temporal 2 0))) ∅
      = Ok (l, rd, q) /\ ids l = [7; 8]).
Proof.
  split; [tok|].
  split; (eexists _, _, _; split; [vm_compute; reflexivity|vm_compute; reflexivity]).
Qed.
