(** A text reader on a clean file is a cursor over its lines: going back,
    skipping, resetting, cloning and reading in any order. *)
From stdpp Require Import gmap list numbers fin_maps.
From Verif Require Import Base ModelReader ModelTxt SpecTxt TxtFacts.
Open Scope Z_scope.

(** * Operations and what they mean for a cursor *)

Inductive top : Type :=
| TRead (q : treq)              (* read_one_req *)
| TAbove (q : treq)             (* read_one_req_above *)
| TSkip (N : nat)               (* skip_n_req *)
| TBack                         (* go_back_one_req *)
| TBack2                        (* go_back_two_req *)
| TReset                        (* reset_reader *)
| TClone                        (* continue with clone_reader's result *)
| TDir (fwd : bool).            (* reader->read_direction = ... *)

Inductive tans : Type :=
| TReq (a : option treq)
| TBool (b : bool)
| TNum (n : nat)
| TUnit.

Section ops.
  Context (tof hstr : list Z -> Z) (tp : tparams).

  Definition top_step (rd : treader) (o : top) : res (treader * tans) :=
    match o with
    | TRead q =>
        let! (rd1, q1, st) := read_txt tof hstr rd q in
        Ok (rd1, TReq (if st =? 0 then Some q1 else None))
    | TAbove q =>
        let! (rd1, q1, st) := read_txt_above tof hstr rd q in
        Ok (rd1, TReq (if st =? 0 then Some q1 else None))
    | TSkip N => let '(rd1, k) := tskip rd N 0 in Ok (rd1, TNum k)
    | TBack => let! (rd1, st) := tgo_back_one rd in Ok (rd1, TBool (st =? 0))
    | TBack2 => let! (rd1, st) := tgo_back_two rd in Ok (rd1, TBool (st =? 0))
    | TReset => Ok (treset rd, TUnit)
    | TClone => let! rd1 := tsetup (t_file rd) tp (t_quarks rd) in Ok (rd1, TUnit)
    | TDir b => Ok (t_setdir rd b, TUnit)
    end.

  Fixpoint top_run (rd : treader) (os : list top) : res (treader * list tans) :=
    match os with
    | [] => Ok (rd, [])
    | o :: os' =>
        let! (rd1, a) := top_step rd o in
        let! (rd2, l) := top_run rd1 os' in
        Ok (rd2, a :: l)
    end.
End ops.

(** The same operations on a cursor over the lines [ls]; [D l q] is the request
    that the line [l] stands for when the caller's buffer holds [q]. *)
Definition tc_step (D : list Z -> treq -> treq) (cap : Z) (ls : list (list Z))
  (s : tcursor) (o : top) (a : tans) (s' : tcursor) : Prop :=
  let read q s :=
    exists r, tc_read ls cap s r s' /\ a = TReq ((fun l => D l q) <$> r) in
  match o with
  | TRead q => read q s
  | TAbove q =>
      exists b s1, tc_back2 s b s1 /\
        if (b : bool) then read q s1 else a = TReq None /\ s' = s1
  | TSkip N => exists k, tc_skip ls s N k s' /\ a = TNum k
  | TBack => exists b, tc_back s b s' /\ a = TBool b
  | TBack2 => exists b, tc_back2 s b s' /\ a = TBool b
  | TReset | TClone => s' = mkTC 0 0 /\ a = TUnit
  | TDir _ => s' = s /\ a = TUnit
  end.

Fixpoint tc_run (D : list Z -> treq -> treq) (cap : Z) (ls : list (list Z))
  (s : tcursor) (os : list top) (l : list tans) : Prop :=
  match os, l with
  | [], [] => True
  | o :: os', a :: l' =>
      exists s', tc_step D cap ls s o a s' /\ tc_run D cap ls s' os' l'
  | _, _ => False
  end.

(** * Going back *)

Lemma last_nl_none m : 10 ∉ m -> last_nl m = None.
Proof.
  induction m as [|c m IH]; intros H; [done|]. apply not_elem_of_cons in H as [H1 H2].
  cbn. rewrite IH by done. destruct (Z.eqb_spec c 10); [congruence|done].
Qed.

Lemma last_nl_app a m : 10 ∉ m -> last_nl (a ++ 10 :: m) = Some (length a).
Proof.
  intros H. induction a as [|c a IH].
  - cbn. by rewrite last_nl_none.
  - cbn. by rewrite IH.
Qed.

Lemma cstr_incl l x : x ∈ cstr l -> x ∈ l.
Proof.
  induction l as [|c l IH]; cbn; [done|]. destruct (c =? 0); set_solver.
Qed.

Lemma go_back_first fuel f A l c post :
  f = A ++ l ++ c :: post -> (1 <= length l <= 1022)%nat -> 10 ∉ l ->
  go_back_loop (S fuel) f (length A) (length A + length l + 1) (length l + 1) 0
    = Ok (length A, 0).
Proof.
  intros -> Hl Hnl. cbn [go_back_loop]. unfold PER_SEEK.
  rewrite Nat.sub_0_r. rewrite Nat.min_r by lia.
  unfold fseek_back. destruct (Nat.leb_spec (length l + 1) (length A + length l + 1)); [|lia].
  replace (length A + length l + 1 - (length l + 1))%nat with (length A) by lia.
  unfold fread. rewrite drop_app.
  replace (length l + 1 - 1)%nat with (length l) by lia. rewrite take_app.
  rewrite last_nl_none.
  - destruct l; [cbn in Hl; lia|]. destruct (Nat.ltb_spec (length (z :: l) + 1) 1024); [done|lia].
  - intros Hx%cstr_incl. apply Hnl. apply elem_of_take in Hx as (i & Hx & _).
    by apply elem_of_list_lookup_2 in Hx.
Qed.

Lemma go_back_mid fuel f A l c post start :
  f = A ++ 10 :: l ++ c :: post -> (1 <= length l <= 1022)%nat -> 10 ∉ l ->
  (start <= length A)%nat -> 0 ∉ drop start A -> 0 ∉ l ->
  go_back_loop (S fuel) f start (length A + 1 + length l + 1)
    (length A + 1 + length l + 1 - start) 0
    = Ok ((length A + 1)%nat, 0).
Proof.
  intros -> Hl Hnl Hst H0A H0l. cbn [go_back_loop]. unfold PER_SEEK. rewrite Nat.sub_0_r.
  set (P := (length A + 1 + length l + 1)%nat).
  set (seek := Nat.min 1024 (P - start)).
  assert (Hs : (length l + 2 <= seek /\ seek <= P - start)%nat) by (unfold seek, P; lia).
  set (k := (seek - (length l + 2))%nat).
  assert (Hkk : (k + length l + 2 = seek)%nat) by (unfold k; lia).
  assert (HPP : P = (length A + length l + 2)%nat) by (unfold P; lia).
  clearbody k seek P.
  unfold fseek_back. destruct (Nat.leb_spec seek P); [|lia].
  assert (HP : (P - seek = length A - k)%nat) by lia.
  assert (Hk : (k <= length A)%nat) by lia.
  set (A1 := take (length A - k) A). set (A2 := drop (length A - k) A).
  assert (HA : A = A1 ++ A2) by (unfold A1, A2; by rewrite take_drop).
  assert (HA1 : length A1 = (length A - k)%nat) by (unfold A1; rewrite take_length; lia).
  assert (HA2 : length A2 = k) by (unfold A2; rewrite drop_length; lia).
  assert (Hbuf : fread (A ++ 10 :: l ++ c :: post) (P - seek) (seek - 1)
                 = A2 ++ 10 :: l).
  { unfold fread. rewrite HP. rewrite HA at 2. rewrite <-app_assoc, <-HA1, drop_app.
    replace (A2 ++ 10 :: l ++ c :: post) with ((A2 ++ 10 :: l) ++ c :: post)
      by (by rewrite <-app_assoc).
    replace (seek - 1)%nat with (length (A2 ++ 10 :: l)); [by rewrite take_app|].
    rewrite app_length, HA2. cbn [length]. lia. }
  rewrite Hbuf.
  assert (Hlb : length (A2 ++ 10 :: l) = (k + 1 + length l)%nat)
    by (rewrite app_length, HA2; cbn; lia).
  assert (Hcut : take (length (A2 ++ 10 :: l) - 1) (A2 ++ 10 :: l)
                 = A2 ++ 10 :: take (length l - 1) l).
  { rewrite Hlb, take_app_ge by lia. f_equal.
    replace (k + 1 + length l - 1 - length A2)%nat with (S (length l - 1)) by lia. done. }
  assert (Htl : forall x, x ∈ take (length l - 1) l -> x ∈ l).
  { intros x (i & H' & _)%elem_of_take. by apply elem_of_list_lookup_2 in H'. }
  rewrite Hcut, cstr_id, last_nl_app.
  - rewrite HA2, Hlb. destruct (A2 ++ 10 :: l) eqn:E; [by destruct A2|].
    do 2 f_equal. lia.
  - intros H'. by apply Hnl, Htl.
  - intros [H'|H']%elem_of_app.
    + apply H0A. unfold A2 in H'.
      assert (Hd : drop (length A - k) A
                   = drop (length A - k - start) (drop start A)).
      { rewrite drop_drop. f_equal. lia. }
      rewrite Hd in H'. apply elem_of_list_lookup in H' as (i & Hi).
      rewrite lookup_drop in Hi. by eapply elem_of_list_lookup_2.
    + apply elem_of_cons in H' as [?|H']; [done|]. by apply H0l, Htl.
Qed.

Lemma tread_above_S tof hstr fuel rd q :
  tread_above tof hstr (S fuel) rd q =
    if 0 <? t_left rd then
      Ok (t_setleft rd (t_left rd - 1), <[F_TIME := t_ltime rd]> q, 0)
    else
      let! (rd1, st) := tgo_back_two rd in
      if st =? 0 then tread tof hstr fuel rd1 q else Ok (rd1, set_invalid q, 1).
Proof. done. Qed.

(** * Boundaries between lines *)

(** A line that the backward search handles. *)
Definition clean (l : list Z) : Prop :=
  (1 <= length l <= 1022)%nat /\ 10 ∉ l /\ 0 ∉ l.

Section cursor.
  Context (hdr : list Z) (ls : list (list Z)).

  Definition tfile : list Z := hdr ++ newline_terminated ls.
  Definition bnd (k : nat) : nat := (length hdr + length (newline_terminated (take k ls)))%nat.

  Lemma bnd_0 : bnd 0 = length hdr.
  Proof. unfold bnd. rewrite take_0. change (newline_terminated []) with (@nil Z). cbn. lia. Qed.

  Lemma nlt_take_S k l :
    ls !! k = Some l ->
    newline_terminated (take (S k) ls) = newline_terminated (take k ls) ++ l ++ [10].
  Proof.
    intros H. rewrite (take_S_r _ _ _ H), nlt_app. by rewrite nlt_cons.
  Qed.

  Lemma bnd_S k l : ls !! k = Some l -> bnd (S k) = (bnd k + length l + 1)%nat.
  Proof. intros H. unfold bnd. rewrite (nlt_take_S _ _ H), !app_length. cbn. lia. Qed.

  Lemma bnd_end : bnd (length ls) = length tfile.
  Proof. unfold bnd, tfile. by rewrite firstn_all, app_length. Qed.

  Lemma nlt_split k : newline_terminated ls
    = newline_terminated (take k ls) ++ newline_terminated (drop k ls).
  Proof. by rewrite <-nlt_app, take_drop. Qed.

  Lemma drop_bnd k : drop (bnd k) tfile = newline_terminated (drop k ls).
  Proof.
    unfold tfile, bnd. rewrite (nlt_split k), app_assoc, <-app_length. by rewrite drop_app.
  Qed.

  Lemma bnd_le k : (bnd k <= length tfile)%nat.
  Proof.
    unfold tfile, bnd. rewrite (nlt_split k), !app_length. lia.
  Qed.

  Lemma bnd_hdr k : (length hdr <= bnd k)%nat.
  Proof. unfold bnd. lia. Qed.

  Context (Hclean : Forall clean ls).

  Lemma lines_bnd k : lines_of (drop (bnd k) tfile) (drop k ls).
  Proof using Hclean.
    split; [|left; apply drop_bnd]. apply Forall_drop.
    eapply Forall_impl; [done|]. by intros l (_ & ? & _).
  Qed.

  Lemma clean_at k l : ls !! k = Some l -> clean l.
  Proof using Hclean. intros H. by eapply Forall_lookup_1 in H. Qed.

  Lemma getline_bnd k l :
    ls !! k = Some l -> getline tfile (bnd k) = Some (l ++ [10], bnd (S k)).
  Proof using Hclean.
    intros H. destruct (clean_at _ _ H) as (Hlen & Hnl & _). unfold getline.
    rewrite drop_bnd, (drop_S _ _ _ H), nlt_cons, take_line_nl by done.
    rewrite (bnd_S _ _ H). destruct (l ++ [10]) eqn:E; [by destruct l|].
    rewrite <-E, app_length. cbn. do 2 f_equal. lia.
  Qed.

  Lemma getline_bnd_end k : (length ls <= k)%nat -> getline tfile (bnd k) = None.
  Proof using Hclean. intros H. apply getline_none. pose proof (lines_bnd k) as E.
    by rewrite (drop_ge ls) in E. Qed.

  Lemma nlt_no_nul k : 0 ∉ newline_terminated (take k ls).
  Proof using Hclean.
    assert (HF : Forall (fun l => 0 ∉ l) (take k ls)).
    { apply Forall_take. eapply Forall_impl; [exact Hclean|]. by intros l (_ & _ & ?). }
    induction HF as [|l r Hl HF IH]; [set_solver|]. rewrite nlt_cons. set_solver.
  Qed.

  Lemma go_back_bnd fuel k :
    (k < length ls)%nat ->
    go_back_loop (S fuel) tfile (length hdr) (bnd (S k)) (bnd (S k) - length hdr) 0
      = Ok (bnd k, 0).
  Proof using Hclean.
    intros Hk. destruct (lookup_lt_is_Some_2 _ _ Hk) as [l Hl].
    destruct (clean_at _ _ Hl) as (Hlen & Hnl & H0).
    assert (Hf : tfile = hdr ++ newline_terminated (take k ls) ++ l
                          ++ 10 :: newline_terminated (drop (S k) ls)).
    { unfold tfile. rewrite (nlt_split k), (drop_S _ _ _ Hl), nlt_cons. done. }
    destruct k as [|k].
    - rewrite (bnd_S _ _ Hl), bnd_0.
      replace (length hdr + length l + 1 - length hdr)%nat with (length l + 1)%nat by lia.
      eapply go_back_first; [exact Hf|done|done].
    - assert (Hk' : (k < length ls)%nat) by lia.
      destruct (lookup_lt_is_Some_2 _ _ Hk') as [l0 Hl0].
      set (A := hdr ++ newline_terminated (take k ls) ++ l0).
      assert (HA : bnd (S k) = (length A + 1)%nat).
      { rewrite (bnd_S _ _ Hl0). unfold bnd, A. rewrite !app_length. lia. }
      rewrite (bnd_S _ _ Hl), HA.
      eapply go_back_mid; [|done|done| | |done].
      + rewrite Hf, (nlt_take_S _ _ Hl0). unfold A. by rewrite <-!app_assoc.
      + unfold A. rewrite app_length. lia.
      + unfold A. rewrite drop_app. intros [H|H]%elem_of_app.
        * by apply (nlt_no_nul k).
        * destruct (clean_at _ _ Hl0) as (_ & _ & ?). done.
  Qed.

  Lemma tgo_back_bnd rd k :
    t_file rd = tfile -> t_start rd = length hdr -> t_pos rd = bnd k ->
    (k <= length ls)%nat ->
    tgo_back_one rd = Ok (t_seek rd (bnd (k - 1)), if decide (1 <= k)%nat then 0 else 1).
  Proof using Hclean.
    intros Hf Hs Hp Hk. unfold tgo_back_one. rewrite Hp, Hs, Hf.
    destruct k as [|k].
    - rewrite bnd_0. rewrite (proj2 (Nat.leb_le _ _)) by lia. cbn.
      rewrite bnd_0, <-bnd_0, <-Hp. by destruct rd.
    - assert (Hlt : (k < length ls)%nat) by lia.
      destruct (lookup_lt_is_Some_2 _ _ Hlt) as [l Hl].
      rewrite (proj2 (Nat.leb_gt _ _))
        by (rewrite (bnd_S _ _ Hl); pose proof (bnd_hdr k); lia).
      rewrite go_back_bnd by done. cbn. rewrite Nat.sub_0_r. done.
  Qed.

  Lemma tgo_back_two_bnd rd k :
    t_file rd = tfile -> t_start rd = length hdr -> t_pos rd = bnd k ->
    (k <= length ls)%nat ->
    tgo_back_two rd = Ok (t_seek rd (bnd (k - 2)), if decide (2 <= k)%nat then 0 else 1).
  Proof using Hclean.
    intros Hf Hs Hp Hk. unfold tgo_back_two. rewrite (tgo_back_bnd rd k) by done. cbn.
    destruct (decide (1 <= k)%nat) as [H1|H1].
    - cbn. rewrite (tgo_back_bnd (t_seek rd (bnd (k - 1))) (k - 1)); [|done|done|done|lia].
      replace (k - 1 - 1)%nat with (k - 2)%nat by lia.
      destruct (decide (1 <= k - 1)%nat), (decide (2 <= k)%nat); try lia; done.
    - cbn. assert (k = 0)%nat as -> by lia. done.
  Qed.

  Lemma tskip_bnd N rd k i :
    t_file rd = tfile -> t_pos rd = bnd k -> (k <= length ls)%nat ->
    tskip rd N i = (t_seek rd (bnd (k + Nat.min N (length ls - k))),
                    (i + Nat.min N (length ls - k))%nat).
  Proof using Hclean.
    revert rd k i. induction N as [|N IH]; intros rd k i Hf Hp Hk.
    - cbn. rewrite !Nat.add_0_r, <-Hp. by destruct rd.
    - cbn [tskip]. rewrite Hf, Hp. destruct (decide (k < length ls)%nat) as [Hlt|Hge].
      + destruct (lookup_lt_is_Some_2 _ _ Hlt) as [l Hl].
        rewrite (getline_bnd _ _ Hl).
        rewrite (IH _ (S k)); [|done|done|lia]. f_equal; [|lia].
        replace (S k + Nat.min N (length ls - S k))%nat
          with (k + Nat.min (S N) (length ls - k))%nat by lia. done.
      + rewrite getline_bnd_end by lia.
        replace (length ls - k)%nat with 0%nat by lia.
        rewrite Nat.min_0_r, !Nat.add_0_r, <-Hp. by destruct rd.
  Qed.

  (** * The cursor *)

  Context (tof hstr : list Z -> Z) (tp : tparams) (base : treader).
  Context (D : list (list Z) -> list Z -> treq -> treq).
  Context (Hfile : t_file base = tfile) (Hstart : t_start base = length hdr)
          (Hmmap : (t_mmap base < length tfile)%nat) (Hsetup : forall qs, tsetup tfile tp qs
             = Ok (t_set (t_setdir base true) (bnd 0) 0 0 (-1) qs)).

  (** A state of the reader: only the direction, the position, the counter,
      the stored time and the table of quarks ever change. *)
  Definition st_at (b : bool) (k : nat) (n lt : Z) (qs : list (list Z)) : treader :=
    t_set (t_setdir base b) (bnd k) n 0 lt qs.

  Context (Hreset : forall b k n lt qs, treset (st_at b k n lt qs) = st_at b 0 0 lt qs).
  Context (Hread : forall b k n lt qs q l fuel,
    ls !! k = Some l -> ~ (1 < t_cap base /\ t_cap base <= n) ->
    exists lt' qs' q',
      tread tof hstr (S (S fuel)) (st_at b k n lt qs) q
        = Ok (st_at b (S k) (n + 1) lt' qs', q', 0) /\
      qs `prefix_of` qs' /\ forall T, qs' `prefix_of` T -> q' = D T l q).
  Context (Heof : forall b n lt qs q fuel,
    ~ (1 < t_cap base /\ t_cap base <= n) ->
    exists q', tread tof hstr (S (S fuel)) (st_at b (length ls) n lt qs) q
        = Ok (st_at b (length ls) (n + 1) lt qs, q', 1)).

  Lemma tread_capped b k n lt qs q fuel :
    1 < t_cap base /\ t_cap base <= n ->
    exists q', tread tof hstr (S fuel) (st_at b k n lt qs) q
                 = Ok (st_at b k n lt qs, q', 1).
  Proof using.
    intros [H1 H2]. exists (set_invalid q). cbn [tread].
    assert (t_no_more (st_at b k n lt qs) = true) as ->; [|done].
    unfold t_no_more. apply orb_true_iff. right. apply andb_true_iff. cbn.
    by rewrite Z.ltb_lt, Z.leb_le.
  Qed.

  Lemma tread_cursor b k n lt qs q fuel :
    (k <= length ls)%nat ->
    exists b' lt' qs' q' s st r,
      tread tof hstr (S (S fuel)) (st_at b k n lt qs) q
        = Ok (st_at b' (tc_pos s) (tc_cnt s) lt' qs', q', st) /\
      (tc_pos s <= length ls)%nat /\
      qs `prefix_of` qs' /\ tc_read ls (t_cap base) (mkTC k n) r s /\
      forall T, qs' `prefix_of` T ->
        (if st =? 0 then Some q' else None) = (fun l => D T l q) <$> r.
  Proof using Hread Heof Hstart Hmmap.
    intros Hk. destruct (decide (1 < t_cap base /\ t_cap base <= n)) as [Hc|Hc].
    - destruct (tread_capped b k n lt qs q (S fuel) Hc) as (q' & E).
      exists b, lt, qs, q', (mkTC k n), 1, None. rewrite E.
      split_and!; [done|done|done| |done]. unfold tc_read. cbn [tc_pos tc_cnt].
      by destruct (decide _).
    - destruct (decide (k = length ls)) as [->|Hne].
      + destruct (Heof b n lt qs q fuel Hc) as (q' & E).
        exists b, lt, qs, q', (mkTC (length ls) (n + 1)), 1, None. rewrite E.
        split_and!; [done|done|done| |done]. unfold tc_read. cbn [tc_pos tc_cnt].
        destruct (decide _); [done|]. split_and!; [|done|lia].
        symmetry. by apply lookup_ge_None_2.
      + assert (Hlt : (k < length ls)%nat) by lia.
        destruct (lookup_lt_is_Some_2 _ _ Hlt) as [l Hl].
        destruct (Hread b k n lt qs q l fuel Hl Hc) as (lt' & qs' & q' & E & Hpre & HD).
        exists b, lt', qs', q', (mkTC (S k) (n + 1)), 0, (Some l). rewrite E.
        split_and!; [done|cbn; lia|done| |].
        * unfold tc_read. cbn [tc_pos tc_cnt]. destruct (decide _); [done|]. split_and!; [done|done|lia].
        * intros T HT. cbn. by rewrite (HD T).
  Qed.

  Lemma top_step_cursor b k n lt qs o :
    (k <= length ls)%nat ->
    exists b' k' n' lt' qs' a,
      top_step tof hstr tp (st_at b k n lt qs) o = Ok (st_at b' k' n' lt' qs', a) /\
      (k' <= length ls)%nat /\ qs `prefix_of` qs' /\
      forall T, qs' `prefix_of` T ->
        tc_step (D T) (t_cap base) ls (mkTC k n) o a (mkTC k' n').
  Proof using All.
    intros Hk.
    assert (Hfu : exists m, t_fuel (st_at b k n lt qs) = S (S (S m))).
    { unfold t_fuel. eexists (3 * t_size (st_at b k n lt qs) + 2)%nat. lia. }
    destruct Hfu as [m Hfu].
    destruct o as [q|q|N| | | | |d]; cbn [top_step].
    - unfold read_txt. rewrite Hfu.
      destruct (tread_cursor b k n lt qs q (S m) Hk)
        as (b' & lt' & qs' & q' & s & st & r & E & Hk' & Hpre & Hr & HD).
      rewrite E. cbn [rbind]. destruct s as [k' n'].
      exists b', k', n', lt', qs', (TReq (if st =? 0 then Some q' else None)).
      split_and!; [done|done|done|]. intros T HT. cbn. exists r. split; [done|].
      by rewrite <-(HD T).
    - unfold read_txt_above. rewrite Hfu, tread_above_S.
      change (0 <? t_left (st_at b k n lt qs)) with false. cbn match.
      rewrite (tgo_back_two_bnd (st_at b k n lt qs) k) by (try done; cbn; congruence).
      cbn [rbind]. destruct (decide (2 <= k)%nat) as [H2|H2].
      + change (0 =? 0) with true. cbn [rbind].
        change (t_seek (st_at b k n lt qs) (bnd (k - 2))) with (st_at b (k - 2) n lt qs).
        destruct (tread_cursor b (k - 2) n lt qs q m)
          as (b' & lt' & qs' & q' & s & st & r & E & Hk' & Hpre & Hr & HD); [lia|].
        rewrite E. cbn [rbind]. destruct s as [k' n'].
        exists b', k', n', lt', qs', (TReq (if st =? 0 then Some q' else None)).
        split_and!; [done|done|done|]. intros T HT. cbn. exists true, (mkTC (k - 2) n).
        split; [unfold tc_back2; cbn; by rewrite bool_decide_true|].
        exists r. split; [done|]. by rewrite <-(HD T).
      + change (1 =? 0) with false. cbn [rbind].
        exists b, (k - 2)%nat, n, lt, qs, (TReq None).
        split_and!; [done|lia|done|]. intros T HT. cbn. exists false, (mkTC (k - 2) n).
        split; [unfold tc_back2; cbn; by rewrite bool_decide_false|done].
    - rewrite (tskip_bnd N (st_at b k n lt qs) k) by done.
      exists b, (k + Nat.min N (length ls - k))%nat, n, lt, qs, (TNum (Nat.min N (length ls - k))).
      split_and!; [done|lia|done|]. intros T HT. cbn.
      exists (Nat.min N (length ls - k)). split; [|done]. by split_and!.
    - rewrite (tgo_back_bnd (st_at b k n lt qs) k) by (try done; cbn; congruence).
      cbn [rbind].
      exists b, (k - 1)%nat, n, lt, qs, (TBool (bool_decide (1 <= k)%nat)).
      split_and!; [|lia|done|].
      + do 2 f_equal. destruct (decide (1 <= k)%nat); [by rewrite bool_decide_true|by rewrite bool_decide_false].
      + intros T HT. cbn. exists (bool_decide (1 <= k)%nat). split; [|done]. by split_and!.
    - rewrite (tgo_back_two_bnd (st_at b k n lt qs) k) by (try done; cbn; congruence).
      cbn [rbind].
      exists b, (k - 2)%nat, n, lt, qs, (TBool (bool_decide (2 <= k)%nat)).
      split_and!; [|lia|done|].
      + do 2 f_equal. destruct (decide (2 <= k)%nat); [by rewrite bool_decide_true|by rewrite bool_decide_false].
      + intros T HT. cbn. exists (bool_decide (2 <= k)%nat). split; [|done]. by split_and!.
    - rewrite Hreset. exists b, 0%nat, 0, lt, qs, TUnit. split_and!; [done|lia|done|done].
    - change (t_file (st_at b k n lt qs)) with (t_file base). rewrite Hfile.
      rewrite (Hsetup (t_quarks (st_at b k n lt qs))). cbn [rbind].
      exists true, 0%nat, 0, (-1), qs, TUnit. split_and!; [done|lia|done|done].
    - exists d, k, n, lt, qs, TUnit. split_and!; [done|done|done|done].
  Qed.

  Lemma top_run_cursor os b k n lt qs :
    (k <= length ls)%nat ->
    exists rd' l qs', top_run tof hstr tp (st_at b k n lt qs) os = Ok (rd', l) /\
      qs `prefix_of` qs' /\
      forall T, qs' `prefix_of` T -> tc_run (D T) (t_cap base) ls (mkTC k n) os l.
  Proof using All.
    revert b k n lt qs. induction os as [|o os IH]; intros b k n lt qs Hk.
    - exists (st_at b k n lt qs), [], qs. done.
    - destruct (top_step_cursor b k n lt qs o Hk)
        as (b' & k' & n' & lt' & qs' & a & E & Hk' & Hpre & HT).
      destruct (IH b' k' n' lt' qs' Hk') as (rd' & l & qs'' & E' & Hpre' & HT').
      exists rd', (a :: l), qs''. cbn [top_run]. rewrite E. cbn [rbind]. rewrite E'.
      split; [done|]. split; [by etransitivity|].
      intros T HTT. cbn. exists (mkTC k' n'). split; [|by apply HT'].
      apply HT. by etransitivity.
  Qed.
End cursor.
