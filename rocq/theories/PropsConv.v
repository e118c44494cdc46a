(** C43: converting a trace to the oracleGeneral format. *)
From stdpp Require Import gmap list numbers fin_maps fin_sets.
From Verif Require Import Base ModelReader SpecReader ReaderFacts PropsReader PropsLayout
  ModelConv SpecConv ConvFacts.
Open Scope Z_scope.

(** ** Object ids are 64-bit numbers *)

Definition bytes_ok (f : list Z) : Prop := Forall (fun b => 0 <= b < 256) f.

Lemma le_at_range f off n v :
  bytes_ok f -> le_at f off n = Ok v -> 0 <= v < 2 ^ (8 * Z.of_nat n).
Proof.
  intros Hb. revert off v. induction n as [|n IH]; intros off v E; cbn [le_at] in E.
  - injection E as <-. cbn. lia.
  - destruct (f !! off) as [b|] eqn:Eb; [|done].
    destruct (le_at f (S off) n) as [w|] eqn:Ew; [|done]. cbn [rbind] in E.
    injection E as <-. specialize (IH _ _ Ew).
    unfold bytes_ok in Hb. rewrite Forall_lookup in Hb. specialize (Hb _ _ Eb). cbn in Hb.
    replace (8 * Z.of_nat (S n)) with (8 + 8 * Z.of_nat n) by lia.
    rewrite Z.pow_add_r by lia. change (2 ^ 8) with 256. nia.
Qed.

Definition id_entry_ok (e : fieldrd) : Prop :=
  f_field e = F_ID ->
  forall v, 0 <= v < 2 ^ (8 * Z.of_nat (f_width e)) -> uint 64 (f_post e v).

Lemma dec_table_id t f off : bytes_ok f -> Forall id_entry_ok t ->
  forall q q', uint 64 (q_id q) -> dec_table t f off q = Ok q' -> uint 64 (q_id q').
Proof.
  intros Hb. induction 1 as [|e t He Ht IH]; intros q q' Hq E; cbn [dec_table] in E.
  - injection E as <-. done.
  - destruct (le_at f (off + f_off e) (f_width e)) as [v|] eqn:Ev; [|done]. cbn [rbind] in E.
    eapply IH; [|exact E]. unfold q_id, fget.
    destruct (decide (f_field e = F_ID)) as [Hf|Hf].
    + rewrite Hf, lookup_insert. cbn. apply He; [done|]. eapply le_at_range; done.
    + rewrite lookup_insert_ne by done. exact Hq.
Qed.

Lemma u64_uint v : uint 64 (u64 v).
Proof. unfold uint, u64. apply Z.mod_pos_bound. lia. Qed.

Lemma bin_field_id p fld idx conv :
  fld <> F_ID \/ conv = u64 -> Forall id_entry_ok (bin_field p fld idx conv).
Proof.
  intros H. unfold bin_field. destruct idx as [|k]; [apply Forall_nil_2|].
  destruct (b_fmt p !! k) as [c|]; [|apply Forall_nil_2].
  apply Forall_singleton. intros Hf v Hv. cbn [f_field f_post] in *.
  destruct H as [H| ->]; [done|]. apply u64_uint.
Qed.

Lemma table_id t : Forall id_entry_ok (table_of t).
Proof.
  destruct t; cbn [table_of];
    try (repeat (apply Forall_cons; split;
      [intros Hf v Hv; cbn in Hf, Hv |- *;
       first [discriminate Hf | unfold raw, uint in *; lia]|]); apply Forall_nil_2).
  unfold bin_table. rewrite !Forall_app.
  split_and!; apply bin_field_id; first [right; reflexivity | left; discriminate].
Qed.

Lemma chop_bytes_ok isz n f : bytes_ok f -> Forall bytes_ok (chop isz n f).
Proof.
  unfold bytes_ok. revert f. induction n as [|n IH]; intros f H; cbn; constructor.
  - apply Forall_take, H.
  - apply IH, Forall_drop, H.
Qed.

Lemma decoded_id t ignsz q r :
  bytes_ok r -> uint 64 (q_id q) -> uint 64 (q_id (decoded t ignsz q r)).
Proof.
  intros Hr Hq. unfold decoded.
  destruct (dec_table (table_of t) r 0 (prologue q)) as [q1|] eqn:E; [|done].
  assert (H1 : uint 64 (q_id q1)).
  { eapply dec_table_id; [exact Hr|apply table_id| |exact E].
    unfold q_id, fget. rewrite prologue_lookup.
    rewrite !decide_False by discriminate. exact Hq. }
  destruct ignsz; [|done]. unfold q_id, fget.
  rewrite lookup_insert_ne by discriminate. exact H1.
Qed.

Lemma stored_same t : t <> T_IQQ -> stored_type t = t.
Proof. destruct t; done. Qed.

Lemma conv_all_cons q l :
  conv_all (q :: l) = conv_body (og_init (mkOg 0 0 0 0) q) q (conv_all l).
Proof. reflexivity. Qed.

Lemma new_req_id : uint 64 (q_id new_req).
Proof. change (q_id new_req) with 0. unfold uint. lia. Qed.

(** ** The conversion reads the whole trace, last request first *)

Section conversion.
  Context (h : Z -> Z) (t : ttype) (n : nat) (file : list Z) (cap : Z)
          (ign0 ignsz : bool).
  Context (Ht : t <> T_IQQ) (Hok : trace_ok t 0 ign0 (S n) file) (Hcap : cap <= 1)
          (Hsk : skip_of t <> SkSize0Any \/ ign0 = false).
  Let rs := chop (item_size t) (S n) file.
  Let R := rel t (S n) file 0 cap ign0 ignsz None.
  Let dec := decoded t ignsz new_req.

  Local Lemma Hst : stored_type t = t.
  Proof using Ht. apply stored_same, Ht. Qed.

  Local Lemma rs_len : length rs = S n.
  Proof using Type. apply chop_length. Qed.

  Local Lemma rs_rec p r : rs !! p = Some r -> length r = item_size t.
  Proof using Hok.
    intros H. assert (F : Forall (fun r => length r = item_size t) rs).
    { apply chop_full. destruct Hok as (_ & Hl & _). lia. }
    rewrite Forall_lookup in F. exact (F _ _ H).
  Qed.

  Local Lemma read_at rd s p q r :
    R rd s -> c_fwd s = false -> c_pos s = p -> rs !! p = Some r -> agree t ignsz q new_req ->
    exists rd' s', read_one_req h rd q = Ok (rd', dec r, 0) /\ R rd' s' /\
      c_fwd s' = false /\ c_pos s' = S p /\ agree t ignsz (dec r) new_req.
  Proof using Ht Hok Hcap Hsk.
    intros HR Hfw Hp Hr Ha. assert (Hlr := rs_rec p r Hr).
    destruct (rel_read t (S n) file 0 cap ign0 ignsz None rd s q HR)
      as (rd' & q' & st & s' & x & E & HR' & (C1 & C2 & C3) & Hst01 & Ea & _).
    rewrite drop_0 in C2, C3. fold rs in C2, C3. rewrite rs_len, Hp, Hfw in *.
    assert (Hpn : (p < S n)%nat).
    { rewrite <- rs_len. apply lookup_lt_Some in Hr. done. }
    destruct C3 as [C3 C4]. { split; [lia|]. unfold capped. lia. }
    rewrite (drop_S _ _ _ Hr) in C4. cbn [first_kept] in C4.
    rewrite (kept_back t ign0 q r Hsk ltac:(lia) Hst) in C4. destruct C4 as [-> C4].
    cbn in Ea. destruct (Z.eqb_spec st 0) as [->|N]; [|discriminate].
    injection Ea as ->.
    rewrite (decoded_agree t ignsz Hst new_req q r Ha Hlr) in E.
    exists rd', s'. unfold read_one_req. rewrite (rl_samp _ _ _ _ _ _ _ _ _ _ HR).
    split_and!; [exact E|exact HR'|done|lia|].
    unfold dec. rewrite (decoded_dlv t (item_size t)) by (apply (tfit t Hst) || lia).
    eapply dlv_agree; [apply (tfit t Hst)|lia].
  Qed.

  Local Lemma conv_loop_all : forall m rd s q l fuel,
    R rd s -> c_fwd s = false -> c_pos s = S m -> (S m <= S n)%nat ->
    agree t ignsz q new_req -> rs !! m = Some l -> q = dec l ->
    (m < fuel)%nat ->
    exists rd' q', conv_loop h fuel (Z.of_nat (S n)) rd q
        (conv_all (map dec (drop (S m) rs)))
      = Ok (rd', q', conv_all (map dec rs)) /\ rd_samp rd' = None.
  Proof using Ht Hok Hcap Hsk.
    induction m as [|m IH]; intros rd s q l fuel HR Hfw Hp Hm Ha Hl Hq Hf;
      (destruct fuel as [|fuel]; [lia|]); cbn [conv_loop]; rewrite <- conv_all_cons.
    - assert (E0 : q :: map dec (drop 1 rs) = map dec rs).
      { rewrite <- (drop_0 rs) at 2. rewrite (drop_S _ _ _ Hl). cbn. rewrite Hq. done. }
      rewrite E0.
      destruct (conv_state (map dec rs)) as (_ & Hreq & _).
      rewrite Hreq, map_length, rs_len.
      destruct (Z.ltb_spec (Z.of_nat (S n) * 2) (Z.of_nat (S n))); [lia|].
      destruct (rel_back2 t (S n) file 0 cap ign0 ignsz None rd s HR)
        as (rd1 & st1 & s1 & b & E1 & H1 & (B1 & B2 & B3 & B4) & Hb).
      rewrite Hp in B3. subst b.
      change (bool_decide (2 <= 1)%nat) with false in Hb.
      unfold read_one_req_above. rewrite E1, Hb. cbn [rbind].
      eexists _, _. split; [reflexivity|]. apply (rl_samp _ _ _ _ _ _ _ _ _ _ H1).
    - assert (E0 : q :: map dec (drop (S (S m)) rs) = map dec (drop (S m) rs)).
      { rewrite (drop_S rs l (S m) Hl). cbn [map]. rewrite Hq. done. }
      rewrite E0.
      destruct (conv_state (map dec (drop (S m) rs))) as (_ & Hreq & _).
      rewrite Hreq, map_length, drop_length, rs_len.
      destruct (Z.ltb_spec (Z.of_nat (S n) * 2) (Z.of_nat (S n - S m))); [lia|].
      destruct (rel_back2 t (S n) file 0 cap ign0 ignsz None rd s HR)
        as (rd1 & st1 & s1 & b & E1 & H1 & (B1 & B2 & B3 & B4) & Hb).
      rewrite Hp in B3. subst b.
      rewrite (bool_decide_eq_true_2 (2 <= S (S m))%nat) in Hb by lia.
      unfold read_one_req_above. rewrite E1, Hb.
      destruct (lookup_lt_is_Some_2 rs m) as [r Hr]; [rewrite rs_len; lia|].
      destruct (read_at rd1 s1 m q r H1 ltac:(congruence) ltac:(lia) Hr Ha)
        as (rd2 & s2 & E2 & H2 & F2 & P2 & A2).
      rewrite E2. cbn [rbind]. cbn [Z.eqb].
      destruct (IH rd2 s2 (dec r) r fuel H2 F2 P2 ltac:(lia) A2 Hr eq_refl ltac:(lia))
        as (rd' & q' & E & Hs).
      rewrite E. eexists _, _. done.
  Qed.

  (** The output file, for any LCS header [hd]. *)
  Definition conv_out (rsc : bool) : list og :=
    let l := map dec rs in
    map (fin (Z.of_nat (length l)) rsc (back_recs l)) (back_recs l).

  Lemma convert_ok freed rsc lcs hd :
    bytes_ok file -> Z.of_nat (S n) < 2 ^ 63 ->
    (exists v, freed = Ok v) ->
    match lcs with
    | None => hd = []
    | Some g =>
        let st := cv_stat (conv_all (map dec rs)) in
        hd = lcs_header g st /\ exists fmt, verify_lcs (lcs_header g st) = Ok fmt
    end ->
    convert h freed (setup_reader t file 0 cap ign0 ignsz None) rsc lcs
    = Ok (hd ++ concat (map og_bytes (conv_out rsc)), cv_stat (conv_all (map dec rs))).
  Proof using Ht Hok Hcap Hsk.
    intros Hb Hn [v ->] Hlcs.
    assert (H0 := rel_setup t (S n) file 0 cap ign0 ignsz None Hst Hok).
    change (set_samp (setup_reader t file 0 cap ign0 ignsz None) None)
      with (setup_reader t file 0 cap ign0 ignsz None) in H0.
    destruct (rel_step h t (S n) file 0 cap ign0 ignsz None Hst Hok _ _ (OpDir false) eq_refl H0 I)
      as (rd1 & a1 & s1 & E1 & H1 & -> & ->).
    assert (Hsk1 : rop_ok 0 (OpSeek 1 1)) by (cbn; lia).
    destruct (rel_step h t (S n) file 0 cap ign0 ignsz None Hst Hok _ _ (OpSeek 1 1) eq_refl H1 Hsk1)
      as (rd2 & a2 & s2 & E2 & H2 & -> & ->).
    rewrite drop_0 in H2. fold rs in H2. rewrite rs_len in H2.
    replace (S n * 1 / 1)%nat with (S n) in H2 by (rewrite Nat.mul_1_r, Nat.div_1_r; done).
    cbn [rop_step] in E1, E2. injection E1 as <-. injection E2 as <-.
    destruct (rel_back t (S n) file 0 cap ign0 ignsz None _ _ H2)
      as (rd3 & st3 & s3 & b & E3 & H3 & (B1 & B2 & B3) & _).
    cbn [c_pos c_fwd] in B2, B3. destruct B3 as [_ B3].
    destruct (lookup_lt_is_Some_2 rs n) as [r Hr]; [rewrite rs_len; lia|].
    destruct (read_at rd3 s3 n new_req r H3 B2 B3 Hr (agree_refl _ _ _))
      as (rd4 & s4 & E4 & H4 & F4 & P4 & A4).
    assert (Htot : n_total_req (setup_reader t file 0 cap ign0 ignsz None) = S n).
    { unfold n_total_req, file_size. cbn [setup_reader rd_file rd_start rd_isz].
      destruct Hok as (Hz & Hl & _). rewrite Hl.
      replace (0 + S n * item_size t - 0)%nat with (S n * item_size t)%nat by lia.
      apply Nat.div_mul. lia. }
    assert (Hfs : (n < S (S (file_size (setup_reader t file 0 cap ign0 ignsz None))))%nat).
    { unfold file_size. cbn [setup_reader rd_file]. destruct Hok as (Hz & Hl & _). rewrite Hl. nia. }
    destruct (conv_loop_all n rd4 s4 (dec r) r _ H4 F4 P4 ltac:(lia) A4 Hr eq_refl Hfs)
      as (rd5 & q5 & E5 & S5).
    rewrite (drop_ge rs (S n)) in E5 by (rewrite rs_len; lia). cbn [map] in E5.
    change (conv_all []) with cst_init in E5.
    unfold convert. rewrite Htot, E3, E4. cbn [rbind]. rewrite E5. cbn [rbind].
    rewrite S5. destruct (conv_state (map dec rs)) as (Hout & Hreq & _).
    assert (Hlen : length (map dec rs) = S n) by (rewrite map_length; apply rs_len).
    rewrite Hlen in Hreq. rewrite Hreq. rewrite Z.eqb_refl. cbn [andb negb rbind].
    assert (Ehd : (match lcs with
      | None => Ok []
      | Some g => let! _ := verify_lcs (lcs_header g (cv_stat (conv_all (map dec rs)))) in
                  Ok (lcs_header g (cv_stat (conv_all (map dec rs))))
      end) = Ok hd).
    { destruct lcs as [g|]; [|rewrite Hlcs; done].
      destruct Hlcs as (-> & fmt & ->). done. }
    rewrite Ehd. cbn [rbind]. rewrite Hout.
    assert (Hwf : Forall og_wf ([] ++ back_recs (map dec rs))).
    { cbn [app]. apply back_recs_wf; [|rewrite Hlen; done].
      assert (Hbr := chop_bytes_ok (item_size t) (S n) file Hb). fold rs in Hbr.
      apply Forall_forall. intros q Hq. apply elem_of_list_fmap in Hq as (r' & -> & Hr').
      apply decoded_id; [|apply new_req_id].
      rewrite Forall_forall in Hbr. apply Hbr. done. }
    assert (HS := rev_loop_spec (cv_stat (conv_all (map dec rs))) rsc (back_recs (map dec rs)) []
      (S (length (concat (map og_bytes (rev (back_recs (map dec rs))))))) ∅ 0 hd Hwf).
    rewrite og_concat_length, rev_length in HS |- *. cbn [app] in HS.
    rewrite HS; [|unfold og_size; lia|intros _ x; rewrite lookup_empty; done].
    cbn [rbind]. rewrite back_recs_length, Hlen, Hreq.
    rewrite (proj2 (Z.eqb_eq _ _)) by lia. cbn [negb].
    unfold conv_out. rewrite Hlen. done.
  Qed.
End conversion.

(** ** Reading the output *)

Lemma chop_concat (ls : list (list Z)) isz :
  Forall (fun x => length x = isz) ls -> chop isz (length ls) (concat ls) = ls.
Proof.
  induction 1 as [|x ls Hx H IH]; [done|]. cbn [length chop concat].
  rewrite <- Hx, take_app, drop_app, Hx, IH. done.
Qed.

Lemma og_bytes_all gs : Forall (fun x => length x = og_size) (map og_bytes gs).
Proof.
  apply Forall_forall. intros x Hx. apply elem_of_list_fmap in Hx as (g & -> & _).
  apply og_bytes_length.
Qed.

Lemma decoded_og q g :
  og_wf g ->
  let o := decoded T_OGEN false q (og_bytes g) in
  fget o F_TIME = g_time g /\ fget o F_ID = g_id g /\ fget o F_SIZE = g_size g /\
  fget o F_NEXT = next_val (g_next g).
Proof.
  intros (H1 & H2 & H3 & H4).
  destruct (C30_oracleGeneral (g_time g) (g_id g) (g_size g) (g_next g) H1 H2 H3 H4) as [_ D].
  destruct (D [] [] (prologue q)) as (q' & E & F & _). rewrite app_nil_r in E.
  cbn [app length] in E. unfold decoded.
  change (table_of (stored_type T_OGEN)) with (table_of T_OGEN) in E.
  change (enc_oracleGeneral (g_time g) (g_id g) (g_size g) (g_next g)) with (og_bytes g) in E.
  rewrite E. unfold fget.
  apply Forall_cons in F as [F1 F]. apply Forall_cons in F as [F2 F].
  apply Forall_cons in F as [F3 F]. apply Forall_cons in F as [F4 F].
  cbn [fst snd] in F1, F2, F3, F4. rewrite F1, F2, F3, F4. done.
Qed.

Lemma fin_wf l rsc g :
  Forall (fun q => uint 64 (q_id q)) l -> Z.of_nat (length l) < 2 ^ 63 ->
  g ∈ back_recs l -> og_wf (fin (Z.of_nat (length l)) rsc (back_recs l) g).
Proof.
  intros Hid Hn Hg. assert (Hwf := back_recs_wf l Hid Hn).
  rewrite Forall_forall in Hwf. destruct (Hwf g Hg) as (W1 & W2 & W3 & W4).
  unfold og_wf. cbn [fin g_time g_id g_size g_next]. split_and!; try done.
  - destruct rsc; [|done]. unfold first_sz.
    destruct (list_find _ (back_recs l)) as [[k y]|] eqn:E; [|done].
    apply list_find_Some in E as (E1 & _).
    apply (Hwf y). apply elem_of_list_lookup. by exists k.
  - apply elem_of_list_lookup in Hg as [i Hi].
    assert (Hil := lookup_lt_Some _ _ _ Hi). rewrite back_recs_length in Hil.
    destruct (lookup_lt_is_Some_2 l i Hil) as [q Hq].
    rewrite (back_recs_lookup _ _ _ Hq) in Hi. injection Hi as <-. cbn [g_next].
    destruct (back_next_ref l i q Hq) as (x & _ & [(j & J1 & J2 & _ & J3)|[_ J3]]);
      cbv zeta in J3; rewrite J3; unfold sint; [|lia].
    apply lookup_lt_Some in J2. rewrite map_length in J2. lia.
Qed.

(** The claim, for one converted request [o] of the original requests [reqs]:
    [r] is request number [i] of [reqs]. *)
Definition converted (rsc : bool) (reqs : list treq) (i : nat) (r o : treq) (never : Z) : Prop :=
  let ids := map (fun q => fget q F_ID) reqs in
  let sizes := map (fun q => fget q F_SIZE) reqs in
  fget o F_TIME = fget r F_TIME mod 2 ^ 32 /\
  fget o F_ID = fget r F_ID /\
  (exists s, (if rsc then first_size ids sizes (fget r F_ID) s else s = fget r F_SIZE) /\
             fget o F_SIZE = s mod 2 ^ 32) /\
  exists nx, next_ref ids i nx /\
             fget o F_NEXT = if decide (nx = -1) then never else nx.

(** The statistics of the trace. *)
Definition stat_ok (reqs : list treq) (st : tstat) : Prop :=
  st_req st = Z.of_nat (length reqs) /\
  st_obj st = Z.of_nat (size (list_to_set (map (fun q => fget q F_ID) reqs) : gset Z)) /\
  st_req_byte st = sum_z (map (fun q => fget q F_SIZE) reqs) /\
  st_obj_byte st = last_sizes (map (fun q => (fget q F_ID, fget q F_SIZE)) reqs).

Lemma conv_record (reqs : list treq) rsc i r g :
  reqs !! i = Some r -> back_recs reqs !! i = Some g ->
  let f := fin (Z.of_nat (length reqs)) rsc (back_recs reqs) g in
  g_time f = fget r F_TIME mod 2 ^ 32 /\ g_id f = fget r F_ID /\
  (exists s, (if rsc then first_size (map q_id reqs) (map (fun q => fget q F_SIZE) reqs)
                            (fget r F_ID) s else s = fget r F_SIZE) /\
             g_size f = s mod 2 ^ 32) /\
  next_ref (map q_id reqs) i (g_next f).
Proof.
  intros Hr Hg. rewrite (back_recs_lookup _ _ _ Hr) in Hg. injection Hg as <-.
  cbn [fin g_time g_id g_size g_next]. split_and!; try done.
  - destruct rsc.
    + assert (Hin : q_id r ∈ map q_id reqs).
      { apply elem_of_list_fmap. exists r. split; [done|]. apply elem_of_list_lookup. by exists i. }
      destruct (first_sz_spec reqs (mkOg (u32 (fget r F_TIME)) (q_id r) (u32 (fget r F_SIZE))
                  (back_next (drop (S i) reqs) r)) Hin) as (s & S1 & S2).
      exists s. split; [exact S1|exact S2].
    + exists (fget r F_SIZE). done.
  - exact (back_next_ref reqs i r Hr).
Qed.

(** C43 for binary traces that start at offset 0, are read without a sampler
    and a limit, and whose reader does not skip zero-size requests when reading
    backward (wikiBin.h; see C43_wiki_refuted).  The original requests [reqs]
    are those that C29 says a reader delivers.  Reading freed memory is taken
    to return some value [v] (C43_freed_refuted). *)
Theorem C43_partial h t n file cap ign0 ignsz v rsc q fuel :
  t <> T_IQQ -> bytes_ok file -> trace_ok t 0 ign0 (S n) file -> cap <= 1 ->
  skip_of t <> SkSize0Any \/ ign0 = false ->
  Z.of_nat (S n) < 2 ^ 63 -> (S n < fuel)%nat ->
  let reqs := map (decoded t ignsz new_req) (chop (item_size t) (S n) file) in
  exists out st l rd' q',
    convert h (Ok v) (setup_reader t file 0 cap ign0 ignsz None) rsc None = Ok (out, st) /\
    read_all h fuel (setup_reader T_OGEN out 0 (-1) false false None) q = Ok (l, rd', q') /\
    length l = S n /\
    (forall i r, reqs !! i = Some r ->
       exists o, l !! i = Some o /\ converted rsc reqs i r o (2 ^ 63 - 1)) /\
    stat_ok reqs st.
Proof.
  intros Ht Hb Hok Hcap Hsk Hn Hfuel reqs.
  assert (HC := convert_ok h t n file cap ign0 ignsz Ht Hok Hcap Hsk (Ok v) rsc None [] Hb Hn
                  ltac:(by exists v) eq_refl).
  cbn [app] in HC. set (gs := conv_out t n file ignsz rsc) in HC.
  assert (Hlr : length reqs = S n) by (unfold reqs; rewrite map_length; apply chop_length).
  assert (Hgl : length gs = S n).
  { unfold gs, conv_out. rewrite map_length, back_recs_length. exact Hlr. }
  assert (Hids : Forall (fun q => uint 64 (q_id q)) reqs).
  { apply Forall_forall. intros x Hx. apply elem_of_list_fmap in Hx as (r' & -> & Hr').
    apply decoded_id; [|apply new_req_id].
    assert (Hbr := chop_bytes_ok (item_size t) (S n) file Hb).
    rewrite Forall_forall in Hbr. apply Hbr. done. }
  set (out := concat (map og_bytes gs)) in HC.
  assert (Hol : length out = (0 + S n * item_size T_OGEN)%nat).
  { unfold out. rewrite og_concat_length, Hgl. cbn [item_size]. unfold og_size. lia. }
  assert (Hok2 : trace_ok T_OGEN 0 false (S n) out).
  { unfold trace_ok. split_and!; [cbn; lia|exact Hol|done|intros [?|?]; done]. }
  destruct (C29_read_all h T_OGEN (S n) out 0 (-1) false false q fuel ltac:(done) Hok2 Hfuel)
    as (rd' & q' & ER).
  assert (Ech : chop (item_size T_OGEN) (S n) (drop 0 out) = map og_bytes gs).
  { rewrite drop_0. rewrite <- Hgl, <- (map_length og_bytes gs). unfold out.
    apply chop_concat. exact (og_bytes_all gs). }
  rewrite Ech in ER.
  assert (Ev : visible T_OGEN false false (-1) q (map og_bytes gs)
               = map (fun g => decoded T_OGEN false q (og_bytes g)) gs).
  { unfold visible. change (1 <? -1) with false. cbv iota.
    assert (Hf : List.filter (kept T_OGEN false true q) (map og_bytes gs) = map og_bytes gs).
    { clear -gs. induction gs as [|g gs' IH]; [done|]. cbn [map List.filter].
      assert (Hk : kept T_OGEN false true q (og_bytes g) = true).
      { unfold kept. rewrite (wr_dec T_OGEN (item_size T_OGEN)).
        - unfold skipb. cbn [skip_of]. rewrite ?andb_false_r. done.
        - exact (table_fits T_OGEN).
        - rewrite og_bytes_length. done. }
      rewrite Hk, IH. done. }
    rewrite Hf, map_map. done. }
  rewrite Ev in ER.
  eexists out, _, _, rd', q'. split; [exact HC|]. split; [exact ER|].
  split; [rewrite map_length; exact Hgl|].
  split.
  - intros i r Hr.
    assert (Hi := lookup_lt_Some _ _ _ Hr). rewrite Hlr in Hi.
    destruct (lookup_lt_is_Some_2 (back_recs reqs) i) as [g Hg];
      [rewrite back_recs_length; lia|].
    set (f := fin (Z.of_nat (length reqs)) rsc (back_recs reqs) g).
    assert (Hfg : gs !! i = Some f).
    { unfold gs, conv_out. rewrite list_lookup_fmap. fold reqs. rewrite Hg. done. }
    exists (decoded T_OGEN false q (og_bytes f)). split.
    { rewrite list_lookup_fmap, Hfg. done. }
    assert (Hwf : og_wf f).
    { apply fin_wf; [exact Hids|rewrite Hlr; exact Hn|]. apply elem_of_list_lookup. by exists i. }
    destruct (decoded_og q f Hwf) as (D1 & D2 & D3 & D4).
    destruct (conv_record reqs rsc i r g Hr Hg) as (C1 & C2 & (s & C3 & C3') & C4). fold f in C1, C2, C3', C4.
    unfold converted. rewrite D1, D2, D3, D4. split_and!; try done.
    + exists s. done.
    + exists (g_next f). split; [exact C4|]. done.
  - destruct (conv_state reqs) as (_ & S1 & S2 & S3 & S4).
    unfold stat_ok. split_and!; [exact S1|exact S2|exact S3|exact S4].
Qed.

(** ** The LCS format

    The same records behind an LCS header.  The header is a local struct of
    which _reverse_file assigns only some members; the theorem covers the case
    that the rest of it happens to be zero (see C43_lcs_stack_refuted). *)
Definition lcs_type : ttype := T_BIN (mkBin [BI; BQ; BI; BQ] 2 1 3 0 0 4).

Definition zero_stack : list Z := replicate 1024 0.

Lemma eight (l : list Z) :
  length l = 8%nat -> exists a b c d e f g h, l = [a; b; c; d; e; f; g; h].
Proof. do 8 (destruct l as [|? l]; [discriminate|]). destruct l; [|discriminate]. eauto 10. Qed.

Lemma lcs_header_ok st body :
  verify_lcs (lcs_header zero_stack st ++ body) = Ok [BI; BQ; BI; BQ] /\
  lcs_setup (lcs_header zero_stack st ++ body) = Ok (lcs_type, 1024%nat).
Proof.
  unfold lcs_header.
  destruct (eight _ (le_bytes_length 8 (st_req st))) as (a1 & a2 & a3 & a4 & a5 & a6 & a7 & a8 & ->).
  destruct (eight _ (le_bytes_length 8 (st_obj st))) as (b1 & b2 & b3 & b4 & b5 & b6 & b7 & b8 & ->).
  destruct (eight _ (le_bytes_length 8 (st_req_byte st))) as (c1 & c2 & c3 & c4 & c5 & c6 & c7 & c8 & ->).
  destruct (eight _ (le_bytes_length 8 (st_obj_byte st))) as (d1 & d2 & d3 & d4 & d5 & d6 & d7 & d8 & ->).
  split; vm_compute; reflexivity.
Qed.

(** The statistics of the header, at the offsets of n_req, n_obj, n_req_byte and
    n_obj_byte in lcs_trace_header_t (lcs.h:15-57). *)
Definition header_says (f : list Z) (st : tstat) : Prop :=
  le_at f 488 8 = Ok (u64 (st_req st)) /\ le_at f 496 8 = Ok (u64 (st_obj st)) /\
  le_at f 504 8 = Ok (u64 (st_req_byte st)) /\ le_at f 512 8 = Ok (u64 (st_obj_byte st)).

Lemma lcs_header_says st body : header_says (lcs_header zero_stack st ++ body) st.
Proof.
  assert (H : forall x, le_at (le_bytes 8 x) 0 8 = Ok (u64 x)).
  { intros x. rewrite <- (app_nil_r (le_bytes 8 x)), le_at_bytes. done. }
  unfold header_says. rewrite <- !H. unfold lcs_header.
  destruct (eight _ (le_bytes_length 8 (st_req st))) as (a1 & a2 & a3 & a4 & a5 & a6 & a7 & a8 & ->).
  destruct (eight _ (le_bytes_length 8 (st_obj st))) as (b1 & b2 & b3 & b4 & b5 & b6 & b7 & b8 & ->).
  destruct (eight _ (le_bytes_length 8 (st_req_byte st))) as (c1 & c2 & c3 & c4 & c5 & c6 & c7 & c8 & ->).
  destruct (eight _ (le_bytes_length 8 (st_obj_byte st))) as (d1 & d2 & d3 & d4 & d5 & d6 & d7 & d8 & ->).
  split_and!; vm_compute; reflexivity.
Qed.

Lemma lcs_header_length st : length (lcs_header zero_stack st) = 1024%nat.
Proof. unfold lcs_header. rewrite !app_length, !le_bytes_length. vm_compute. reflexivity. Qed.

Lemma decoded_lcs q g :
  og_wf g -> g_time g < 2 ^ 31 -> g_size g < 2 ^ 31 ->
  let o := decoded lcs_type false q (og_bytes g) in
  fget o F_TIME = g_time g /\ fget o F_ID = g_id g /\ fget o F_SIZE = g_size g /\
  fget o F_NEXT = g_next g.
Proof.
  intros (H1 & H2 & H3 & H4) Ht Hs.
  destruct (C30_binary_partial (mkBin [BI; BQ; BI; BQ] 2 1 3 0 0 4)
              [g_time g; g_id g; g_size g; g_next g]) as [_ D]; try (cbn; lia).
  destruct (D [] [] (prologue q)) as (q' & E & D1 & D2 & D3 & _ & D5 & _).
  rewrite app_nil_r in E. cbn [app length] in E. unfold decoded.
  assert (Eb : enc_binary (b_fmt (mkBin [BI; BQ; BI; BQ] 2 1 3 0 0 4))
                 [g_time g; g_id g; g_size g; g_next g] = og_bytes g).
  { unfold enc_binary, og_bytes. cbn [b_fmt zip_with concat format_to_size].
    rewrite app_nil_r. done. }
  rewrite Eb in E. change (table_of (stored_type _)) with (table_of lcs_type) in E.
  rewrite E. unfold fget, uint in *.
  rewrite (D1 1%nat (g_id g) eq_refl eq_refl) by (right; split; [done|exact H2]).
  rewrite (D2 0%nat (g_time g) eq_refl eq_refl)
    by (change (bits_of _ 0) with 32; unfold sint; lia).
  rewrite (D3 2%nat (g_size g) eq_refl eq_refl)
    by (change (bits_of _ 2) with 32; unfold sint; lia).
  rewrite (D5 3%nat (g_next g) eq_refl eq_refl) by (change (bits_of _ 3) with 64; done).
  done.
Qed.

Theorem C43_lcs_partial h t n file cap ign0 ignsz v rsc q fuel :
  t <> T_IQQ -> bytes_ok file -> trace_ok t 0 ign0 (S n) file -> cap <= 1 ->
  skip_of t <> SkSize0Any \/ ign0 = false ->
  Z.of_nat (S n) < 2 ^ 63 -> (S n < fuel)%nat ->
  let reqs := map (decoded t ignsz new_req) (chop (item_size t) (S n) file) in
  Forall (fun r => 0 <= fget r F_TIME < 2 ^ 31 /\ 0 <= fget r F_SIZE < 2 ^ 31) reqs ->
  exists out st t' start l rd' q',
    convert h (Ok v) (setup_reader t file 0 cap ign0 ignsz None) rsc (Some zero_stack)
      = Ok (out, st) /\
    lcs_setup out = Ok (t', start) /\
    read_all h fuel (setup_reader t' out start (-1) false false None) q = Ok (l, rd', q') /\
    length l = S n /\
    (forall i r, reqs !! i = Some r ->
       exists o, l !! i = Some o /\ converted rsc reqs i r o (-1)) /\
    stat_ok reqs st /\ header_says out st.
Proof.
  intros Ht Hb Hok Hcap Hsk Hn Hfuel reqs Hsmall.
  set (st := cv_stat (conv_all reqs)).
  set (hd := lcs_header zero_stack st).
  assert (HC := convert_ok h t n file cap ign0 ignsz Ht Hok Hcap Hsk (Ok v) rsc
                  (Some zero_stack) hd Hb Hn ltac:(by exists v)).
  cbv zeta in HC. change (map (decoded t ignsz new_req) (chop (item_size t) (S n) file)) with reqs in HC.
  fold st in HC. specialize (HC (conj eq_refl
    (ex_intro _ _ (eq_trans (f_equal verify_lcs (eq_sym (app_nil_r hd))) (proj1 (lcs_header_ok st [])))))).
  set (gs := conv_out t n file ignsz rsc) in HC.
  assert (Hlr : length reqs = S n) by (unfold reqs; rewrite map_length; apply chop_length).
  assert (Hgl : length gs = S n).
  { unfold gs, conv_out. rewrite map_length, back_recs_length. exact Hlr. }
  assert (Hids : Forall (fun q => uint 64 (q_id q)) reqs).
  { apply Forall_forall. intros x Hx. apply elem_of_list_fmap in Hx as (r' & -> & Hr').
    apply decoded_id; [|apply new_req_id].
    assert (Hbr := chop_bytes_ok (item_size t) (S n) file Hb).
    rewrite Forall_forall in Hbr. apply Hbr. done. }
  set (out := hd ++ concat (map og_bytes gs)) in HC.
  assert (Hhl : length hd = 1024%nat) by apply lcs_header_length.
  assert (Hol : length out = (1024 + S n * item_size lcs_type)%nat).
  { unfold out. rewrite app_length, og_concat_length, Hgl, Hhl.
    change (item_size lcs_type) with 24%nat. unfold og_size. lia. }
  assert (Hok2 : trace_ok lcs_type 1024 false (S n) out).
  { unfold trace_ok. split_and!; [cbn; lia|exact Hol|done|intros [?|?]; done]. }
  destruct (C29_read_all h lcs_type (S n) out 1024 (-1) false false q fuel ltac:(done) Hok2 Hfuel)
    as (rd' & q' & ER).
  assert (Ech : chop (item_size lcs_type) (S n) (drop 1024 out) = map og_bytes gs).
  { unfold out. rewrite <- Hhl, drop_app. rewrite <- Hgl, <- (map_length og_bytes gs).
    apply chop_concat. exact (og_bytes_all gs). }
  rewrite Ech in ER.
  assert (Ev : visible lcs_type false false (-1) q (map og_bytes gs)
               = map (fun g => decoded lcs_type false q (og_bytes g)) gs).
  { unfold visible. change (1 <? -1) with false. cbv iota.
    assert (Hf : List.filter (kept lcs_type false true q) (map og_bytes gs) = map og_bytes gs).
    { clear -gs. induction gs as [|g gs' IH]; [done|]. cbn [map List.filter].
      assert (Hk : kept lcs_type false true q (og_bytes g) = true).
      { unfold kept. rewrite (wr_dec lcs_type (item_size lcs_type)).
        - unfold skipb. cbn [skip_of]. rewrite ?andb_false_r. done.
        - exact (table_fits lcs_type).
        - rewrite og_bytes_length. done. }
      rewrite Hk, IH. done. }
    rewrite Hf, map_map. done. }
  rewrite Ev in ER.
  exists out, st, lcs_type, 1024%nat. eexists _, rd', q'. split; [exact HC|].
  split; [apply (lcs_header_ok st)|]. split; [exact ER|].
  split; [rewrite map_length; exact Hgl|].
  split.
  - intros i r Hr.
    assert (Hi := lookup_lt_Some _ _ _ Hr). rewrite Hlr in Hi.
    destruct (lookup_lt_is_Some_2 (back_recs reqs) i) as [g Hg];
      [rewrite back_recs_length; lia|].
    set (f := fin (Z.of_nat (length reqs)) rsc (back_recs reqs) g).
    assert (Hfg : gs !! i = Some f).
    { unfold gs, conv_out. rewrite list_lookup_fmap. fold reqs. rewrite Hg. done. }
    exists (decoded lcs_type false q (og_bytes f)). split.
    { rewrite list_lookup_fmap, Hfg. done. }
    assert (Hwf : og_wf f).
    { apply fin_wf; [exact Hids|rewrite Hlr; exact Hn|]. apply elem_of_list_lookup. by exists i. }
    destruct (conv_record reqs rsc i r g Hr Hg) as (C1 & C2 & (s & C3 & C3') & C4). fold f in C1, C2, C3', C4.
    rewrite Forall_lookup in Hsmall.
    assert (Hs31 : 0 <= s < 2 ^ 31).
    { destruct rsc; [|rewrite C3; apply (Hsmall _ _ Hr)].
      destruct C3 as (j & _ & J2 & _). rewrite list_lookup_fmap in J2.
      destruct (reqs !! j) as [rj|] eqn:Ej; [|done]. cbn in J2. injection J2 as <-.
      apply (Hsmall _ _ Ej). }
    assert (Ht31 : g_time f < 2 ^ 31).
    { rewrite C1, Z.mod_small; [apply (Hsmall _ _ Hr)|]. destruct (Hsmall _ _ Hr). lia. }
    assert (Hz31 : g_size f < 2 ^ 31) by (rewrite C3', Z.mod_small; lia).
    destruct (decoded_lcs q f Hwf Ht31 Hz31) as (D1 & D2 & D3 & D4).
    unfold converted. rewrite D1, D2, D3, D4. split_and!; try done.
    + exists s. done.
    + exists (g_next f). split; [exact C4|].
      destruct (decide (g_next f = -1)) as [->|]; done.
  - destruct (conv_state reqs) as (_ & S1 & S2 & S3 & S4).
    unfold stat_ok. split_and!; [exact S1|exact S2|exact S3|exact S4|apply (lcs_header_says st)].
Qed.

(** ** A concrete conversion: five requests for three objects *)

Definition ex_rec (time id size : Z) : list Z :=
  le_bytes 4 time ++ le_bytes 8 id ++ le_bytes 4 size.

Definition ex_conv : list Z :=
  ex_rec 10 7 100 ++ ex_rec 11 8 50 ++ ex_rec 12 7 120 ++ ex_rec 13 9 30 ++ ex_rec 14 8 50.

Example C43_ex :
  trace_ok T_IQI 0 true 5 ex_conv /\ bytes_ok ex_conv /\
  (let reqs := map (decoded T_IQI false new_req) (chop 16 5 ex_conv) in
   Forall (fun r => 0 <= fget r F_TIME < 2 ^ 31 /\ 0 <= fget r F_SIZE < 2 ^ 31) reqs) /\
  convert id (Ok 0) (setup_reader T_IQI ex_conv 0 (-1) true false None) false None
  = Ok (concat (map og_bytes
          [mkOg 10 7 100 3; mkOg 11 8 50 5; mkOg 12 7 120 (-1); mkOg 13 9 30 (-1);
           mkOg 14 8 50 (-1)]), mkStat 5 3 350 200) /\
  (* object 7 keeps its first size *)
  convert id (Ok 0) (setup_reader T_IQI ex_conv 0 (-1) true false None) true None
  = Ok (concat (map og_bytes
          [mkOg 10 7 100 3; mkOg 11 8 50 5; mkOg 12 7 100 (-1); mkOg 13 9 30 (-1);
           mkOg 14 8 50 (-1)]), mkStat 5 3 350 200).
Proof.
  split; [unfold trace_ok; split_and!; [cbn; lia|reflexivity|done|intros [?|?]; done]|].
  split; [unfold bytes_ok; vm_compute; repeat (apply Forall_cons; split; [split; congruence|]); apply Forall_nil_2|].
  split.
  { cbv zeta.
    set (f := fun r : treq => (fget r F_TIME, fget r F_SIZE)).
    set (P := fun p : Z * Z => 0 <= p.1 < 2 ^ 31 /\ 0 <= p.2 < 2 ^ 31).
    apply (proj1 (Forall_fmap f P _)).
    assert (E : f <$> map (decoded T_IQI false new_req) (chop 16 5 ex_conv)
                = [(10, 100); (11, 50); (12, 120); (13, 30); (14, 50)]) by (vm_compute; reflexivity).
    rewrite E. unfold P.
    repeat (apply Forall_cons; split; [cbn [fst snd]; lia|]). apply Forall_nil_2. }
  split; vm_compute; reflexivity.
Qed.

(** ** Where the claim fails *)

(** Every conversion reads the request that it has just freed: if that is an
    error, no conversion succeeds, and a conversion that gets there fails with
    exactly this error. *)
Theorem C43_freed_refuted :
  (forall h rd rsc lcs out, convert h (Err UseAfterFree) rd rsc lcs <> Ok out) /\
  convert id (Err UseAfterFree) (setup_reader T_IQI ex_conv 0 (-1) true false None) false None
  = Err UseAfterFree.
Proof.
  split; [|vm_compute; reflexivity].
  intros h rd rsc lcs out. unfold convert.
  destruct (go_back_one _) as [rd2 ?].
  destruct (read_one_req h rd2 new_req) as [[[rd3 q] ?]|]; [|done]. cbn [rbind].
  destruct (conv_loop h _ _ rd3 q cst_init) as [[[rd4 q1] c]|]; [|done]. cbn [rbind].
  destruct (_ && _); done.
Qed.

(** With other contents of the stack, asking for an LCS header aborts: the
    format string is not terminated, so its length does not match. *)
Theorem C43_lcs_stack_refuted :
  exists g, length g = 1024%nat /\
    convert id (Ok 0) (setup_reader T_IQI ex_conv 0 (-1) true false None) false (Some g)
    = Err AssertFail.
Proof.
  exists (<[13%nat := 65]> zero_stack). split; [vm_compute; reflexivity|].
  vm_compute. reflexivity.
Qed.

(** Sizes of 4 GiB and more are silently truncated to 32 bits. *)
Theorem C43_size_refuted :
  exists file reqs out st,
    trace_ok (T_BIN (mkBin [BI; BQ; BQ] 2 1 3 0 0 0)) 0 true 1 file /\
    map (decoded (T_BIN (mkBin [BI; BQ; BQ] 2 1 3 0 0 0)) false new_req) (chop 20 1 file) = reqs /\
    map (fun q => fget q F_SIZE) reqs = [2 ^ 32 + 5] /\
    convert id (Ok 0) (setup_reader (T_BIN (mkBin [BI; BQ; BQ] 2 1 3 0 0 0)) file 0 (-1) true false None)
      false None = Ok (out, st) /\
    out = og_bytes (mkOg 1 7 5 (-1)) /\ st_req_byte st = 2 ^ 32 + 5.
Proof.
  exists (le_bytes 4 1 ++ le_bytes 8 7 ++ le_bytes 8 (2 ^ 32 + 5)).
  eexists _, _, _. split; [unfold trace_ok; split_and!; [cbn; lia|reflexivity|done|intros [?|?]; done]|].
  split; [reflexivity|]. split; [vm_compute; reflexivity|].
  split; [vm_compute; reflexivity|]. split; vm_compute; reflexivity.
Qed.

(** wikiBin.h drops zero-size requests also when it reads backward: the
    converter then reads the same request for ever, until it has written twice
    as many requests as the trace has and aborts. *)
Theorem C43_wiki_refuted :
  exists file, trace_ok T_WIKI19u 0 true 3 file /\
    convert id (Ok 0) (setup_reader T_WIKI19u file 0 (-1) true false None) false None
    = Err AssertFail.
Proof.
  exists (le_bytes 4 1 ++ le_bytes 8 7 ++ le_bytes 4 1 ++ le_bytes 2 0 ++
          le_bytes 4 2 ++ le_bytes 8 8 ++ le_bytes 4 0 ++ le_bytes 2 0 ++
          le_bytes 4 3 ++ le_bytes 8 9 ++ le_bytes 4 1 ++ le_bytes 2 0).
  split; [unfold trace_ok; split_and!; [cbn; lia|reflexivity|done|intros [?|?]; done]|].
  vm_compute. reflexivity.
Qed.
