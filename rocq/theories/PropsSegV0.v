(** C60: the segmented caches built from an array of queues, SLRUv0 and
    SFIFOv0.  Both are, within the limits stated, exactly the machines of
    SpecSegV0.v; outside of them they crash or lose objects (refutations at the
    end). *)
From stdpp Require Import gmap list numbers fin_maps.
From Verif Require Import Base Driver ModelQueue QList SpecApi SpecComp ModelSLRU SpecSLRU SLRUFacts
  PropsSLRU SpecSFIFO ModelSFIFO PropsSFIFO ModelSegV0 SpecSegV0 SegV0Facts.
Open Scope Z_scope.
Local Arguments total_bytes : simpl never.

(** The objects of each queue with the bytes charged for them, most recent
    first. *)
Definition q_contents (q : qstate) : seg :=
  (fun id => (id, match c_tbl (q_c q) !! id with Some o => o_size o | None => 0 end + c_md (q_c q))) <$> q_q q.
Definition v0_contents (s : segv0) : list seg := q_contents <$> v0_q s.

Lemma vq_contents m md q l : vq m md q l -> q_contents q = l.
Proof.
  intros (ql & H & <-). unfold q_contents, wt. rewrite (qok_q _ _ _ _ H), (qok_md _ _ _ _ H).
  unfold ids. rewrite <- list_fmap_compose. apply list_fmap_ext. intros i [id o] Hi. cbn. f_equal. f_equal.
  assert (c_tbl (q_c q) !! id = Some o) as ->; [|done].
  apply (qok_lookup _ _ _ _ H id o). by eapply elem_of_list_lookup_2.
Qed.

Section Props.
  Context (n : nat) (cap : Z) (adm : admissioner) (small : Z -> Prop).
  Context (Hn : (0 < n)%nat) (Hcap : 0 <= cap).
  Notation m := (cap / Z.of_nat n).
  Notation ms := (shares n cap).

  Lemma Hm : 0 <= m. Proof using Hn Hcap. apply Z.div_pos; lia. Qed.

  Lemma vrel_contents md qs segs : Forall2 (vq m md) qs segs -> q_contents <$> qs = segs.
  Proof. induction 1 as [|q l qs segs Hq H IH]; [done|]. cbn. by rewrite IH, (vq_contents _ _ _ _ Hq). Qed.

  Lemma sok_init : sok n m small (replicate n []).
  Proof.
    split; rewrite ?concat_nils; [by rewrite replicate_length|constructor|constructor].
  Qed.

  Section SLRUv0.
    Context (cmd : bool).
    Notation md := (if cmd then 16 else 0).
    Notation ok := (v0_ok false m md small).
    Notation rel := (arel n m md small v0_q v0_c cap).

    (** The state SLRUv0_init builds. *)
    Definition v00 : segv0 :=
      mkV0 (cache_init cap md adm) (replicate n (lru_init cmd m AdmNone)).
    Lemma v0_init_ok : slruv0_init cmd cap n adm = Ok v00.
    Proof using Hn. unfold slruv0_init. rewrite decide_False by lia. done. Qed.
    Notation s0 := v00.

    Lemma Hmd : 0 <= md. Proof. destruct cmd; done. Qed.

    Lemma v0_rel_init : rel s0 (spec_start ms adm).
    Proof.
      split; try done.
      - cbn [v00 v0_q spec_start ss_segs]. unfold shares. rewrite replicate_length.
        apply Forall2_replicate. assert (Q := vq_nil m md). by destruct cmd.
      - cbn [spec_start ss_segs]. unfold shares. rewrite replicate_length. apply sok_init.
    Qed.

    (** Every program runs to completion, and the code answers and ends up as
        the machine does. *)
    Theorem C60_slruv0_partial cs fuel : Forall ok cs -> (length cs <= fuel)%nat ->
      exists s os, run slruv0_ops fuel s0 cs = Ok (s, os) /\
        v0_run ms md cap (spec_start ms adm) cs = (mkSS (v0_contents s) (c_adm (v0_c s)), os).
    Proof using Hn Hcap.
      intros Hc Hf.
      destruct (arr_run_ok n m md small slruv0_ops v0_q v0_c place0 false cap
        (slruv0_arr n m md Hmd Hm small cap Hn) Hn cs _ _ fuel v0_rel_init Hc) as (s & os & a & E1 & E2 & H).
      { cbn [spec_start ss_segs]. rewrite concat_nils. cbn. lia. }
      exists s, os. split; [exact E1|]. unfold v0_run. change (replicate n m) with ms in E2. rewrite E2. unfold v0_contents.
      rewrite (vrel_contents md _ _ (ar_v _ _ _ _ _ _ _ _ _ H)), (ar_adm _ _ _ _ _ _ _ _ _ H). by destruct a.
    Qed.

    (** ** The limits *)

    Definition lim (segs : list seg) : Prop := forall i, (i < n)%nat -> total_bytes (segs !!! i) <= m.

    Lemma settle_lim k : forall segs, length segs = n -> (k < n)%nat ->
      (forall i, (i < n)%nat -> i <> k -> total_bytes (segs !!! i) <= m) -> lim (settle ms k segs).
    Proof using Hn Hcap.
      induction k as [|k IH]; intros segs Hl Hk H.
      - assert (B := fit_le (ms !!! 0%nat) (segs !!! 0%nat) (ms_nonneg ms (Hms n cap Hn Hcap) 0)).
        assert (A := fit_app (ms !!! 0%nat) (segs !!! 0%nat)). rewrite settle_eq.
        unfold shares in B at 2. rewrite ms_at in B by done.
        destruct (fit _ _) as [K [|y o]]; cbn [fst snd] in *; intros i Hi.
        + rewrite app_nil_r in A. destruct (decide (i = O)) as [->|Hd]; [by rewrite <- A|by apply H].
        + destruct (decide (i = O)) as [->|Hd].
          * rewrite list_lookup_total_insert by lia. done.
          * rewrite list_lookup_total_insert_ne by done. by apply H.
      - assert (B := fit_le (ms !!! S k) (segs !!! S k) (ms_nonneg ms (Hms n cap Hn Hcap) (S k))).
        assert (A := fit_app (ms !!! S k) (segs !!! S k)). rewrite settle_eq.
        unfold shares in B at 2. rewrite ms_at in B by done.
        destruct (fit _ _) as [K [|y o]]; cbn [fst snd] in *.
        + rewrite app_nil_r in A. intros i Hi. destruct (decide (i = S k)) as [->|Hd].
          * by rewrite <- A.
          * by apply H.
        + apply IH; [by rewrite !insert_length|lia|]. intros i Hi Hik.
          rewrite list_lookup_total_insert_ne by done. destruct (decide (i = S k)) as [->|Hd].
          * by rewrite list_lookup_total_insert by lia.
          * rewrite list_lookup_total_insert_ne by done. by apply H.
    Qed.

    Lemma lim_le segs segs' : (forall i, (i < n)%nat -> total_bytes (segs' !!! i) <= total_bytes (segs !!! i)) ->
      lim segs -> lim segs'.
    Proof. intros H HL i Hi. specialize (H i Hi). specialize (HL i Hi). lia. Qed.

    Lemma hit_lim segs r i sz : sok n m small segs -> locate (r_id r) segs = Some (i, sz) -> lim segs ->
      lim (v0_hit ms md segs r i).
    Proof using Hn Hcap.
      intros HS E HL. unfold v0_hit, queue_hit. case_decide as Hd; [done|].
      unfold shares in Hd. rewrite replicate_length in Hd.
      destruct (hit_facts n m small segs _ _ _ HS E) as (Hi & _).
      assert (Hlen := so_len _ _ _ _ HS).
      apply settle_lim; [by rewrite !insert_length|lia|]. intros j Hj Hjd.
      rewrite list_lookup_total_insert_ne by done. destruct (decide (j = i)) as [->|Hji].
      - rewrite list_lookup_total_insert by lia. etransitivity; [|apply (HL i Hj)].
        apply total_without. apply seg_nonneg. eapply segs_nonneg. apply HS.
      - rewrite list_lookup_total_insert_ne by done. by apply HL.
    Qed.

    Lemma evict_lim segs : sok n m small segs -> lim segs -> lim (evict_low segs).
    Proof using Hn.
      intros HS. apply lim_le. intros j Hj.
      destruct (evict_low_spec segs) as [(_ & _ & ->)|(i & l & x & A & _ & -> & _)]; [done|].
      assert (Hlt := lookup_lt_Some _ _ _ A). destruct (decide (j = i)) as [->|Hd].
      - rewrite list_lookup_total_insert by done. rewrite (list_lookup_total_correct _ _ _ A), total_snoc.
        assert (W := seg_wok _ _ _ _ _ (so_ok _ _ _ _ HS) A). apply Forall_app in W as [_ W].
        apply Forall_cons in W as [W _]. unfold wok in W. lia.
      - by rewrite list_lookup_total_insert_ne.
    Qed.

    Lemma room_lim k sz : forall segs, sok n m small segs -> lim segs ->
      lim (make_room k cap sz segs) /\ sok n m small (make_room k cap sz segs).
    Proof using Hn.
      induction k as [|k IH]; intros segs HS HL; cbn; [done|]. case_decide; [|done].
      apply IH; [by apply evict_sok|by apply evict_lim].
    Qed.

    Lemma place0_lim segs id w : sok n m small segs -> lim segs -> lim (place0 ms segs id w).
    Proof using Hn Hcap.
      intros HS HL. unfold place0. assert (Hlen := so_len _ _ _ _ HS).
      destruct (with_room ms segs w) as [i|] eqn:E.
      - apply with_room_lt in E as [Hi E]. intros j Hj. destruct (decide (j = i)) as [->|Hd].
        + rewrite list_lookup_total_insert by done. rewrite total_cons. cbn.
          unfold shares in E. rewrite ms_at in E by lia. lia.
        + rewrite list_lookup_total_insert_ne by done. by apply HL.
      - apply settle_lim; [by rewrite insert_length|lia|]. intros j Hj Hjd.
        rewrite list_lookup_total_insert_ne by done. by apply HL.
    Qed.

    Lemma call_lim s a c : rel s a -> ok c -> lim (ss_segs a) ->
      lim (ss_segs (arr_call place0 false ms md cap a c).1).
    Proof using Hn Hcap.
      intros H Hc HL. assert (HS := ar_s _ _ _ _ _ _ _ _ _ H). destruct c as [r|r u|r|id|r|r]; cbn [arr_call].
      - unfold arr_get. destruct (locate (r_id r) (ss_segs a)) as [[i sz]|] eqn:E.
        + by apply (hit_lim _ r i sz).
        + destruct (admit (ss_adm a) r) as [adm' [|]]; cbn [andb]; [|done].
          destruct (_ && _)%bool; [|done]. cbn [fst ss_segs].
          destruct (room_lim (length (concat (ss_segs a))) (r_size r + md) _ HS HL) as [R1 R2].
          by apply place0_lim.
      - destruct (locate (r_id r) (ss_segs a)) as [[i sz]|] eqn:E; [|done]. destruct (u || false); [|done].
        by apply (hit_lim _ r i sz).
      - destruct (locate (r_id r) (ss_segs a)) as [[i sz]|] eqn:E; [done|]. case_decide; [done|].
        by apply place0_lim.
      - cbn [fst ss_segs]. revert HL. apply lim_le. intros j Hj.
        rewrite list_lookup_total_alt, list_lookup_fmap, list_lookup_total_alt.
        destruct (ss_segs a !! j) as [l|] eqn:El; [|done]. cbn. apply total_without.
        eapply wok_nonneg. eapply seg_wok; [apply HS|done].
      - by apply evict_lim.
      - done.
    Qed.

    Lemma run_lim cs : forall s a fuel s' os, rel s a -> Forall ok cs -> lim (ss_segs a) ->
      (length (concat (ss_segs a)) + length cs <= fuel)%nat ->
      run slruv0_ops fuel s cs = Ok (s', os) -> exists a', rel s' a' /\ lim (ss_segs a').
    Proof using Hn Hcap.
      induction cs as [|c cs IH]; intros s a fuel s' os H Hc HL Hf E; cbn [run] in E.
      - injection E as <- <-. by exists a.
      - apply Forall_cons in Hc as [Hc Hcs]. cbn [length] in Hf.
        destruct (arr_step_ok n m md small slruv0_ops v0_q v0_c place0 false cap
          (slruv0_arr n m md Hmd Hm small cap Hn) Hn s a c fuel H Hc ltac:(lia))
          as (s1 & a1 & o & E1 & E2 & H1 & C).
        assert (L1 := call_lim s a c H Hc HL). change (replicate n m) with ms in E2. rewrite E2 in L1. cbn [fst] in L1.
        rewrite E1 in E. cbn [rbind] in E.
        destruct (run slruv0_ops fuel s1 cs) as [[s2 os2]|] eqn:E3; cbn [rbind] in E; [|done].
        injection E as <- <-. apply (IH s1 a1 fuel s2 os2); try done. lia.
    Qed.

    Lemma v0_reach s : comp_reaches slruv0_ops s0 ok s -> exists a, rel s a /\ lim (ss_segs a).
    Proof using Hn Hcap.
      intros (cs & fuel & os & Hc & Hf & E).
      apply (run_lim cs s0 (spec_start ms adm) fuel s os); try done.
      - apply v0_rel_init.
      - intros i Hi. cbn [spec_start ss_segs]. unfold shares. rewrite replicate_length.
        rewrite lookup_total_replicate_2 by done. apply Hm.
      - cbn [spec_start ss_segs]. rewrite concat_nils. cbn. lia.
    Qed.

    Lemma held_lim segs : length segs = n -> lim segs -> held segs <= Z.of_nat n * m.
    Proof.
      unfold held, lim. clear. generalize (cap / Z.of_nat n) as b. intros b <-.
      induction segs as [|l segs IH]; intros H; [done|].
      cbn [concat length]. rewrite total_app. assert (H0 := H O ltac:(cbn; lia)). cbn in H0.
      assert (IH' : total_bytes (concat segs) <= Z.of_nat (length segs) * b); [|lia].
      apply IH. intros i Hi. apply (H (S i)). cbn. lia.
    Qed.

    (** The counters describe the contents, every segment is within its share
        and so the whole within the capacity. *)
    Theorem C60_slruv0_counters_partial s : comp_reaches slruv0_ops s0 ok s ->
      q_occ <$> v0_q s = (total_bytes : seg -> Z) <$> v0_contents s /\
      op_occupied slruv0_ops s = total_bytes (concat (v0_contents s)) /\
      op_nobj slruv0_ops s = Z.of_nat (length (concat (v0_contents s))) /\
      op_occupied slruv0_ops s <= cap /\
      NoDup (concat (v0_contents s)).*1 /\
      (forall id, resident slruv0_ops s id <-> id ∈ (concat (v0_contents s)).*1) /\
      Forall (fun q => q_occ q <= m) (v0_q s).
    Proof using Hn Hcap.
      intros Hs. destruct (v0_reach s Hs) as (a & H & HL).
      assert (HV := ar_v _ _ _ _ _ _ _ _ _ H). assert (HS := ar_s _ _ _ _ _ _ _ _ _ H).
      assert (EC : v0_contents s = ss_segs a) by (apply (vrel_contents md _ _ HV)). rewrite EC.
      assert (Hlen := so_len _ _ _ _ HS).
      assert (EO : op_occupied slruv0_ops s = held (ss_segs a)) by (apply (vrel_occ m md _ _ HV)).
      split_and!.
      - clear -HV. induction HV as [|q l qs segs Hq H IH]; [done|]. cbn. by rewrite IH, (vq_occ _ _ _ _ Hq).
      - exact EO.
      - apply (vrel_nobj m md _ _ HV).
      - rewrite EO. assert (A := held_lim _ Hlen HL).
        assert (Z.of_nat n * m <= cap) by (apply Z.mul_div_le; lia). lia.
      - apply HS.
      - intros id. unfold resident. cbn [op_find slruv0_ops]. split.
        + intros HF. destruct (HF (mkReq id 0 0 0 0) eq_refl) as (s' & E). unfold slruv0_find in E.
          rewrite (v0_scan_ok m md lru_find _ _ _ (fun q l => vq_find_lru m md q l _) HV) in E.
          cbn [rbind r_id] in E. destruct (locate id (ss_segs a)) as [[i sz]|] eqn:EL; [|done].
          apply locate_inseg, inseg_concat in EL. by apply (elem_of_list_fmap_1 fst) in EL.
        + intros Hid r <-. unfold slruv0_find.
          rewrite (v0_scan_ok m md lru_find _ _ _ (fun q l => vq_find_lru m md q l _) HV). cbn [rbind].
          destruct (locate (r_id r) (ss_segs a)) as [[i sz]|] eqn:EL; [by exists s|].
          by apply locate_notin in EL.
      - clear -HV HL Hlen. apply Forall_forall. intros q Hq. apply elem_of_list_lookup in Hq as [i Hi].
        destruct (Forall2_lookup_l _ _ _ _ _ HV Hi) as (l & El & Hl). rewrite (vq_occ _ _ _ _ Hl).
        assert (Hlt := lookup_lt_Some _ _ _ El). rewrite Hlen in Hlt.
        specialize (HL i Hlt). by rewrite (list_lookup_total_correct _ _ _ El) in HL.
    Qed.

    (** The victim is the oldest object of the lowest non-empty segment; evict
        removes exactly it, and to_evict announces it. *)
    Theorem C60_slruv0_victim_partial s r : comp_reaches slruv0_ops s0 ok s -> concat (v0_contents s) <> [] ->
      exists i l v w s', v0_contents s !! i = Some (l ++ [(v, w)]) /\
        (forall j, (j < i)%nat -> v0_contents s !! j = Some []) /\
        op_to_evict slruv0_ops s r = Ok (s, Some v) /\
        op_evict slruv0_ops s r = Ok s' /\ v0_contents s' = <[i := l]> (v0_contents s).
    Proof using Hn Hcap.
      intros Hs Hne. destruct (v0_reach s Hs) as (a & H & _).
      assert (HV := ar_v _ _ _ _ _ _ _ _ _ H). assert (HS := ar_s _ _ _ _ _ _ _ _ _ H).
      assert (EC : v0_contents s = ss_segs a) by (apply (vrel_contents md _ _ HV)). rewrite EC in *.
      destruct (evict_low_spec (ss_segs a)) as [(A & _)|(i & l & [v w] & A & B & C & D)].
      { exfalso. apply Hne. clear -A. induction A as [|l segs -> A IH]; done. }
      destruct (slruv0_evict_ok n m md Hmd small s (ss_segs a) r HV HS Hne) as (qs' & E1 & H1).
      exists i, l, v, w, (v0_set_q s qs'). split; [exact A|]. split; [exact D|]. split.
      - cbn [op_to_evict slruv0_ops]. rewrite (v0_to_evict_ok n m md Hmd small s (ss_segs a) r HV HS), B. done.
      - split; [exact E1|]. unfold v0_contents. cbn [v0_set_q v0_q]. rewrite (vrel_contents md _ _ H1). exact C.
    Qed.
  End SLRUv0.

  Section SFIFOv0.
    Context (Hn2 : (n <= 2)%nat).
    Notation ok := (v0_ok true m 0 small).
    Notation rel := (arel n m 0 small f0_q (fun s => v0_c (f0_s s)) cap).

    (** The state SFIFOv0_init builds. *)
    Definition f00 : sfv0 :=
      mkF0 (mkV0 (cache_init cap 0 adm) (replicate n (fifo_init m AdmNone))) (mkReq 0 0 0 0 0).
    Lemma f0_init_ok : sfv0_init cap n adm = Ok f00.
    Proof using Hn. clear Hn2. unfold sfv0_init. rewrite decide_False by lia. done. Qed.

    Lemma f0_rel_init : rel f00 (spec_start ms adm).
    Proof.
      split; try done.
      - cbn [f00 f0_q f0_s v0_q spec_start ss_segs]. unfold shares. rewrite replicate_length.
        apply Forall2_replicate. apply (vq_nil m 0).
      - cbn [spec_start ss_segs]. unfold shares. rewrite replicate_length. apply sok_init.
    Qed.

    Theorem C60_sfifov0_partial cs fuel : Forall ok cs -> (length cs <= fuel)%nat ->
      exists s os, run sfv0_ops fuel f00 cs = Ok (s, os) /\
        f0_run ms cap (spec_start ms adm) cs = (mkSS (v0_contents (f0_s s)) (c_adm (v0_c (f0_s s))), os).
    Proof using Hn Hcap Hn2.
      intros Hc Hf.
      destruct (arr_run_ok n m 0 small sfv0_ops f0_q (fun s => v0_c (f0_s s)) place true cap
        (sfv0_arr n m 0 ltac:(done) Hm small cap eq_refl (conj Hn Hn2)) Hn cs _ _ fuel f0_rel_init Hc)
        as (s & os & a & E1 & E2 & H).
      { cbn [spec_start ss_segs]. rewrite concat_nils. cbn. lia. }
      exists s, os. split; [exact E1|]. unfold f0_run. change (replicate n m) with ms in E2. rewrite E2. unfold v0_contents.
      change (v0_q (f0_s s)) with (f0_q s). rewrite (vrel_contents 0 _ _ (ar_v _ _ _ _ _ _ _ _ _ H)), (ar_adm _ _ _ _ _ _ _ _ _ H). by destruct a.
    Qed.
  End SFIFOv0.
End Props.

(** * Examples and refutations *)

Definition v0_show (x : res (segv0 * list obs)) : option (list seg * list obs) :=
  match x with Ok (s, os) => Some (v0_contents s, os) | Err _ => None end.
Definition f0_show (x : res (sfv0 * list obs)) : option (list seg * list obs) :=
  match x with Ok (s, os) => Some (v0_contents (f0_s s), os) | Err _ => None end.
Definition v0_at (md : bool) (cap : Z) (n : nat) : segv0 := v00 n cap AdmNone md.
Definition f0_at (cap : Z) (n : nat) : sfv0 := f00 n cap AdmNone.
Definition nil_req : req := mkReq 0 0 0 0 0.

(** Three segments of 40 bytes, 16 bytes of metadata per object: climbing,
    overflow through two segments, a change of size, a removal. *)
Definition v0_prog : list call :=
  [sgs 1 4; sgs 1 4; sgs 1 4; sgs 2 4; sgs 2 4; sgs 2 4; sgs 3 4; sgs 3 8; sgs 3 24; CRemove 2; sgs 4 100;
   CToEvict nil_req; CEvict nil_req; CFind nil_req false].
Example C60_slruv0_ex :
  slruv0_init true 120 3 AdmNone = Ok (v0_at true 120 3) /\
  Forall (v0_ok false 40 16 (fun id => id <> 4)) v0_prog /\
  v0_show (run slruv0_ops 14 (v0_at true 120 3) (take 9 v0_prog))
  = Some ([[]; [(2, 20); (1, 20)]; [(3, 40)]],
          [OBool false; OBool true; OBool true; OBool false; OBool true; OBool true; OBool false; OBool true; OBool true]) /\
  v0_show (run slruv0_ops 14 (v0_at true 120 3) v0_prog)
  = Some ([[]; []; [(3, 40)]],
          [OBool false; OBool true; OBool true; OBool false; OBool true; OBool true; OBool false; OBool true; OBool true;
           OBool true; OBool false; OVictim (Some 1); OUnit; OBool false]).
Proof.
  split; [done|]. split; [|split; vm_compute; reflexivity].
  unfold v0_prog. repeat (apply Forall_cons; split; [cbn; try done; unfold size_ok, req_ok; cbn; lia|]). constructor.
Qed.

(** Two queues of 4 bytes: the overflow of queue 1 falls on queue 0 and pushes
    object 3 out. *)
Definition f0_prog : list call :=
  [sgs 1 2; sgs 1 2; sgs 2 2; sgs 2 2; sgs 3 1; sgs 4 3; sgs 4 3; CRemove 9; CToEvict nil_req].
Example C60_sfifov0_ex :
  sfv0_init 8 2 AdmNone = Ok (f0_at 8 2) /\
  Forall (v0_ok true 4 0 (fun _ => True)) f0_prog /\
  f0_show (run sfv0_ops 9 (f0_at 8 2) f0_prog)
  = Some ([[(2, 2); (1, 2)]; [(4, 3)]],
          [OBool false; OBool true; OBool false; OBool true; OBool false; OBool false; OBool true; OBool false;
           OVictim (Some 1)]).
Proof.
  split; [done|]. split; [|vm_compute; reflexivity].
  unfold f0_prog. repeat (apply Forall_cons; split; [cbn; try done; unfold size_ok, req_ok; cbn; lia|]). constructor.
Qed.

(** The segments are first-in first-out inside: hits at the top order nothing,
    and the same requests order the objects differently in the later SLRU. *)
Theorem C60_slruv0_not_lru_refuted : exists cs s os s' os',
  Forall (v0_ok false 2 0 (fun _ => True)) cs /\
  run slruv0_ops 9 (v0_at false 4 2) cs = Ok (s, os) /\
  run slru_ops 9 (slru_init false 4 (slru_default_max 2 4) AdmNone) cs = Ok (s', os') /\
  v0_contents s = [[]; [(2, 1); (1, 1)]] /\ contents s' = [[]; [(1, 1); (2, 1)]].
Proof.
  exists [sgs 1 1; sgs 1 1; sgs 2 1; sgs 2 1; sgs 1 1]. eexists _, _, _, _.
  split; [repeat (apply Forall_cons; split; [cbn; unfold size_ok, req_ok; cbn; lia|]); constructor|].
  split; [vm_compute; reflexivity|]. split; [vm_compute; reflexivity|]. split; vm_compute; reflexivity.
Qed.

(** A hit whose request is larger than a segment empties the segment above and
    dereferences NULL. *)
Theorem C60_slruv0_grow_refuted : run slruv0_ops 9 (v0_at false 8 2) [sgs 1 1; sgs 1 5] = Err NullDeref.
Proof. vm_compute. reflexivity. Qed.

(** An object of no bytes is invisible to the search for a victim: to_evict
    answers NULL with an object in the cache, and evict dereferences NULL. *)
Theorem C60_slruv0_empty_object_refuted : exists s os,
  run slruv0_ops 9 (v0_at false 8 2) [sgs 1 0; sgs 1 0] = Ok (s, os) /\
  v0_contents s = [[]; [(1, 0)]] /\ op_nobj slruv0_ops s = 1 /\
  op_to_evict slruv0_ops s nil_req = Ok (s, None) /\
  op_evict slruv0_ops s nil_req = Err NullDeref.
Proof.
  eexists _, _. split; [vm_compute; reflexivity|]. split; [vm_compute; reflexivity|].
  split; [vm_compute; reflexivity|]. split; vm_compute; reflexivity.
Qed.

(** SFIFOv0 with three queues: the nested SFIFOv0_cool overwrites the request
    the outer one saved.  Object 1 is lost, object 4 is there twice; the
    machine of the specification keeps both. *)
Definition f0_clash : list call := [sgs 1 2; sgs 1 2; sgs 1 2; sgs 2 1; sgs 2 1; sgs 4 1; sgs 4 1; sgs 2 1].
Theorem C60_sfifov0_three_queues_refuted : exists s os,
  Forall (v0_ok true 2 0 (fun _ => True)) f0_clash /\
  run sfv0_ops 19 (f0_at 6 3) f0_clash = Ok (s, os) /\
  v0_contents (f0_s s) = [[(4, 1)]; [(4, 1)]; [(2, 1)]] /\
  ss_segs (f0_run (shares 3 6) 6 (spec_start (shares 3 6) AdmNone) f0_clash).1 = [[(4, 1)]; [(1, 2)]; [(2, 1)]].
Proof.
  eexists _, _.
  split; [repeat (apply Forall_cons; split; [cbn; unfold size_ok, req_ok; cbn; lia|]); constructor|].
  split; [vm_compute; reflexivity|]. split; vm_compute; reflexivity.
Qed.

(** find(false) of SFIFOv0 promotes. *)
Theorem C60_sfifov0_find_refuted : exists s os s',
  run sfv0_ops 9 (f0_at 8 2) [sgs 1 1] = Ok (s, os) /\
  op_find sfv0_ops s (mkReq 1 1 0 0 0) false = Ok (s', true) /\
  v0_contents (f0_s s) = [[(1, 1)]; []] /\ v0_contents (f0_s s') = [[]; [(1, 1)]].
Proof.
  eexists _, _, _. split; [vm_compute; reflexivity|]. split; [vm_compute; reflexivity|].
  split; vm_compute; reflexivity.
Qed.

(** Queue 0 can exceed its share, and when an object grows, the cache exceeds
    its capacity. *)
Theorem C60_sfifov0_capacity_refuted : exists cs s os,
  Forall (v0_ok true 4 0 (fun _ => True)) cs /\
  run sfv0_ops 9 (f0_at 8 2) cs = Ok (s, os) /\
  v0_contents (f0_s s) = [[(3, 4); (2, 1)]; [(1, 4)]] /\ op_occupied sfv0_ops s = 9.
Proof.
  exists [sgs 1 1; sgs 2 1; sgs 9 2; sgs 9 2; sgs 3 4; CRemove 9; sgs 1 4]. eexists _, _.
  split; [repeat (apply Forall_cons; split; [cbn; try done; unfold size_ok, req_ok; cbn; lia|]); constructor|].
  split; [vm_compute; reflexivity|]. split; vm_compute; reflexivity.
Qed.

(** With no segments the constructors divide by zero. *)
Theorem C60_no_segments_refuted cmd cap adm :
  slruv0_init cmd cap 0 adm = Err DivByZero /\ sfv0_init cap 0 adm = Err DivByZero.
Proof. done. Qed.
