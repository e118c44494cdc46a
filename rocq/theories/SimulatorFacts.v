(** Execution of one _simulate task: loop by loop. *)
From stdpp Require Import gmap list numbers fin_maps.
From Verif Require Import Base Driver ModelReader ModelSim SpecSim.
Open Scope Z_scope.
Local Arguments shifted : simpl never.
Local Arguments sub_time : simpl never.
Local Arguments new_request : simpl never.

Lemma serves_app c sd l1 l2 c' sd' bs :
  serves c sd (l1 ++ l2) c' sd' bs ->
  exists c1 sd1 bs1 bs2, serves c sd l1 c1 sd1 bs1 /\ serves c1 sd1 l2 c' sd' bs2 /\
    bs = bs1 ++ bs2.
Proof.
  revert c sd bs. induction l1 as [|q l1 IH]; intros c sd bs H.
  - exists c, sd, [], bs. split; [constructor|]. done.
  - cbn in H. inversion H as [|? ? ? ? c1 sd1 b c2 sd2 bs' E H' ]; subst.
    destruct (IH _ _ _ H') as (c3 & sd3 & bs1 & bs2 & H1 & H2 & ->).
    exists c3, sd3, (b :: bs1), bs2. split; [econstructor; eassumption|]. done.
Qed.

Lemma serves_length c sd l c' sd' bs : serves c sd l c' sd' bs -> length bs = length l.
Proof. induction 1; cbn; [done|]. f_equal. done. Qed.

Section facts.
  Context {R : Type} (read : R -> treq -> res (R * treq * Z)) (clone : R -> R).
  Context (P : sparams (R := R)).

  Definition view : Type := (@lstate R * acache * cstat).

  Inductive lsteps : nat -> view -> view -> Prop :=
  | ls_0 v : lsteps 0 v v
  | ls_S n l c s v1 v2 :
      l_pc l <> PLock -> l_pc l <> PLoad -> l_pc l <> PStore -> l_pc l <> PUnlock ->
      l_pc l <> PFree ->
      lstep read clone P l c s = Ok v1 -> lsteps n v1 v2 -> lsteps (S n) (l, c, s) v2.

  Lemma lsteps_trans n m v1 v2 v3 : lsteps n v1 v2 -> lsteps m v2 v3 -> lsteps (n + m) v1 v3.
  Proof. induction 1; intros; cbn; [done|]. econstructor; eauto. Qed.

  Lemma ls_1 l c s v1 n v2 :
    l_pc l <> PLock -> l_pc l <> PLoad -> l_pc l <> PStore -> l_pc l <> PUnlock ->
    l_pc l <> PFree ->
    lstep read clone P l c s = Ok v1 -> lsteps n v1 v2 -> lsteps (S n) (l, c, s) v2.
  Proof. intros. econstructor; eassumption. Qed.

  (** The buffer [q] holds the next request of the list. *)
  Definition cur (touch : treq -> treq) (rd : R) (q : treq) (l : list treq) (qend : treq) : Prop :=
    match l with
    | [] => q = qend /\ fget q F_VALID = 0
    | x :: l' => q = x /\ fget x F_VALID <> 0 /\ yields read touch rd (touch x) l' qend
    end.

  Lemma yields_cur touch rd q l qend :
    yields read touch rd q l qend ->
    exists rd' q' st, read rd q = Ok (rd', q', st) /\ cur touch rd' q' l qend.
  Proof.
    destruct l as [|x l]; cbn.
    - intros (rd' & st & E & H). exists rd', qend, st. done.
    - intros (rd' & st & E & H & Y). exists rd', x, st. done.
  Qed.

  Lemma valid_true q : fget q F_VALID <> 0 -> valid q = true.
  Proof. intros. unfold valid. destruct (Z.eqb_spec (fget q F_VALID) 0); [done|]. done. Qed.
  Lemma valid_false q : fget q F_VALID = 0 -> valid q = false.
  Proof. intros H. unfold valid. rewrite H. done. Qed.

  Ltac one := eapply ls_1; [discriminate..| |].

  (** The loop over the warm-up reader (53-57). *)
  Lemma warm_loop wl : forall l c s c' sd bs qend,
    l_pc l = PWarmGet -> cur id (l_wrd l) (l_q l) wl qend ->
    serves c (l_seed l) wl c' sd bs ->
    exists n wrd, lsteps n (l, c, s)
      (mkL PRead0 sd (l_rd l) wrd qend (l_ts l) (l_nw l) (l_tmp l), c',
       add_warm (Z.of_nat (length wl)) s).
  Proof.
    induction wl as [|x wl IH]; intros [pc0 sd0 rd wrd q ts nw tmp] c s c' sd bs qend Hpc Hc Hs;
      cbn in Hpc; subst pc0; cbn in Hc, Hs.
    - destruct Hc as [-> V]. inversion Hs; subst.
      eexists 1%nat, wrd. one; [cbn; rewrite valid_false by done; reflexivity|].
      assert (E : add_warm (Z.of_nat 0) s = s).
      { destruct s. unfold add_warm. cbn. f_equal. lia. }
      cbn [length]. rewrite E. cbn. constructor.
    - destruct Hc as (-> & V & Y).
      inversion Hs as [|? ? ? ? c1 sd1 b c2 sd2 bs' E Hs']; subst.
      destruct (yields_cur _ _ _ _ _ Y) as (wrd' & q' & st & Er & C').
      destruct (IH (mkL PWarmGet sd1 rd wrd' q' ts nw tmp) c1 (add_warm 1 s) c' sd bs' qend
                  eq_refl C' Hs') as (n & wrd2 & L).
      eexists _, wrd2.
      one; [cbn; rewrite valid_true by done; rewrite E; cbn; reflexivity|].
      one; [cbn; reflexivity|].
      one; [cbn; unfold id in Er; rewrite Er; cbn; reflexivity|].
      cbn [with_wrd with_get at_pc l_seed l_rd l_ts l_nw l_tmp].
      assert (E2 : add_warm (Z.of_nat (length (x :: wl))) s
                   = add_warm (Z.of_nat (length wl)) (add_warm 1 s)).
      { unfold add_warm. cbn [st_warm st_req st_req_byte st_miss st_miss_byte
          st_nobj st_occ st_size st_time length]. f_equal. lia. }
      rewrite E2. exact L.
  Qed.

  (** The warm-up loop over the trace (71-78): it stops after a prefix. *)
  Lemma wu_loop ts trace : forall l c s c' sd bs qend,
    l_pc l = PWu -> l_ts l = ts -> cur (shifted ts) (l_rd l) (l_q l) trace qend ->
    serves c (l_seed l) (map (shifted ts) trace) c' sd bs ->
    exists n k rd q c1 sd1 bs1 bs2,
      lsteps n (l, c, s)
        (mkL PWuEnd sd1 rd (l_wrd l) q ts (l_nw l + Z.of_nat k) (l_tmp l), c1, s) /\
      (k <= length trace)%nat /\
      (forall i x, (i < k)%nat -> trace !! i = Some x ->
         l_nw l + Z.of_nat i < sp_nwarm P \/ fget x F_TIME - ts < sp_sec P) /\
      (forall x, trace !! k = Some x ->
         ~ (l_nw l + Z.of_nat k < sp_nwarm P \/ fget x F_TIME - ts < sp_sec P)) /\
      serves c (l_seed l) (map (shifted ts) (take k trace)) c1 sd1 bs1 /\
      serves c1 sd1 (map (shifted ts) (drop k trace)) c' sd bs2 /\
      cur (shifted ts) rd q (drop k trace) qend.
  Proof.
    induction trace as [|x tr IH]; intros [pc0 sd0 rd wrd q ts0 nw tmp] c s c' sd bs qend Hpc Hts Hc Hs;
      cbn in Hpc, Hts; subst pc0 ts0; cbn in Hc, Hs.
    - destruct Hc as [-> V]. inversion Hs; subst.
      eexists 1%nat, 0%nat, rd, qend, c', sd, [], []. split.
      { one; [cbn; rewrite valid_false by done; reflexivity|].
        cbn. rewrite Z.add_0_r. constructor. }
      cbn. split_and!; try done; try constructor; lia.
    - destruct Hc as (-> & V & Y).
      set (l0 := mkL PWu sd0 rd wrd x ts nw tmp : @lstate R).
      assert (Est : lstep read clone P l0 c s =
        if in_warmup P l0
        then let! (c', seed, _) := ac_get c sd0 (shifted ts x) in
             Ok (with_get l0 seed (shifted ts x) PWuRead, c', s)
        else Ok (at_pc l0 PWuEnd, c, s)).
      { unfold lstep. change (l_pc l0) with (PWu). change (l_q l0) with x.
        rewrite valid_true by done. reflexivity. }
      destruct (in_warmup P l0) eqn:W.
      + inversion Hs as [|? ? ? ? c1 sd1 b c2 sd2 bs' E Hs']; subst.
        destruct (yields_cur _ _ _ _ _ Y) as (rd' & q' & st & Er & C').
        destruct (IH (mkL PWu sd1 rd' wrd q' ts (nw + 1) tmp) c1 s c' sd bs' qend
                    eq_refl eq_refl C' Hs')
          as (n & k & rd2 & q2 & c3 & sd3 & bs1 & bs2 & L & Hk & H1 & H2 & S1 & S2 & C2).
        cbn in L, H1, H2, S1.
        eexists _, (S k), rd2, q2, c3, sd3, (b :: bs1), bs2. split_and!.
        * one; [rewrite Est, E; cbn; reflexivity|].
          one; [cbn; rewrite Er; cbn; reflexivity|].
          cbn. replace (nw + Z.of_nat (S k)) with (nw + 1 + Z.of_nat k) by lia. exact L.
        * cbn. lia.
        * intros i y Hi Hy. destruct i as [|i].
          -- cbn in Hy. injection Hy as <-. unfold in_warmup in W. cbn in W.
             apply orb_true_iff in W as [W|W]; apply bool_decide_eq_true in W; [left|right]; cbn; lia.
          -- cbn in Hy. destruct (H1 i y ltac:(lia) Hy); [left|right]; cbn; lia.
        * intros y Hy. cbn in Hy. specialize (H2 y Hy). cbn. intros [K|K]; apply H2; [left|right]; lia.
        * cbn. econstructor; eassumption.
        * exact S2.
        * exact C2.
      + eexists 1%nat, 0%nat, rd, x, c, sd0, [], bs. split_and!.
        * one; [exact Est|].
          cbn. rewrite Z.add_0_r. constructor.
        * lia.
        * lia.
        * intros y Hy. cbn in Hy. injection Hy as <-. unfold in_warmup in W. cbn in W.
          apply orb_false_iff in W as [W1 W2]. apply bool_decide_eq_false in W1, W2. cbn. lia.
        * cbn. constructor.
        * exact Hs.
        * cbn. done.
  Qed.

  (** The counted loop (87-97). *)
  Lemma main_loop ts trace : forall l c s c' sd bs qend,
    l_pc l = PLoop -> l_ts l = ts -> cur (shifted ts) (l_rd l) (l_q l) trace qend ->
    serves c (l_seed l) (map (shifted ts) trace) c' sd bs ->
    exists n rd, lsteps n (l, c, s)
      (mkL PTime sd rd (l_wrd l) qend ts (l_nw l) (l_tmp l), c',
       mkStat (st_warm s) (st_req s + Z.of_nat (length trace)) (st_req_byte s + bytes trace)
              (st_miss s + Z.of_nat (length (missed trace bs)))
              (st_miss_byte s + bytes (missed trace bs))
              (st_nobj s) (st_occ s) (st_size s) (st_time s)).
  Proof.
    induction trace as [|x tr IH]; intros [pc0 sd0 rd wrd q ts0 nw tmp] c s c' sd bs qend Hpc Hts Hc Hs;
      cbn in Hpc, Hts; subst pc0 ts0; cbn in Hc, Hs.
    - destruct Hc as [-> V]. inversion Hs; subst.
      eexists 1%nat, rd. one; [cbn; rewrite valid_false by done; reflexivity|].
      cbn. destruct s. cbn. rewrite !Z.add_0_r. constructor.
    - destruct Hc as (-> & V & Y).
      inversion Hs as [|? ? ? ? c1 sd1 b c2 sd2 bs' E Hs']; subst.
      destruct (yields_cur _ _ _ _ _ Y) as (rd' & q' & st & Er & C').
      set (s1 := if (b : bool) then add_req_byte (fget x F_SIZE) (add_req s)
                 else add_miss_byte (fget x F_SIZE) (add_miss (add_req_byte (fget x F_SIZE) (add_req s)))).
      destruct (IH (mkL PLoop sd1 rd' wrd q' ts nw tmp) c1 s1 c' sd bs' qend
                    eq_refl eq_refl C' Hs') as (n & rd2 & L).
      assert (Sz : fget (shifted ts x) F_SIZE = fget x F_SIZE).
      { unfold shifted, fget. rewrite lookup_insert_ne by done. done. }
      cbn in L. cbn [missed]. rewrite app_length.
      destruct b; unfold s1 in L; cbn in L.
      + eexists _, rd2.
        one; [cbn; rewrite valid_true by done; reflexivity|].
        one; [cbn; reflexivity|].
        one; [cbn; change (sub_time ts x) with (shifted ts x); rewrite E; cbn; reflexivity|].
        one; [cbn; change (sub_time ts x) with (shifted ts x); rewrite Er; cbn; reflexivity|].
        cbn. replace (bytes (x :: tr)) with (fget x F_SIZE + bytes tr) by done.
        replace (st_req s + Z.of_nat (S (length tr))) with (st_req s + 1 + Z.of_nat (length tr)) by lia.
        rewrite Z.add_assoc. exact L.
      + eexists _, rd2.
        one; [cbn; rewrite valid_true by done; reflexivity|].
        one; [cbn; reflexivity|].
        one; [cbn; change (sub_time ts x) with (shifted ts x); rewrite E; cbn; reflexivity|].
        one; [cbn; reflexivity|].
        one; [cbn; reflexivity|].
        one; [cbn; change (sub_time ts x) with (shifted ts x); rewrite Er; cbn; reflexivity|].
        cbn [length app]. cbn [at_pc with_rd with_get l_pc l_seed l_rd l_wrd l_q l_ts l_nw l_tmp].
        rewrite Sz.
        replace (bytes (x :: tr)) with (fget x F_SIZE + bytes tr) by done.
        replace (bytes (x :: missed tr bs')) with (fget x F_SIZE + bytes (missed tr bs')) by done.
        cbn in L |- *.
        replace (st_req s + Z.of_nat (S (length tr))) with (st_req s + 1 + Z.of_nat (length tr)) by lia.
        replace (st_miss s + Z.of_nat (S (length (missed tr bs'))))
          with (st_miss s + 1 + Z.of_nat (length (missed tr bs'))) by lia.
        rewrite !Z.add_assoc. exact L.
  Qed.

  (** What a run of _simulate needs from its readers and its cache. *)
  Definition task_ok (wl l : list treq) (c c' : acache) : Prop :=
    exists q1 q2 sd bs,
      match sp_warm P with
      | None => wl = [] /\ q1 = new_request
      | Some w => yields read id (clone w) new_request wl q1
      end /\
      yields read (shifted (start_of l)) (clone (sp_reader P)) q1 l q2 /\
      serves c 0 (wl ++ map (shifted (start_of l)) l) c' sd bs.

  (** The whole of _simulate up to line 120. *)
  Lemma task_run wl l c c' l0 size :
    task_ok wl l c c' -> l_pc l0 = PSeed -> size = ac_size c ->
    exists n l1 s1,
      lsteps n (l0, c, set_csize size stat0) (l1, c', s1) /\ l_pc l1 = PLock /\
      sim_result wl l (sp_nwarm P) (sp_sec P) c c' s1.
  Proof.
    intros (q1 & q2 & sd & bs & Hw & Hy & Hs) Hpc ->.
    destruct (serves_app _ _ _ _ _ _ _ Hs) as (c1 & sd1 & bs1 & bs2 & S1 & S2 & ->).
    destruct l0 as [pc0 sd0 rd0 wrd0 q0 ts0 nw0 tmp0]. cbn in Hpc. subst pc0.
    set (st := set_csize (ac_size c) stat0).
    (* up to line 66 *)
    assert (A : exists n wrd, lsteps n
       (mkL PWarm0 0 (clone (sp_reader P)) wrd0 new_request ts0 nw0 tmp0, c, st)
       (mkL PRead0 sd1 (clone (sp_reader P)) wrd q1 ts0 nw0 tmp0, c1,
        add_warm (Z.of_nat (length wl)) st)).
    { destruct (sp_warm P) as [w|] eqn:Ew.
      - destruct (yields_cur _ _ _ _ _ Hw) as (wrd & q' & stt & Er & C').
        destruct (warm_loop wl (mkL PWarmGet 0 (clone (sp_reader P)) wrd q' ts0 nw0 tmp0)
                    c st c1 sd1 bs1 q1 eq_refl C' S1) as (n & wrd2 & L).
        eexists _, wrd2. one; [cbn; rewrite Ew, Er; cbn; reflexivity|]. exact L.
      - destruct Hw as [-> ->]. inversion S1; subst.
        eexists 1%nat, wrd0. one; [cbn; rewrite Ew; reflexivity|]. cbn.
        unfold add_warm, st. cbn. constructor. }
    destruct A as (n1 & wrd & L1).
    destruct (yields_cur _ _ _ _ _ Hy) as (rd & q & stt & Er & C).
    assert (Ets : l <> [] -> fget q F_TIME = start_of l).
    { destruct l as [|x l]; [done|]. intros _. cbn in C. destruct C as [-> _]. done. }
    set (ts := fget q F_TIME) in *.
    assert (C0 : cur (shifted ts) rd q l q2 /\ 
                 serves c1 sd1 (map (shifted ts) l) c' sd bs2).
    { destruct l as [|x l]; [split; [exact C|exact S2]|]. rewrite Ets by done. done. }
    destruct C0 as [C0 S20].
    set (st1 := add_warm (Z.of_nat (length wl)) st) in *.
    (* the warm-up part *)
    assert (B : exists n k rd' q' c2 sd2 nw bs3 bs4,
       lsteps n (mkL (if bool_decide (0 < sp_nwarm P) || bool_decide (0 < sp_sec P)
                      then PWu else PLoop) sd1 rd wrd q ts 0 tmp0, c1, st1)
         (mkL PLoop sd2 rd' wrd q' ts nw tmp0, c2, add_warm (Z.of_nat k) st1) /\
       warm_prefix (sp_nwarm P) (sp_sec P) l k /\ (k <= length l)%nat /\
       serves c1 sd1 (map (shifted ts) (take k l)) c2 sd2 bs3 /\
       serves c2 sd2 (map (shifted ts) (drop k l)) c' sd bs4 /\
       cur (shifted ts) rd' q' (drop k l) q2).
    { destruct (bool_decide (0 < sp_nwarm P) || bool_decide (0 < sp_sec P)) eqn:EW.
      - destruct (wu_loop ts l (mkL PWu sd1 rd wrd q ts 0 tmp0) c1 st1 c' sd bs2 q2
                    eq_refl eq_refl C0 S20)
          as (n & k & rd' & q' & c2 & sd2 & bs3 & bs4 & L & Hk & H1 & H2 & S3 & S4 & C2).
        cbn in L, H1, H2, S3, S4.
        eexists _, k, rd', q', c2, sd2, _, bs3, bs4. split_and!.
        + eapply lsteps_trans; [exact L|]. one; [cbn; reflexivity|]. cbn. constructor.
        + unfold warm_prefix. split.
          * intros i Hi. split.
            { apply orb_true_iff in EW as [EW|EW]; apply bool_decide_eq_true in EW; lia. }
            destruct (lookup_lt_is_Some_2 l i ltac:(lia)) as [x Hx].
            exists x. split; [done|]. rewrite <- Ets by (intros ->; done).
            exact (H1 i x Hi Hx).
          * intros (_ & x & Hx & K). apply (H2 x Hx).
            rewrite Ets by (intros ->; done). exact K.
        + exact Hk.
        + exact S3.
        + exact S4.
        + exact C2.
      - apply orb_false_iff in EW as [E1 E2]. apply bool_decide_eq_false in E1, E2.
        eexists 0%nat, 0%nat, rd, q, c1, sd1, _, [], bs2. split_and!.
        + assert (Es : add_warm (Z.of_nat 0) st1 = st1).
          { unfold add_warm. destruct st1. cbn. f_equal. lia. }
          rewrite Es. constructor.
        + unfold warm_prefix. split; [lia|]. intros [[K|K] _]; lia.
        + lia.
        + cbn. constructor.
        + exact S20.
        + exact C0. }
    destruct B as (n2 & k & rd' & q' & c2 & sd2 & nw & bs3 & bs4 & L2 & Hk & Hkl & S3 & S4 & C2).
    destruct (main_loop ts (drop k l) (mkL PLoop sd2 rd' wrd q' ts nw tmp0) c2
                (add_warm (Z.of_nat k) st1) c' sd bs4 q2 eq_refl eq_refl C2 S4)
      as (n3 & rd3 & L3). cbn in L3.
    eexists _, _, _. split.
    { eapply (lsteps_trans 2).
      { one; [cbn; reflexivity|]. one; [cbn; reflexivity|]. cbn. constructor. }
      eapply lsteps_trans; [exact L1|].
      eapply (lsteps_trans 1).
      { one; [cbn; rewrite Er; cbn; reflexivity|]. cbn. constructor. }
      eapply lsteps_trans; [exact L2|].
      eapply lsteps_trans; [exact L3|].
      one; [cbn; reflexivity|]. constructor. }
    split; [done|].
    assert (Et : map (shifted ts) (take k l) = map (shifted (start_of l)) (take k l) /\
                 map (shifted ts) (drop k l) = map (shifted (start_of l)) (drop k l)).
    { destruct l as [|x l]; [destruct k; done|]. rewrite Ets by done. done. }
    destruct Et as [Et1 Et2]. rewrite Et1 in S3. rewrite Et2 in S4.
    exists k, bs1, bs3, bs4, c1, sd1, c2, sd2, sd.
    unfold st1, st. cbn. rewrite drop_length.
    split; [exact Hk|]. split; [exact S1|]. split; [exact S3|]. split; [exact S4|].
    split_and!; try lia; try done.
  Qed.
End facts.
