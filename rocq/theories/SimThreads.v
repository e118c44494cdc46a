(** All interleavings of the simulator's threads. *)
From stdpp Require Import gmap list numbers fin_maps.
From Verif Require Import Base Driver ModelReader ModelSim SpecSim SimulatorFacts.
Open Scope Z_scope.

Lemma sum_upd (f g : nat -> nat) i n :
  (i < n)%nat -> (forall j, j <> i -> g j = f j) ->
  (sum_list_with g (seq 0 n) + f i = sum_list_with f (seq 0 n) + g i)%nat.
Proof.
  intros Hi H.
  assert (G : forall a k, (forall j, (a <= j < a + k)%nat -> j <> i) ->
     sum_list_with g (seq a k) = sum_list_with f (seq a k)).
  { intros a k. revert a. induction k as [|k IH]; intros a Ha; [done|]. cbn.
    rewrite H by (apply Ha; lia). rewrite IH; [done|]. intros j Hj. apply Ha. lia. }
  replace n with (i + (1 + (n - i - 1)))%nat by lia.
  rewrite !seq_app, !sum_list_with_app. cbn.
  rewrite (G 0%nat i) by lia. rewrite (G (i + 1)%nat) by lia. lia.
Qed.

Lemma sum_ext (f g : nat -> nat) n :
  (forall j, (j < n)%nat -> g j = f j) ->
  sum_list_with g (seq 0 n) = sum_list_with f (seq 0 n).
Proof.
  intros H. assert (G : forall a k, (a + k <= n)%nat ->
     sum_list_with g (seq a k) = sum_list_with f (seq a k)).
  { intros a k. revert a. induction k as [|k IH]; intros a Ha; [done|]. cbn.
    rewrite H by lia. rewrite IH by lia. done. }
  apply G. lia.
Qed.

Lemma sum_le (f : nat -> nat) b n :
  (forall j, (j < n)%nat -> (f j <= b)%nat) -> (sum_list_with f (seq 0 n) <= b * n)%nat.
Proof.
  intros H. assert (G : forall a k, (a + k <= n)%nat ->
     (sum_list_with f (seq a k) <= b * k)%nat).
  { intros a k. revert a. induction k as [|k IH]; intros a Ha; cbn; [lia|].
    assert (f a <= b)%nat by (apply H; lia). specialize (IH (S a) ltac:(lia)). lia. }
  apply G. lia.
Qed.

Lemma sum_const (f : nat -> nat) b n :
  (forall j, (j < n)%nat -> f j = b) -> sum_list_with f (seq 0 n) = (b * n)%nat.
Proof.
  intros H. rewrite (sum_ext (fun _ => b) f n) by done.
  generalize 0%nat. induction n as [|n IH]; intros a; cbn; [lia|].
  rewrite IH; [lia|]. intros j Hj. apply H. lia.
Qed.

Global Instance pc_eq_dec : EqDecision pc.
Proof. solve_decision. Defined.

Section threads.
  Context {R : Type} (read : R -> treq -> res (R * treq * Z)) (clone : R -> R).
  Context (P : sparams (R := R)) (src : source).
  Context (n : nat) (c0 c1 : nat -> acache) (good : nat -> cstat -> Prop) (N : nat -> nat).
  Context (Hn : (0 < n)%nat) (Hn63 : Z.of_nat n < 2 ^ 63).

  (** A task just started on a thread whose generator holds [seed]. *)
  Definition fresh_job (seed : Z) : @lstate R :=
    mkL PSeed seed (sp_reader P) (sp_reader P) ∅ 0 0 0.

  Context (Hpath : forall i seed, (i < n)%nat -> exists k lF sF,
    lsteps read clone P k (fresh_job seed, c0 i, set_csize (ac_size (c0 i)) stat0) (lF, c1 i, sF) /\
    l_pc lF = PLock /\ good i sF /\ (k <= N i)%nat).
  Context (Hsrc : forall mk i, src = Created mk -> (i < n)%nat -> mk i = c0 i).

  Inductive phase : Type := NotPushed | Queued | RunL (w : nat) | RunS (w : nat) | Fin.

  Definition cache_at (m : machine (R := R)) (i : nat) (c : acache) : Prop :=
    exists p, m_caches m !! i = Some (Some p) /\ m_heap m !! p = Some c.

  Definition good_at (m : machine (R := R)) (i : nat) : Prop :=
    cache_at m i (c1 i) /\ exists s, m_res m !! i = Some s /\ good i s.

  Definition runl (m : machine (R := R)) (w i : nat) (l : @lstate R) (rk : nat) : Prop :=
    match l_pc l with
    | PLoad => good_at m i /\ m_mtx m = Some w /\ rk = 6%nat
    | PStore => good_at m i /\ m_mtx m = Some w /\ l_tmp l = m_prog m /\ rk = 5%nat
    | PUnlock | PFree => False
    | _ => exists c s k lF sF, cache_at m i c /\ m_res m !! i = Some s /\
             lsteps read clone P k (l, c, s) (lF, c1 i, sF) /\ l_pc lF = PLock /\ good i sF /\
             rk = (k + 7)%nat
    end.

  Definition runs (m : machine (R := R)) (w i : nat) (l : @lstate R) (rk : nat) : Prop :=
    good_at m i /\
    (l_pc l = PUnlock /\ m_mtx m = Some w /\ rk = 4%nat \/ l_pc l = PFree /\ rk = 3%nat).

  Definition task_inv (m : machine (R := R)) (i : nat) (ph : phase) (rk : nat) : Prop :=
    match ph with
    | NotPushed =>
        (match src with Given => cache_at m i (c0 i)
                      | Created _ => m_caches m !! i = Some None end) /\
        m_res m !! i = Some stat0 /\ rk = (N i + 10)%nat
    | Queued =>
        cache_at m i (c0 i) /\ m_res m !! i = Some (set_csize (ac_size (c0 i)) stat0) /\
        rk = (N i + 9)%nat
    | RunL w => exists seed l, m_work m !! w = Some (mkW seed (Some (i, l))) /\ runl m w i l rk
    | RunS w => exists seed l, m_work m !! w = Some (mkW seed (Some (i, l))) /\ runs m w i l rk
    | Fin => (exists s, m_res m !! i = Some s /\ good i s) /\
             (sp_free P = false -> cache_at m i (c1 i)) /\ rk = 0%nat
    end.

  Definition stored (ph : phase) : nat := match ph with RunS _ | Fin => 1 | _ => 0 end.

  Definition main_rank (p : mainpc) : nat :=
    match p with MPush _ => 3 | MWait => 2 | MJoin => 1 | MDone => 0 end.

  Record ginv (mu : nat) (m : machine (R := R)) (ph : nat -> phase) (rk : nat -> nat) : Prop := {
    gi_len : length (m_caches m) = n;
    gi_rlen : length (m_res m) = n;
    gi_ptr : forall i j p, m_caches m !! i = Some (Some p) -> m_caches m !! j = Some (Some p) -> i = j;
    gi_fresh : match src with
               | Given => True
               | Created _ => forall i p, m_caches m !! i = Some (Some p) -> (p < m_fresh m)%nat
               end;
    gi_task : forall i, (i < n)%nat -> task_inv m i (ph i) (rk i);
    gi_job : forall w seed i l, m_work m !! w = Some (mkW seed (Some (i, l))) ->
               (i < n)%nat /\ (ph i = RunL w \/ ph i = RunS w);
    gi_qin : forall d, d ∈ m_queue m -> exists i, (i < n)%nat /\ d = (i + 1)%nat /\ ph i = Queued;
    gi_qout : forall i, (i < n)%nat -> ph i = Queued -> (i + 1)%nat ∈ m_queue m;
    gi_qnd : NoDup (m_queue m);
    gi_mtx : forall w, m_mtx m = Some w -> exists seed i l,
               m_work m !! w = Some (mkW seed (Some (i, l))) /\
               (l_pc l = PLoad \/ l_pc l = PStore \/ l_pc l = PUnlock);
    gi_prog : m_prog m = Z.of_nat (sum_list_with (fun i => stored (ph i)) (seq 0 n));
    gi_main : match m_main m with
              | MPush k => (1 <= k <= n + 1)%nat /\
                  forall i, (i < n)%nat -> (ph i = NotPushed <-> (k <= i + 1)%nat)
              | MDone => forall i, (i < n)%nat -> ph i = Fin
              | _ => forall i, (i < n)%nat -> ph i <> NotPushed
              end;
    gi_mu : mu = (main_rank (m_main m) + sum_list_with rk (seq 0 n))%nat
  }.

  Definition inv (mu : nat) (m : machine (R := R)) : Prop := exists ph rk, ginv mu m ph rk.

  (** Task [j] is not touched. *)
  Lemma task_frame m m' j ph rk :
    task_inv m j ph rk ->
    m_caches m' !! j = m_caches m !! j ->
    (forall p, m_caches m !! j = Some (Some p) -> m_heap m' !! p = m_heap m !! p) ->
    m_res m' !! j = m_res m !! j ->
    (forall w, ph = RunL w \/ ph = RunS w -> m_work m' !! w = m_work m !! w) ->
    (forall w, ph = RunL w \/ ph = RunS w -> m_mtx m = Some w ->
       m_mtx m' = Some w /\ m_prog m' = m_prog m) ->
    task_inv m' j ph rk.
  Proof.
    intros H Hc Hh Hr Hw Hx.
    assert (CA : forall c, cache_at m j c -> cache_at m' j c).
    { intros c (p & H1 & H2). exists p. rewrite Hc, (Hh p H1). done. }
    assert (GA : good_at m j -> good_at m' j).
    { intros [H1 H2]. split; [by apply CA|]. rewrite Hr. exact H2. }
    destruct ph as [| |w|w|]; cbn in H |- *; rewrite ?Hr.
    - destruct H as (H1 & H2 & H3). split; [|done]. destruct src; [by apply CA|]. rewrite Hc. done.
    - destruct H as (H1 & H2 & H3). split; [by apply CA|]. done.
    - destruct H as (sd & l & H1 & H2). exists sd, l. rewrite (Hw w) by tauto. split; [done|].
      unfold runl in *. specialize (Hx w ltac:(tauto)).
      destruct (l_pc l); try done;
        try (destruct H2 as (c & s & k & lF & sF & A1 & A2 & A3); exists c, s, k, lF, sF;
             rewrite Hr; split; [by apply CA|]; split; [done|]; exact A3).
      + destruct H2 as (A1 & A2 & A3). split; [by apply GA|]. destruct (Hx A2). done.
      + destruct H2 as (A1 & A2 & A3 & A4). split; [by apply GA|]. destruct (Hx A2) as [B1 B2].
        rewrite B2. done.
    - destruct H as (sd & l & H1 & H2). exists sd, l. rewrite (Hw w) by tauto. split; [done|].
      unfold runs in *. specialize (Hx w ltac:(tauto)). destruct H2 as [A1 A2].
      split; [by apply GA|]. destruct A2 as [(A2 & A3 & A4)|A2]; [left|right; done].
      destruct (Hx A3). done.
    - destruct H as (H1 & H2 & H3). split; [done|]. split; [|done]. intros F. apply CA, H2, F.
  Qed.

  Definition upd {A} (f : nat -> A) (i : nat) (x : A) (j : nat) : A :=
    if decide (j = i) then x else f j.
  Lemma upd_eq {A} (f : nat -> A) i x : upd f i x i = x.
  Proof. unfold upd. by rewrite decide_True. Qed.
  Lemma upd_ne {A} (f : nat -> A) i j x : j <> i -> upd f i x j = f j.
  Proof. intros. unfold upd. by rewrite decide_False. Qed.

  (** Two workers never run the same task. *)
  Lemma other_worker mu m ph rk w seed i l j w2 :
    ginv mu m ph rk -> m_work m !! w = Some (mkW seed (Some (i, l))) -> j <> i ->
    (j < n)%nat -> ph j = RunL w2 \/ ph j = RunS w2 -> w2 <> w.
  Proof.
    intros G Hw Hj Hjn Hp ->. assert (T := gi_task _ _ _ _ G j Hjn).
    destruct Hp as [E|E]; rewrite E in T; destruct T as (sd & l' & H1 & _); congruence.
  Qed.

  (** ** The steps of a worker *)

  Lemma step_start mu m w seed :
    inv mu m -> m_work m !! w = Some (mkW seed None) ->
    start_job P m w seed = m /\ m_queue m = [] \/
    exists mu', inv mu' (start_job P m w seed) /\ (mu' < mu)%nat.
  Proof.
    intros (ph & rk & G) Hw. unfold start_job.
    destruct (m_queue m) as [|d rest] eqn:Eq; [by left|]. right.
    destruct (gi_qin _ _ _ _ G d) as (i & Hi & -> & Ep); [rewrite Eq; left|].
    replace (i + 1 - 1)%nat with i by lia. fold (fresh_job seed).
    destruct (Hpath i seed Hi) as (k & lF & sF & L & HF & Hg & HN).
    assert (T := gi_task _ _ _ _ G i Hi). rewrite Ep in T. cbn in T.
    destruct T as (T1 & T2 & T3).
    set (ph' := upd ph i (RunL w)). set (rk' := upd rk i (k + 7)%nat).
    set (m' := mkM _ _ _ _ _ _ _ _ _).
    assert (Hidle : forall j w2, (j < n)%nat -> ph j = RunL w2 \/ ph j = RunS w2 -> w2 <> w).
    { intros j w2 Hj Hp ->. assert (T := gi_task _ _ _ _ G j Hj).
      destruct Hp as [E|E]; rewrite E in T; destruct T as (sd & l' & H1 & _); congruence. }
    assert (ND := gi_qnd _ _ _ _ G). rewrite Eq in ND. apply NoDup_cons in ND as [ND1 ND2].
    exists (main_rank (m_main m) + sum_list_with rk' (seq 0 n))%nat. split.
    - exists ph', rk'. split; try done.
      + exact (gi_len _ _ _ _ G).
      + exact (gi_rlen _ _ _ _ G).
      + exact (gi_ptr _ _ _ _ G).
      + exact (gi_fresh _ _ _ _ G).
      + intros j Hj. unfold ph', rk'. destruct (decide (j = i)) as [->|Hji].
        * rewrite !upd_eq. cbn. exists seed, (fresh_job seed). split.
          { apply list_lookup_insert. eapply lookup_lt_Some. exact Hw. }
          cbn. exists (c0 i), (set_csize (ac_size (c0 i)) stat0), k, lF, sF.
          split; [exact T1|]. done.
        * rewrite !upd_ne by done. eapply task_frame; [exact (gi_task _ _ _ _ G j Hj)|..]; try done.
          intros w2 Hp. cbn. rewrite list_lookup_insert_ne; [done|].
          intros <-. by eapply Hidle.
      + intros w2 sd2 j l2 Hj. cbn in Hj. unfold ph'.
        destruct (decide (w2 = w)) as [->|Hne].
        * rewrite list_lookup_insert in Hj by (eapply lookup_lt_Some; exact Hw).
          injection Hj as <- <- <-. rewrite upd_eq. auto.
        * rewrite list_lookup_insert_ne in Hj by done.
          destruct (gi_job _ _ _ _ G _ _ _ _ Hj) as [A1 A2]. split; [done|].
          destruct (decide (j = i)) as [->|Hji]; [rewrite Ep in A2; destruct A2; done|].
          rewrite upd_ne by done. done.
      + intros d Hd. cbn in Hd. destruct (gi_qin _ _ _ _ G d) as (j & Hj & -> & E).
        { rewrite Eq. by right. }
        exists j. split; [done|]. split; [done|]. unfold ph'. rewrite upd_ne; [done|].
        intros ->. done.
      + intros j Hj Hq. cbn. unfold ph' in Hq. destruct (decide (j = i)) as [->|Hji].
        { rewrite upd_eq in Hq. done. }
        rewrite upd_ne in Hq by done. assert (A := gi_qout _ _ _ _ G j Hj Hq). rewrite Eq in A.
        apply elem_of_cons in A as [A|A]; [lia|done].
      + intros w2 Hm. cbn in Hm |- *. destruct (gi_mtx _ _ _ _ G w2 Hm) as (sd2 & j & l2 & A1 & A2).
        exists sd2, j, l2. rewrite list_lookup_insert_ne; [done|]. intros <-. congruence.
      + cbn. rewrite (gi_prog _ _ _ _ G). f_equal. apply sum_ext. intros j Hj. unfold ph'.
        destruct (decide (j = i)) as [->|Hji]; [rewrite upd_eq, Ep; done|rewrite upd_ne by done; done].
      + cbn. assert (M := gi_main _ _ _ _ G).
        assert (K : forall j, (j < n)%nat -> ph' j = NotPushed <-> ph j = NotPushed).
        { intros j Hj. unfold ph'. destruct (decide (j = i)) as [->|Hji];
          [rewrite upd_eq, Ep; done|rewrite upd_ne by done; done]. }
        destruct (m_main m).
        * destruct M as [M1 M2]. split; [done|]. intros j Hj. rewrite K by done. by apply M2.
        * intros j Hj. rewrite K by done. by apply M.
        * intros j Hj. rewrite K by done. by apply M.
        * specialize (M i Hi). congruence.
    - rewrite (gi_mu _ _ _ _ G).
      assert (S1 := sum_upd rk rk' i n Hi ltac:(intros; unfold rk'; by apply upd_ne)).
      unfold rk' in S1 at 2. rewrite upd_eq in S1. lia.
  Qed.

  (** A worker changes only its own task. *)
  Lemma step_own mu m ph rk w seed i l m' p' r' :
    ginv mu m ph rk -> m_work m !! w = Some (mkW seed (Some (i, l))) ->
    m_main m' = m_main m -> m_caches m' = m_caches m -> m_fresh m' = m_fresh m ->
    m_queue m' = m_queue m ->
    length (m_res m') = n ->
    (exists wk, m_work m' = <[w := wk]> (m_work m) /\
       match p' with RunL x | RunS x => x = w /\ exists sd l', wk = mkW sd (Some (i, l'))
                   | Fin => exists sd, wk = mkW sd None | _ => False end) ->
    (forall j, j <> i -> m_res m' !! j = m_res m !! j) ->
    (forall p, m_caches m !! i <> Some (Some p) -> m_heap m' !! p = m_heap m !! p) ->
    (m_mtx m' = m_mtx m /\ m_prog m' = m_prog m \/ m_mtx m = None \/ m_mtx m = Some w) ->
    m_prog m' = (m_prog m + Z.of_nat (stored p') - Z.of_nat (stored (ph i)))%Z ->
    (forall w2, m_mtx m' = Some w2 -> 
       w2 = w /\ (exists sd l', m_work m' !! w = Some (mkW sd (Some (i, l'))) /\
                  (l_pc l' = PLoad \/ l_pc l' = PStore \/ l_pc l' = PUnlock)) \/
       w2 <> w /\ m_mtx m = Some w2) ->
    task_inv m' i p' r' -> (r' < rk i)%nat ->
    exists mu', inv mu' m' /\ (mu' < mu)%nat.
  Proof.
    intros G Hw Emain Ecac Efr Equ Hrl (wk & Ewk & Hwk) Hres Hheap Hmtx Hprog Hmtx' HT Hlt.
    destruct (gi_job _ _ _ _ G _ _ _ _ Hw) as [Hi Hrun].
    set (ph' := upd ph i p'). set (rk' := upd rk i r').
    assert (Hwl : (w < length (m_work m))%nat) by (eapply lookup_lt_Some; exact Hw).
    assert (Hp' : p' = RunL w \/ p' = RunS w \/ p' = Fin).
    { destruct p'; try done; [left|right;left|tauto]; destruct Hwk as [-> _]; done. }
    assert (Hnq : forall j, (j < n)%nat -> ph' j = Queued <-> ph j = Queued).
    { intros j Hj. unfold ph'. destruct (decide (j = i)) as [->|Hji];
        [rewrite upd_eq|rewrite upd_ne by done; done].
      destruct Hrun as [-> | ->], Hp' as [->|[->| ->]]; done. }
    assert (Hnp : forall j, (j < n)%nat -> ph' j = NotPushed <-> ph j = NotPushed).
    { intros j Hj. unfold ph'. destruct (decide (j = i)) as [->|Hji];
        [rewrite upd_eq|rewrite upd_ne by done; done].
      destruct Hrun as [-> | ->], Hp' as [->|[->| ->]]; done. }
    exists (main_rank (m_main m) + sum_list_with rk' (seq 0 n))%nat. split.
    - exists ph', rk'. split.
      + rewrite Ecac. exact (gi_len _ _ _ _ G).
      + exact Hrl.
      + rewrite Ecac. exact (gi_ptr _ _ _ _ G).
      + rewrite Ecac, Efr. exact (gi_fresh _ _ _ _ G).
      + intros j Hj. unfold ph', rk'. destruct (decide (j = i)) as [->|Hji].
        * rewrite !upd_eq. exact HT.
        * rewrite !upd_ne by done.
          eapply task_frame; [exact (gi_task _ _ _ _ G j Hj)|..].
          -- by rewrite Ecac.
          -- intros p Hp. apply Hheap. intros Hp2. apply Hji.
             exact (gi_ptr _ _ _ _ G _ _ _ Hp Hp2).
          -- by apply Hres.
          -- intros w2 Hp2. rewrite Ewk. rewrite list_lookup_insert_ne; [done|].
             intros <-. by eapply (other_worker mu m ph rk w seed i l j w).
          -- intros w2 Hp2 Hm2. destruct Hmtx as [[Hm Hp]|[Hm|Hm]].
             ++ rewrite Hm, Hp. done.
             ++ congruence.
             ++ assert (w2 = w) as -> by congruence. exfalso.
                by eapply (other_worker mu m ph rk w seed i l j w).
      + intros w2 sd2 j l2 Hj. rewrite Ewk in Hj. unfold ph'.
        destruct (decide (w2 = w)) as [->|Hne].
        * rewrite list_lookup_insert in Hj by done. injection Hj as ->.
          destruct p' as [| |x|x|]; try done.
          -- destruct Hwk as (-> & sd & l' & [= -> -> ->]). rewrite upd_eq. auto.
          -- destruct Hwk as (-> & sd & l' & [= -> -> ->]). rewrite upd_eq. auto.
          -- destruct Hwk as (sd & [=]).
        * rewrite list_lookup_insert_ne in Hj by done.
          destruct (gi_job _ _ _ _ G _ _ _ _ Hj) as [A1 A2]. split; [done|].
          destruct (decide (j = i)) as [->|Hji].
          { destruct Hrun as [B|B]; rewrite B in A2; destruct A2; congruence. }
          rewrite upd_ne by done. done.
      + intros d Hd. rewrite Equ in Hd. destruct (gi_qin _ _ _ _ G d Hd) as (j & Hj & -> & E).
        exists j. split; [done|]. split; [done|]. by apply Hnq.
      + intros j Hj Hq. rewrite Equ. apply (gi_qout _ _ _ _ G j Hj). by apply Hnq.
      + rewrite Equ. exact (gi_qnd _ _ _ _ G).
      + intros w2 Hm. destruct (Hmtx' w2 Hm) as [(-> & sd & l' & A1 & A2)|(Hne & Hm2)].
        * exists sd, i, l'. done.
        * destruct (gi_mtx _ _ _ _ G w2 Hm2) as (sd2 & j & l2 & A1 & A2).
          exists sd2, j, l2. rewrite Ewk, list_lookup_insert_ne by done. done.
      + rewrite Hprog, (gi_prog _ _ _ _ G).
        assert (S1 := sum_upd (fun j => stored (ph j)) (fun j => stored (ph' j)) i n Hi
          ltac:(intros; unfold ph'; by rewrite upd_ne)). cbn in S1.
        unfold ph' in S1 at 2. rewrite upd_eq in S1. lia.
      + rewrite Emain. assert (M := gi_main _ _ _ _ G). destruct (m_main m).
        * destruct M as [M1 M2]. split; [done|]. intros j Hj. rewrite Hnp by done. by apply M2.
        * intros j Hj. rewrite Hnp by done. by apply M.
        * intros j Hj. rewrite Hnp by done. by apply M.
        * specialize (M i Hi). destruct Hrun; congruence.
      + rewrite Emain. done.
    - rewrite (gi_mu _ _ _ _ G).
      assert (S1 := sum_upd rk rk' i n Hi ltac:(intros; unfold rk'; by apply upd_ne)).
      unfold rk' in S1 at 2. rewrite upd_eq in S1. lia.
  Qed.

  Lemma step_worker mu m w seed i l :
    inv mu m -> m_work m !! w = Some (mkW seed (Some (i, l))) ->
    exists m', wstep read clone P m w i l = Ok m' /\
      (m' = m /\ l_pc l = PLock /\ (exists w2, m_mtx m = Some w2) \/
       exists mu', inv mu' m' /\ (mu' < mu)%nat).
  Proof.
    intros (ph & rk & G) Hw.
    destruct (gi_job _ _ _ _ G _ _ _ _ Hw) as [Hi Hrun].
    assert (T := gi_task _ _ _ _ G i Hi).
    assert (Hwl : (w < length (m_work m))%nat) by (eapply lookup_lt_Some; exact Hw).
    assert (Hmh : forall w2, m_mtx m = Some w2 -> w2 <> w -> w2 <> w /\ m_mtx m = Some w2) by done.
    destruct Hrun as [E|E]; rewrite E in T; destruct T as (sd' & l' & Hw' & T);
      rewrite Hw in Hw'; injection Hw' as <- <-.
    - (* before the store *)
      assert (Hst : stored (ph i) = 0%nat) by (rewrite E; done).
      destruct (decide (l_pc l = PLoad)) as [El|NLoad].
      { unfold wstep. rewrite El. eexists. split; [done|]. right.
        unfold runl in T. rewrite El in T. destruct T as (T1 & T2 & T3).
        eapply (step_own mu m ph rk w seed i l _ (RunL w) 5%nat G Hw); try done.
        - exact (gi_rlen _ _ _ _ G).
        - eexists. split; [reflexivity|]. split; [done|]. eauto.
        - tauto.
        - cbn. rewrite Hst. lia.
        - cbn. intros w2 Hm. left. split; [congruence|]. eexists _, _. split.
          { apply list_lookup_insert. done. } cbn. tauto.
        - cbn. eexists _, _. split; [apply list_lookup_insert; done|].
          unfold runl. cbn. done.
        - lia. }
      destruct (decide (l_pc l = PStore)) as [El|NStore].
      { unfold wstep. rewrite El. eexists. split; [done|]. right.
        unfold runl in T. rewrite El in T. destruct T as (T1 & T2 & T3 & T4).
        eapply (step_own mu m ph rk w seed i l _ (RunS w) 4%nat G Hw); try done.
        - exact (gi_rlen _ _ _ _ G).
        - eexists. split; [reflexivity|]. split; [done|]. eauto.
        - tauto.
        - cbn. rewrite Hst, T3. lia.
        - cbn. intros w2 Hm. left. split; [congruence|]. eexists _, _. split.
          { apply list_lookup_insert. done. } cbn. tauto.
        - cbn. eexists _, _. split; [apply list_lookup_insert; done|].
          unfold runs. cbn. split; [exact T1|]. tauto.
        - lia. }
      destruct (decide (l_pc l = PUnlock)) as [El|NUn].
      { unfold runl in T. rewrite El in T. done. }
      destruct (decide (l_pc l = PFree)) as [El|NFree].
      { unfold runl in T. rewrite El in T. done. }
      assert (T' : exists c s k lF sF, cache_at m i c /\ m_res m !! i = Some s /\
             lsteps read clone P k (l, c, s) (lF, c1 i, sF) /\ l_pc lF = PLock /\ good i sF /\
             rk i = (k + 7)%nat).
      { unfold runl in T. destruct (l_pc l); done. }
      clear T. destruct T' as (c & s & k & lF & sF & Hc & Hr & L & HF & Hg & Hrk).
      destruct (decide (l_pc l = PLock)) as [El|NLock].
      { (* the lock *)
        assert (k = 0%nat /\ l = lF /\ c = c1 i /\ s = sF) as (-> & -> & -> & ->).
        { inversion L; subst; [done|]. congruence. }
        unfold wstep. rewrite El. destruct (m_mtx m) as [w2|] eqn:Em.
        { eexists. split; [done|]. left. eauto. }
        eexists. split; [done|]. right.
        eapply (step_own mu m ph rk w seed i lF _ (RunL w) 6%nat G Hw); try done.
        - exact (gi_rlen _ _ _ _ G).
        - eexists. split; [reflexivity|]. split; [done|]. eauto.
        - tauto.
        - cbn. rewrite Hst. lia.
        - cbn. intros w2 [= <-]. left. split; [done|]. eexists _, _. split.
          { apply list_lookup_insert. done. } cbn. tauto.
        - cbn. eexists _, _. split; [apply list_lookup_insert; done|].
          unfold runl. cbn. split; [|done]. split; [exact Hc|]. exists sF. done.
        - lia. }
      (* a local statement *)
      inversion L as [|k0 l0 c' s' [[l1 c2] s2] v2 ? ? ? ? ? Est L']; subst; [congruence|].
      destruct Hc as (p & Hp & Hh).
      assert (Ew : wstep read clone P m w i l = Ok
        (mkM (m_main m) (m_caches m) (<[p := c2]> (m_heap m)) (m_fresh m)
             (<[i := s2]> (m_res m)) (m_prog m) (m_mtx m) (m_queue m)
             (<[w := mkW (l_seed l1) (Some (i, l1))]> (m_work m)))).
      { unfold wstep, m_cache, m_stat. rewrite Hp, Hh, Hr. cbn [rbind]. rewrite Est. cbn [rbind].
        destruct (l_pc l); done. }
      rewrite Ew. eexists. split; [done|]. right.
      assert (Hil : (i < length (m_res m))%nat) by (eapply lookup_lt_Some; exact Hr).
      assert (Hnol : l_pc l1 <> PLoad /\ l_pc l1 <> PStore /\ l_pc l1 <> PUnlock /\ l_pc l1 <> PFree).
      { inversion L' as [v Ev|? ? ? ? ? ? ? ? ? ? ? ?]; subst.
        - rewrite HF. done.
        - done. }
      eapply (step_own mu m ph rk w seed i l _ (RunL w) (k0 + 7)%nat G Hw); try done.
      + cbn. rewrite insert_length. exact (gi_rlen _ _ _ _ G).
      + eexists. split; [reflexivity|]. split; [done|]. eauto.
      + intros j Hj. cbn. apply list_lookup_insert_ne. done.
      + intros p2 Hp2. cbn. apply lookup_insert_ne. intros <-. done.
      + tauto.
      + cbn. rewrite Hst. lia.
      + cbn. intros w2 Hm. right. split; [|done]. intros ->.
        destruct (gi_mtx _ _ _ _ G w Hm) as (sd2 & j2 & l2 & A1 & A2).
        rewrite Hw in A1. injection A1 as <- <- <-. destruct A2 as [A|[A|A]]; congruence.
      + cbn. exists (l_seed l1), l1. split; [apply list_lookup_insert; done|].
        unfold runl.
        assert (X : exists c s k lF0 sF0, cache_at
          (mkM (m_main m) (m_caches m) (<[p := c2]> (m_heap m)) (m_fresh m)
             (<[i := s2]> (m_res m)) (m_prog m) (m_mtx m) (m_queue m)
             (<[w := mkW (l_seed l1) (Some (i, l1))]> (m_work m))) i c /\
          <[i := s2]> (m_res m) !! i = Some s /\
          lsteps read clone P k (l1, c, s) (lF0, c1 i, sF0) /\ l_pc lF0 = PLock /\ good i sF0 /\
          (k0 + 7)%nat = (k + 7)%nat).
        { exists c2, s2, k0, lF, sF. split.
          - exists p. cbn. rewrite lookup_insert. done.
          - split; [apply list_lookup_insert; done|]. done. }
        destruct Hnol as (X1 & X2 & X3 & X4). cbn.
        destruct (l_pc l1); done.
      + lia.
    - (* after the store *)
      assert (Hst : stored (ph i) = 1%nat) by (rewrite E; done).
      destruct T as [T1 [(El & Hm & Hrk)|(El & Hrk)]]; unfold wstep; rewrite El.
      + eexists. split; [done|]. right.
        eapply (step_own mu m ph rk w seed i l _ (RunS w) 3%nat G Hw); try done.
        * exact (gi_rlen _ _ _ _ G).
        * eexists. split; [reflexivity|]. split; [done|]. eauto.
        * tauto.
        * cbn. rewrite Hst. lia.
        * cbn. eexists _, _. split; [apply list_lookup_insert; done|].
          unfold runs. cbn. split; [exact T1|]. tauto.
        * lia.
      + assert (Hmm : forall w2, m_mtx m = Some w2 -> w2 <> w).
        { intros w2 Hm ->. destruct (gi_mtx _ _ _ _ G w Hm) as (sd2 & j2 & l2 & A1 & A2).
          rewrite Hw in A1. injection A1 as <- <- <-. destruct A2 as [A|[A|A]]; congruence. }
        destruct T1 as [(p & Hp & Hh) (s & Hr & Hg)].
        destruct (sp_free P) eqn:Ef.
        * unfold m_cache. rewrite Hp, Hh. cbn [rbind]. eexists. split; [done|]. right.
          eapply (step_own mu m ph rk w seed i l _ Fin 0%nat G Hw); try done.
          -- exact (gi_rlen _ _ _ _ G).
          -- eexists. split; [reflexivity|]. eauto.
          -- intros p2 Hp2. cbn. apply lookup_delete_ne. intros <-. done.
          -- tauto.
          -- cbn. rewrite Hst. lia.
          -- cbn. intros w2 Hm. right. split; [by apply Hmm|done].
          -- cbn. split; [exists s; done|]. split; [congruence|done].
          -- lia.
        * eexists. split; [done|]. right.
          eapply (step_own mu m ph rk w seed i l _ Fin 0%nat G Hw); try done.
          -- exact (gi_rlen _ _ _ _ G).
          -- eexists. split; [reflexivity|]. eauto.
          -- tauto.
          -- cbn. rewrite Hst. lia.
          -- cbn. intros w2 Hm. right. split; [by apply Hmm|done].
          -- cbn. split; [exists s; done|]. split; [|done]. intros _. exists p. done.
          -- lia.
  Qed.

  (** ** The steps of the main thread *)

  (** Only the main thread's program point changes. *)
  Lemma step_mainpc mu m x :
    inv mu m ->
    (match x with
     | MPush _ => False
     | MWait => m_main m = MPush (n + 1)
     | MJoin => m_main m = MWait
     | MDone => m_main m = MJoin /\ m_queue m = [] /\ forallb idle (m_work m) = true
     end) ->
    exists mu', inv mu' (m_set_main m x) /\ (mu' < mu)%nat.
  Proof.
    intros (ph & rk & G) Hx.
    exists (main_rank x + sum_list_with rk (seq 0 n))%nat. split.
    - exists ph, rk. split.
      + exact (gi_len _ _ _ _ G).
      + exact (gi_rlen _ _ _ _ G).
      + exact (gi_ptr _ _ _ _ G).
      + exact (gi_fresh _ _ _ _ G).
      + intros j Hj. eapply task_frame; [exact (gi_task _ _ _ _ G j Hj)|..]; done.
      + exact (gi_job _ _ _ _ G).
      + exact (gi_qin _ _ _ _ G).
      + exact (gi_qout _ _ _ _ G).
      + exact (gi_qnd _ _ _ _ G).
      + exact (gi_mtx _ _ _ _ G).
      + exact (gi_prog _ _ _ _ G).
      + cbn. assert (M := gi_main _ _ _ _ G). destruct x as [k| | |]; [done|..].
        * rewrite Hx in M. intros i Hi E. destruct M as [_ M]. apply M in E; lia.
        * rewrite Hx in M. exact M.
        * destruct Hx as (Hx & Hq & Hid). rewrite Hx in M. intros i Hi.
          assert (T := gi_task _ _ _ _ G i Hi). specialize (M i Hi).
          assert (Hb : forall w seed l, m_work m !! w <> Some (mkW seed (Some (i, l)))).
          { intros w seed l E. rewrite forallb_forall in Hid.
            apply elem_of_list_lookup_2, elem_of_list_In, Hid in E. done. }
          destruct (ph i) as [| |w|w|] eqn:E; try done.
          -- assert (A := gi_qout _ _ _ _ G i Hi E). rewrite Hq in A. by apply elem_of_nil in A.
          -- destruct T as (sd & l & T & _). by apply Hb in T.
          -- destruct T as (sd & l & T & _). by apply Hb in T.
      + done.
    - rewrite (gi_mu _ _ _ _ G). destruct x as [k| | |]; cbn; [done|..].
      + rewrite Hx. cbn. lia.
      + rewrite Hx. cbn. lia.
      + destruct Hx as (-> & _). cbn. lia.
  Qed.

  Lemma step_push mu m ph rk k m' :
    ginv mu m ph rk -> m_main m = MPush k -> (k <= n)%nat ->
    m_main m' = MPush (k + 1) ->
    length (m_caches m') = n ->
    (forall j, j <> (k - 1)%nat -> m_caches m' !! j = m_caches m !! j /\
       forall p, m_caches m !! j = Some (Some p) -> m_heap m' !! p = m_heap m !! p) ->
    (forall i j p, m_caches m' !! i = Some (Some p) -> m_caches m' !! j = Some (Some p) -> i = j) ->
    (match src with
     | Given => True
     | Created _ => forall i p, m_caches m' !! i = Some (Some p) -> (p < m_fresh m')%nat
     end) ->
    cache_at m' (k - 1) (c0 (k - 1)%nat) ->
    m_res m' = <[(k - 1)%nat := set_csize (ac_size (c0 (k - 1)%nat)) stat0]> (m_res m) ->
    m_prog m' = m_prog m -> m_mtx m' = m_mtx m -> m_queue m' = m_queue m ++ [k] ->
    m_work m' = m_work m ->
    exists mu', inv mu' m' /\ (mu' < mu)%nat.
  Proof.
    intros G Em Hk Em' Hl Hc Hptr Hfr Hca Hres Hpr Hmx Hqu Hwk.
    assert (M := gi_main _ _ _ _ G). rewrite Em in M. destruct M as [[M1 M2] M3].
    set (i := (k - 1)%nat) in *. assert (Hi : (i < n)%nat) by lia.
    assert (Ei : ph i = NotPushed) by (apply M3; lia).
    assert (T := gi_task _ _ _ _ G i Hi). rewrite Ei in T. destruct T as (_ & T2 & T3).
    set (ph' := upd ph i Queued). set (rk' := upd rk i (N i + 9)%nat).
    exists (main_rank (m_main m') + sum_list_with rk' (seq 0 n))%nat. split.
    - exists ph', rk'. split.
      + exact Hl.
      + rewrite Hres, insert_length. exact (gi_rlen _ _ _ _ G).
      + exact Hptr.
      + exact Hfr.
      + intros j Hj. unfold ph', rk'. destruct (decide (j = i)) as [->|Hji].
        * rewrite !upd_eq. cbn. split; [exact Hca|]. split; [|done].
          rewrite Hres. apply list_lookup_insert. eapply lookup_lt_Some. exact T2.
        * rewrite !upd_ne by done. destruct (Hc j Hji) as [Hc1 Hc2].
          eapply task_frame; [exact (gi_task _ _ _ _ G j Hj)|..]; try done.
          -- rewrite Hres, list_lookup_insert_ne by done. done.
          -- rewrite Hwk. done.
          -- rewrite Hmx, Hpr. done.
      + rewrite Hwk. intros w sd j l Hj. destruct (gi_job _ _ _ _ G _ _ _ _ Hj) as [A1 A2].
        split; [done|]. unfold ph'. rewrite upd_ne; [done|]. intros ->. rewrite Ei in A2.
        destruct A2; done.
      + intros d Hd. rewrite Hqu in Hd. apply elem_of_app in Hd as [Hd|Hd].
        * destruct (gi_qin _ _ _ _ G d Hd) as (j & Hj & -> & E). exists j.
          split; [done|]. split; [done|]. unfold ph'. rewrite upd_ne; [done|]. intros ->. congruence.
        * apply elem_of_list_singleton in Hd as ->. exists i. split; [done|]. split; [lia|].
          unfold ph'. by rewrite upd_eq.
      + intros j Hj Hq. rewrite Hqu. apply elem_of_app. unfold ph' in Hq.
        destruct (decide (j = i)) as [->|Hji].
        * right. apply elem_of_list_singleton. lia.
        * rewrite upd_ne in Hq by done. left. by apply (gi_qout _ _ _ _ G).
      + rewrite Hqu. apply NoDup_app. split; [exact (gi_qnd _ _ _ _ G)|]. split.
        * intros d Hd Hd2. apply elem_of_list_singleton in Hd2 as ->.
          destruct (gi_qin _ _ _ _ G k Hd) as (j & Hj & E1 & E2).
          assert (j = i) as -> by lia. congruence.
        * apply NoDup_singleton.
      + rewrite Hmx, Hwk. exact (gi_mtx _ _ _ _ G).
      + rewrite Hpr, (gi_prog _ _ _ _ G). f_equal. apply sum_ext. intros j Hj. unfold ph'.
        destruct (decide (j = i)) as [->|Hji]; [rewrite upd_eq, Ei; done|rewrite upd_ne by done; done].
      + rewrite Em'. split; [lia|]. intros j Hj. unfold ph'.
        destruct (decide (j = i)) as [->|Hji].
        * rewrite upd_eq. split; [done|]. lia.
        * rewrite upd_ne by done. rewrite M3 by done. lia.
      + done.
    - rewrite (gi_mu _ _ _ _ G), Em, Em'. cbn.
      assert (S1 := sum_upd rk rk' i n Hi ltac:(intros; unfold rk'; by apply upd_ne)).
      unfold rk' in S1 at 2. rewrite upd_eq in S1. lia.
  Qed.

  (** The main thread is not waiting for anything. *)
  Definition main_waits (m : machine (R := R)) : Prop :=
    match m_main m with
    | MPush _ => False
    | MWait => u64 (m_prog m) < u64 (Z.of_nat n - 1)
    | MJoin => m_queue m <> [] \/ forallb idle (m_work m) = false
    | MDone => True
    end.

  Lemma step_main mu m :
    inv mu m ->
    exists m', mstep src m = Ok m' /\
      (m' = m /\ main_waits m \/ exists mu', inv mu' m' /\ (mu' < mu)%nat).
  Proof.
    intros I. destruct I as (ph & rk & G). assert (I : inv mu m) by (exists ph, rk; exact G).
    assert (Hl := gi_len _ _ _ _ G).
    assert (M := gi_main _ _ _ _ G). unfold mstep, main_waits. rewrite Hl.
    destruct (m_main m) as [k| | |] eqn:Em.
    - destruct M as [[M1 M2] M3]. destruct (Nat.ltb_spec k (n + 1)) as [Hk|Hk].
      + set (i := (k - 1)%nat). assert (Hi : (i < n)%nat) by lia.
        assert (Ei : ph i = NotPushed) by (apply M3; lia).
        assert (T := gi_task _ _ _ _ G i Hi). rewrite Ei in T. destruct T as (T1 & T2 & T3).
        assert (Es : src = Given \/ exists mk, src = Created mk) by (destruct src; eauto).
        destruct Es as [Es|[mk Es]]; rewrite Es in T1 |- *.
        * destruct T1 as (p & T1 & Th). unfold m_cache, m_stat. rewrite T1, Th, T2. cbn [rbind].
          eexists. split; [done|]. right.
          eapply (step_push mu m ph rk k); try done.
          -- lia.
          -- exact (gi_ptr _ _ _ _ G).
          -- rewrite Es. done.
          -- exists p. done.
        * unfold m_stat. rewrite T2. cbn [rbind]. rewrite (Hsrc mk i) by done.
          eexists. split; [done|]. right.
          assert (F := gi_fresh _ _ _ _ G). rewrite Es in F.
          assert (Hil : (i < length (m_caches m))%nat) by lia.
          eapply (step_push mu m ph rk k); try done; fold i.
          -- lia.
          -- cbn. rewrite insert_length. done.
          -- intros j Hj. cbn. rewrite list_lookup_insert_ne by done. split; [done|].
             intros p Hp. apply lookup_insert_ne. apply F in Hp. lia.
          -- cbn. intros a b p Ha Hb.
             destruct (decide (a = i)) as [->|Hai], (decide (b = i)) as [->|Hbi]; try done.
             ++ rewrite list_lookup_insert in Ha by done. injection Ha as <-.
                rewrite list_lookup_insert_ne in Hb by done. apply F in Hb. lia.
             ++ rewrite list_lookup_insert in Hb by done. injection Hb as <-.
                rewrite list_lookup_insert_ne in Ha by done. apply F in Ha. lia.
             ++ rewrite list_lookup_insert_ne in Ha, Hb by done.
                exact (gi_ptr _ _ _ _ G _ _ _ Ha Hb).
          -- rewrite Es. cbn. intros a p Ha. destruct (decide (a = i)) as [->|Hai].
             ++ rewrite list_lookup_insert in Ha by done. injection Ha as <-. lia.
             ++ rewrite list_lookup_insert_ne in Ha by done. apply F in Ha. lia.
          -- exists (m_fresh m). cbn. split; [apply list_lookup_insert; done|apply lookup_insert].
      + eexists. split; [done|]. right. apply (step_mainpc mu m MWait I). rewrite Em. f_equal. lia.
    - destruct (bool_decide (u64 (m_prog m) < u64 (Z.of_nat n - 1))) eqn:Eb.
      + eexists. split; [done|]. left. split; [done|]. by apply bool_decide_eq_true in Eb.
      + eexists. split; [done|]. right. apply (step_mainpc mu m MJoin I). done.
    - destruct (m_queue m) as [|d q] eqn:Eq.
      + destruct (forallb idle (m_work m)) eqn:Ew.
        * eexists. split; [done|]. right. apply (step_mainpc mu m MDone I). done.
        * eexists. split; [done|]. left. split; [done|]. by right.
      + eexists. split; [done|]. left. split; [done|]. by left.
    - eexists. split; [done|]. by left.
  Qed.

  (** ** Every step *)

  Lemma step_any mu m x :
    inv mu m ->
    exists m', gstep read clone P src m x = Ok m' /\
      (m' = m \/ exists mu', inv mu' m' /\ (mu' < mu)%nat).
  Proof.
    intros I. destruct x as [|w]; cbn.
    - destruct (step_main mu m I) as (m' & E & H). exists m'. split; [done|].
      destruct H as [[-> _]|H]; auto.
    - destruct (m_work m !! w) as [[seed job]|] eqn:Ew; [|exists m; auto]. cbn.
      destruct job as [[i l]|].
      + destruct (step_worker mu m w seed i l I Ew) as (m' & E & H). exists m'. split; [done|].
        destruct H as [[-> _]|H]; auto.
      + eexists. split; [done|]. destruct (step_start mu m w seed I Ew) as [[E _]|H]; auto.
  Qed.

  Lemma run_any sched : forall mu m,
    inv mu m ->
    exists m', grun read clone P src m sched = Ok m' /\
      (m' = m /\ (forall x, x ∈ sched -> gstep read clone P src m x = Ok m) \/
       exists mu', inv mu' m' /\ (mu' < mu)%nat).
  Proof.
    induction sched as [|x sched IH]; intros mu m I.
    - exists m. split; [done|]. left. split; [done|]. intros x Hx. by apply elem_of_nil in Hx.
    - cbn. destruct (step_any mu m x I) as (m1 & E1 & H1). rewrite E1. cbn [rbind].
      destruct H1 as [->|(mu1 & I1 & L1)].
      + destruct (IH mu m I) as (m2 & E2 & [[-> H2]|H2]); rewrite E2; eexists; (split; [done|]).
        * left. split; [done|]. intros y Hy. apply elem_of_cons in Hy as [->|Hy]; auto.
        * by right.
      + destruct (IH mu1 m1 I1) as (m2 & E2 & [[-> H2]|(mu2 & I2 & L2)]); rewrite E2;
          eexists; (split; [done|]); right; [exists mu1; done|exists mu2; split; [done|lia]].
  Qed.

  Lemma run_inv sched mu m :
    inv mu m -> exists m' mu', grun read clone P src m sched = Ok m' /\ inv mu' m' /\ (mu' <= mu)%nat.
  Proof.
    intros I. destruct (run_any sched mu m I) as (m' & E & [[-> _]|(mu' & I' & L)]).
    - exists m, mu. done.
    - exists m', mu'. split; [done|]. split; [done|lia].
  Qed.

  (** Nobody can move only when the main thread has returned. *)
  Lemma stuck_done mu : forall m,
    inv mu m -> (0 < length (m_work m))%nat ->
    gstep read clone P src m Main = Ok m ->
    (forall w, (w < length (m_work m))%nat -> gstep read clone P src m (Worker w) = Ok m) ->
    m_main m = MDone.
  Proof.
    induction (lt_wf mu) as [mu _ IH]. intros m I Hlen HM HW.
    cbn in HM. destruct (step_main mu m I) as (m' & E & [[-> Hwait]|(mu' & I' & L)]).
    2: { rewrite E in HM. injection HM as ->. by apply (IH mu'). }
    assert (Hjob : (exists w sd i l, m_work m !! w = Some (mkW sd (Some (i, l)))) \/
                   forallb idle (m_work m) = true).
    { destruct (forallb idle (m_work m)) eqn:Ef; [by right|left].
      clear -Ef. induction (m_work m) as [|[sd [[i l]|]] ws IHw]; cbn in Ef; [done|..].
      - exists 0%nat, sd, i, l. done.
      - destruct (IHw Ef) as (w & H). exists (S w). exact H. }
    destruct Hjob as [(w & sd & i & l & Hw)|Hidle].
    { assert (Hs := HW w (lookup_lt_Some _ _ _ Hw)). cbn in Hs. rewrite Hw in Hs. cbn in Hs.
      destruct (step_worker mu m w sd i l I Hw) as (m' & E2 & [(-> & Hl & w2 & Hm)|(mu' & I' & L)]).
      2: { rewrite E2 in Hs. injection Hs as ->. by apply (IH mu'). }
      assert (G := I). destruct G as (ph & rk & G).
      destruct (gi_mtx _ _ _ _ G w2 Hm) as (sd2 & i2 & l2 & Hw2 & Hl2).
      assert (Hs2 := HW w2 (lookup_lt_Some _ _ _ Hw2)). cbn in Hs2. rewrite Hw2 in Hs2. cbn in Hs2.
      destruct (step_worker mu m w2 sd2 i2 l2 I Hw2) as (m' & E3 & [(-> & Hl3 & _)|(mu' & I' & L)]).
      - destruct Hl2 as [A|[A|A]]; congruence.
      - rewrite E3 in Hs2. injection Hs2 as ->. by apply (IH mu'). }
    assert (Hfree : forall w sd i l, m_work m !! w <> Some (mkW sd (Some (i, l)))).
    { intros w sd i l Hw. rewrite forallb_forall in Hidle.
      apply elem_of_list_lookup_2, elem_of_list_In, Hidle in Hw. done. }
    destruct (lookup_lt_is_Some_2 (m_work m) 0 Hlen) as [[sd job] H0].
    destruct job as [[i l]|]; [by apply Hfree in H0|].
    assert (Hs := HW 0%nat Hlen). cbn in Hs. rewrite H0 in Hs. cbn in Hs. injection Hs as Hs.
    destruct (step_start mu m 0 sd I H0) as [[_ Hq]|(mu' & I' & L)].
    2: { rewrite Hs in I'. by apply (IH mu'). }
    unfold main_waits in Hwait. destruct (m_main m) as [k| | |] eqn:Em; try done.
    - exfalso. destruct I as (ph & rk & G).
      assert (M := gi_main _ _ _ _ G). rewrite Em in M.
      assert (HF : forall i, (i < n)%nat -> ph i = Fin).
      { intros i Hi. assert (T := gi_task _ _ _ _ G i Hi). specialize (M i Hi).
        destruct (ph i) as [| |w|w|] eqn:Ei; try done.
        - assert (A := gi_qout _ _ _ _ G i Hi Ei). rewrite Hq in A. by apply elem_of_nil in A.
        - destruct T as (? & ? & T & _). by apply Hfree in T.
        - destruct T as (? & ? & T & _). by apply Hfree in T. }
      rewrite (gi_prog _ _ _ _ G) in Hwait.
      rewrite (sum_const _ 1) in Hwait by (intros j Hj; rewrite HF by done; done).
      unfold u64 in Hwait. rewrite !Z.mod_small in Hwait by lia. lia.
    - exfalso. destruct Hwait as [A|A]; congruence.
  Qed.

  Lemma gstep_workers m x m' :
    gstep read clone P src m x = Ok m' -> length (m_work m') = length (m_work m).
  Proof.
    destruct x as [|w]; cbn.
    - unfold mstep. destruct (m_main m).
      + destruct (Nat.ltb _ _); [|by intros [= <-]].
        destruct src; unfold rbind; repeat case_match; try done; intros [= <-]; done.
      + case_match; by intros [= <-].
      + destruct (m_queue m); [|by intros [= <-]]. case_match; by intros [= <-].
      + by intros [= <-].
    - destruct (m_work m !! w) as [[sd [[i l]|]]|]; cbn; [|unfold start_job; case_match|];
        [|by intros [= <-]|intros [= <-]; cbn; by rewrite insert_length|by intros [= <-]].
      unfold wstep. destruct (l_pc l);
        repeat (case_match || unfold rbind); try done; intros [= <-]; cbn;
        rewrite ?insert_length; try done.
  Qed.

  Lemma grun_workers sched : forall m m',
    grun read clone P src m sched = Ok m' -> length (m_work m') = length (m_work m).
  Proof.
    induction sched as [|x sched IH]; intros m m'; cbn; [by intros [= <-]|].
    destruct (gstep read clone P src m x) as [m1|] eqn:E; cbn; [|done]. intros H.
    rewrite (IH _ _ H). by eapply gstep_workers.
  Qed.

  (** A round: a piece of the schedule in which every thread gets a turn. *)
  Definition round (nw : nat) (sched : list who) : Prop :=
    Main ∈ sched /\ forall w, (w < nw)%nat -> Worker w ∈ sched.

  Lemma done_stays mu m x :
    inv mu m -> m_main m = MDone -> gstep read clone P src m x = Ok m.
  Proof.
    intros (ph & rk & G) Em. assert (M := gi_main _ _ _ _ G). rewrite Em in M.
    destruct x as [|w]; cbn; [unfold mstep; by rewrite Em|].
    destruct (m_work m !! w) as [[sd [[i l]|]]|] eqn:Ew; cbn; [|..|done].
    - destruct (gi_job _ _ _ _ G _ _ _ _ Ew) as [Hi Hr]. rewrite M in Hr by done.
      destruct Hr; done.
    - unfold start_job. destruct (m_queue m) as [|d q] eqn:Eq; [done|].
      destruct (gi_qin _ _ _ _ G d) as (i & Hi & _ & E); [rewrite Eq; left|].
      rewrite M in E by done. done.
  Qed.

  Lemma done_stays_run sched mu m :
    inv mu m -> m_main m = MDone -> grun read clone P src m sched = Ok m.
  Proof.
    intros I Em. induction sched as [|x sched IH]; [done|]. cbn.
    rewrite (done_stays mu m x I Em). exact IH.
  Qed.

  Lemma grun_app s1 s2 m m1 :
    grun read clone P src m s1 = Ok m1 ->
    grun read clone P src m (s1 ++ s2) = grun read clone P src m1 s2.
  Proof.
    revert m. induction s1 as [|x s1 IH]; intros m; cbn; [by intros [= ->]|].
    destruct (gstep read clone P src m x); cbn; [apply IH|done].
  Qed.

  (** Enough rounds, and the main thread has returned. *)
  Lemma rounds_finish rounds : forall mu m,
    inv mu m -> (0 < length (m_work m))%nat -> (mu <= length rounds)%nat ->
    (forall r, r ∈ rounds -> round (length (m_work m)) r) ->
    exists m' mu', grun read clone P src m (concat rounds) = Ok m' /\ inv mu' m' /\ m_main m' = MDone.
  Proof.
    induction rounds as [|r rounds IH]; intros mu m I Hw Hmu Hr.
    - cbn in Hmu. exists m, mu. split; [done|]. split; [done|].
      destruct I as (ph & rk & G). assert (X := gi_mu _ _ _ _ G).
      destruct (m_main m); cbn in X; try lia. done.
    - cbn [concat]. destruct (run_any r mu m I) as (m1 & E1 & H1).
      rewrite (grun_app _ _ _ _ E1). assert (Hw1 := grun_workers _ _ _ E1).
      destruct H1 as [[-> Hs]|(mu1 & I1 & L1)].
      + assert (Em : m_main m = MDone).
        { destruct (Hr r ltac:(left)) as [R1 R2]. apply (stuck_done mu m I Hw).
          - by apply Hs.
          - intros w Hww. by apply Hs, R2. }
        exists m, mu. split; [|done]. by eapply done_stays_run.
      + destruct (IH mu1 m1 I1) as (m' & mu' & H).
        * lia.
        * cbn in Hmu. lia.
        * intros r' Hr'. rewrite Hw1. apply Hr. by right.
        * exists m', mu'. exact H.
  Qed.

  (** What holds when the main thread has returned. *)
  Lemma done_results mu m :
    inv mu m -> m_main m = MDone ->
    length (m_res m) = n /\ length (m_caches m) = n /\
    forall i, (i < n)%nat ->
      (exists s, m_res m !! i = Some s /\ good i s) /\
      (sp_free P = false -> cache_at m i (c1 i)).
  Proof.
    intros (ph & rk & G) Em. assert (M := gi_main _ _ _ _ G). rewrite Em in M.
    split; [exact (gi_rlen _ _ _ _ G)|]. split; [exact (gi_len _ _ _ _ G)|].
    intros i Hi. assert (T := gi_task _ _ _ _ G i Hi). rewrite (M i Hi) in T.
    destruct T as (T1 & T2 & _). done.
  Qed.

  (** The state before the first push. *)
  Definition mu0 : nat := (3 + sum_list_with (fun i => N i + 10) (seq 0 n))%nat.

  Lemma inv_init caches heap seeds :
    length caches = n ->
    (forall i j p, caches !! i = Some (Some p) -> caches !! j = Some (Some p) -> i = j) ->
    (forall i, (i < n)%nat ->
       match src with
       | Given => exists p, caches !! i = Some (Some p) /\ heap !! p = Some (c0 i)
       | Created _ => caches !! i = Some None
       end) ->
    inv mu0 (mkM (MPush 1) caches heap 0 (replicate n stat0) 0 None []
                 (map (fun sd => mkW sd None) seeds)).
  Proof.
    intros Hl Hptr Hc. exists (fun _ => NotPushed), (fun i => (N i + 10)%nat). split; try done.
    - cbn. apply replicate_length.
    - destruct src; [done|]. cbn. intros i p Hp.
      assert (Hi : (i < n)%nat) by (rewrite <- Hl; eapply lookup_lt_Some; exact Hp).
      rewrite (Hc i Hi) in Hp. done.
    - intros i Hi. cbn. split; [|split; [|done]].
      + specialize (Hc i Hi). destruct src; exact Hc.
      + apply lookup_replicate_2. done.
    - cbn. intros w sd i l H. rewrite list_lookup_fmap in H.
      destruct (seeds !! w); cbn in H; done.
    - cbn. intros d H. by apply elem_of_nil in H.
    - cbn. apply NoDup_nil_2.
    - cbn. rewrite (sum_const _ 0) by done. lia.
    - cbn. split; [lia|]. intros i Hi. split; [lia|done].
  Qed.
End threads.
