(** The zstd reader against SpecZstd.v. *)
From stdpp Require Import list numbers.
From Verif Require Import Base SpecZstd ModelZstd.
Open Scope Z_scope.

Section Facts.
  Context {D : Type} (dec : decoder D) (R : D -> list Z -> list Z -> Prop) (in_sz out_sz n : nat).
  Context (Hdec : decodes dec R) (Hin : (0 < in_sz)%nat) (Hn : (0 < n <= out_sz)%nat).

  (** [out]: the bytes still to be delivered, [held] of them not in the buffer *)
  Record zinv (M : nat) (s : zr D) (out held : list Z) : Prop := {
    zi_R : R (z_d s) (z_in s ++ z_file s) held;
    zi_out : out = drop (z_rp s) (z_buf s) ++ held;
    zi_rp : (z_rp s <= length (z_buf s))%nat;
    zi_len : (length (z_buf s) <= out_sz)%nat;
    zi_M : (length (z_in s) + length (z_file s) + length held <= M)%nat
  }.
  Definition dry (s : zr D) : Prop :=
    z_in s = [] /\ z_file s = [] /\ z_eof s = true /\ z_rp s = 0%nat /\ (length (z_buf s) < n)%nat.

  Lemma z_decompress_ok M s out held : zinv M s out held -> (length (z_buf s) < z_rp s + n)%nat ->
    exists s' ok, z_decompress dec in_sz out_sz s = (s', ok) /\
      if ok : bool then exists M' held', (M' < M)%nat /\ zinv M' s' out held' else zinv M s' out held /\ dry s'.
  Proof using Hdec Hin Hn.
    intros [HR HO HP HL HM] Hlt. unfold z_decompress. cbn [z_in z_file z_buf z_d z_rp z_eof z_all].
    set (left := drop (z_rp s) (z_buf s)) in *. assert (Hl : (length left < n)%nat) by (unfold left; rewrite drop_length; lia).
    assert (Hgo : forall inp more eof, inp <> [] -> R (z_d s) (inp ++ more) held -> (length inp + length more + length held <= M)%nat ->
      exists s' ok, (let '(d, k, p) := dec (z_d s) inp (out_sz - length left)%nat in
        (mkZ d (z_all s) more (drop k inp) (left ++ p) 0 eof, true)) = (s', ok) /\
        if ok : bool then exists M' held', (M' < M)%nat /\ zinv M' s' out held' else zinv M s' out held /\ dry s').
    { intros inp more eof Hne HR' HM'. destruct (dec (z_d s) inp (out_sz - length left)%nat) as [[d k] p] eqn:E.
      destruct (dc_step _ _ Hdec _ _ _ _ _ _ _ _ HR' Hne E) as (K1 & K2 & out' & K3 & K4).
      assert (Hroom : (0 < out_sz - length left)%nat) by lia.
      pose proof (dc_progress _ _ Hdec _ _ _ _ _ _ _ _ HR' Hne Hroom E) as K5.
      do 2 eexists. split; [done|]. cbn. exists (length (drop k inp) + length more + length out')%nat, out'. split.
      - rewrite drop_length. rewrite K3, app_length in HM'. destruct K5 as [K5|K5]; [destruct inp; [done|]; cbn [length] in *; lia|].
        destruct p; [done|]. cbn [length] in *. lia.
      - split; cbn; try done; try lia.
        + rewrite drop_0, HO, K3, app_assoc. done.
        + rewrite app_length. lia. }
    destruct (z_in s) as [|x inp] eqn:Ei.
    - unfold z_read_file. cbn [z_in z_file z_buf z_d z_rp z_eof z_all]. cbn [app] in HR. destruct (z_file s) as [|y f] eqn:Ef.
      + rewrite take_nil, drop_nil. cbn [length Nat.eqb negb]. do 2 eexists. split; [done|]. cbn. rewrite decide_True by lia.
        split; [|by split_and!]. split; cbn; try done; try lia.
      + assert (Hne : take in_sz (y :: f) <> []) by (destruct in_sz; [lia|done]).
        destruct (take in_sz (y :: f)) as [|z l] eqn:Et; [done|]. cbn [length Nat.eqb negb]. rewrite <- Et in *.
        apply Hgo; [done| |].
        * rewrite take_drop. done.
        * rewrite <- app_length, take_drop. cbn [length] in *. lia.
    - cbn [z_in z_file z_buf z_d z_rp z_eof z_all]. apply Hgo; [done|done|]. cbn [length] in *. lia.
  Qed.

  Lemma z_read_ok fuel : forall M s out held, zinv M s out held -> (M < fuel)%nat ->
    exists s', (z_read_bytes dec in_sz out_sz fuel s n = Ok (s', Some (take n out)) /\ (n <= length out)%nat /\ exists held', zinv M s' (drop n out) held') \/
      (z_read_bytes dec in_sz out_sz fuel s n = Ok (s', None) /\ exists held', zinv M s' out held' /\ dry s').
  Proof using Hdec Hin Hn.
    induction fuel as [|fuel IH]; intros M s out held HI HM; [lia|]. cbn [z_read_bytes]. destruct (decide _) as [Hd|Hd].
    - destruct (z_decompress_ok M s out held HI Hd) as (s1 & ok & E & H1). rewrite E. destruct ok.
      + destruct H1 as (M' & held' & Hlt & HI'). destruct (IH M' s1 out held' HI') as (s' & [(A & B & h & C)|(A & h & C & C')]); [lia| |].
        * exists s'. left. split; [done|]. split; [done|]. exists h. destruct C. split; try done. lia.
        * exists s'. right. split; [done|]. exists h. split; [|done]. destruct C. split; try done. lia.
      + exists s1. right. destruct H1 as [H1 H2]. split; [done|]. by exists held.
    - destruct HI as [HR HO HP HL HM']. eexists. left. split; [|split].
      + do 3 f_equal. rewrite HO. rewrite take_app_le; [done|]. rewrite drop_length. lia.
      + rewrite HO, app_length, drop_length. lia.
      + exists held. split; cbn; try done; try lia. rewrite HO. rewrite drop_app_le by (rewrite drop_length; lia). by rewrite drop_drop.
  Qed.

  Lemma z_read_dry fuel s : dry s -> (0 < fuel)%nat -> z_read_bytes dec in_sz out_sz fuel s n = Ok (s, None).
  Proof using Hin Hn.
    intros (H1 & H2 & H3 & H4 & H5) Hf. destruct fuel as [|fuel]; [lia|]. cbn [z_read_bytes]. rewrite decide_True by (rewrite H4; lia).
    unfold z_decompress. cbn [z_in z_file z_buf z_d z_rp z_eof z_all]. rewrite H1. unfold z_read_file. cbn [z_in z_file z_buf z_d z_rp z_eof z_all].
    rewrite H2, H4, take_nil, drop_nil, drop_0. cbn [length Nat.eqb negb]. rewrite decide_True by lia.
    destruct s; cbn in *; subst; done.
  Qed.
  Lemma z_reads_dry fuel m s : dry s -> (0 < fuel)%nat -> z_reads dec in_sz out_sz fuel m s n = Ok (s, replicate m None).
  Proof using Hin Hn.
    intros Hs Hf. induction m as [|m IH]; [done|]. cbn [z_reads]. unfold z_read_one. rewrite z_read_dry by done. cbn [rbind].
    assert (z_eof s = true) as -> by apply Hs. cbn [rbind]. rewrite IH. done.
  Qed.

  Lemma z_reads_ok fuel m : forall M s out held i plain, zinv M s out held -> (M < fuel)%nat -> out = drop (i * n) plain -> (i * n <= length plain)%nat ->
    exists s' j, z_reads dec in_sz out_sz fuel m s n =
      Ok (s', ((fun i => Some (record n plain i)) <$> seq i j) ++ replicate (m - j) None) /\ (j <= m)%nat /\ ((i + j) * n <= length plain)%nat /\
      (j = m \/ (prompt R -> (length plain < (i + j) * n + n)%nat)).
  Proof using Hdec Hin Hn.
    induction m as [|m IH]; intros M s out held i plain HI HM Ho Hi.
    - exists s, 0%nat. cbn. split_and!; try done; [lia|by left].
    - cbn [z_reads]. unfold z_read_one. destruct (z_read_ok fuel M s out held HI HM) as (s1 & [(A & B & h & C)|(A & h & C & C')]); rewrite A; cbn [rbind].
      + destruct (IH M s1 (drop n out) h (S i) plain C HM) as (s' & j & E & J1 & J2 & J3).
        { rewrite Ho, drop_drop. f_equal. lia. }
        { rewrite Ho, drop_length in B. lia. }
        rewrite E. cbn [rbind]. exists s', (S j). split.
        * rewrite Ho. done.
        * split; [lia|]. split; [lia|]. destruct J3 as [->|J3]; [by left|]. right. intros X. specialize (J3 X). lia.
      + assert (z_eof s1 = true) as -> by apply C'. cbn [rbind]. rewrite z_reads_dry by (done || lia). cbn [rbind].
        exists s1, 0%nat. cbn [seq fmap list_fmap app Nat.sub]. split; [done|]. split; [lia|]. split; [lia|]. right. intros X.
        destruct C as [C1 C2 _ _ _]. destruct C' as (D1 & D2 & _ & D4 & D5). rewrite D1, D2 in C1. apply X in C1. subst h.
        rewrite app_nil_r, D4, drop_0 in C2. apply (f_equal length) in C2. rewrite Ho, drop_length in C2. lia.
  Qed.
End Facts.
