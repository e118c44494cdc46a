(** Reading zstd-compressed traces. *)
From stdpp Require Import list numbers.
From Verif Require Import Base SpecZstd ModelZstd ZstdFacts.
Open Scope Z_scope.

(** ** C81 *)
Section C81.
  Context {D : Type} (dec : decoder D) (R : D -> list Z -> list Z -> Prop) (in_sz out_sz n : nat).

  Lemma z_start d file plain : R d file plain -> zinv R out_sz (length file + length plain) (z_create d file) plain plain.
  Proof. intros H. split; cbn; try done; lia. Qed.

  (** For every decoder that does what zstd.h says: reading records of [n] bytes
      returns, each time, and delivers the records of the decompressed trace in
      their order, from the first on, with none skipped, repeated or altered, and
      then end of file for ever. *)
  Theorem C81_prefix : decodes dec R -> (0 < in_sz)%nat -> (0 < n <= out_sz)%nat ->
    forall d file plain fuel m, R d file plain -> (length file + length plain < fuel)%nat ->
    exists s j, z_reads dec in_sz out_sz fuel m (z_create d file) n = Ok (s, delivered n plain j m) /\ (j <= m)%nat /\ (j * n <= length plain)%nat.
  Proof.
    intros Hd Hi Hn d file plain fuel m HR Hf.
    destruct (z_reads_ok dec R in_sz out_sz n Hd Hi Hn fuel m _ _ plain plain 0 plain (z_start d file plain HR) Hf) as (s & j & E & J1 & J2 & _).
    { by rewrite drop_0. } { lia. }
    exists s, j. split; [exact E|]. split; [done|]. done.
  Qed.

  (** All records are delivered, if the decoder holds nothing back when it has
      consumed all input.  The claim without this condition is false:
      [C81_lost_refuted]. *)
  Theorem C81_complete_partial : decodes dec R -> prompt R -> (0 < in_sz)%nat -> (0 < n <= out_sz)%nat ->
    forall d file plain fuel m, R d file plain -> (length file + length plain < fuel)%nat ->
    exists s, z_reads dec in_sz out_sz fuel m (z_create d file) n = Ok (s, delivered n plain (Nat.min m (length plain / n)) m).
  Proof.
    intros Hd Hp Hi Hn d file plain fuel m HR Hf.
    destruct (z_reads_ok dec R in_sz out_sz n Hd Hi Hn fuel m _ _ plain plain 0 plain (z_start d file plain HR) Hf) as (s & j & E & J1 & J2 & J3).
    { by rewrite drop_0. } { lia. }
    exists s. assert (j = Nat.min m (length plain / n)) as <-; [|exact E].
    assert (Hdiv : (j <= length plain / n)%nat) by (apply Nat.div_le_lower_bound; lia).
    destruct J3 as [->|J3]; [lia|]. specialize (J3 Hp).
    assert (Hdiv2 : (length plain / n < S j)%nat) by (apply Nat.div_lt_upper_bound; lia). lia.
  Qed.

  (** reset_reader, after any number of reads: what follows is not the trace from
      its start, but first what is left in the buffer, then what the decoder makes
      of the rest of the input buffer followed by the whole file. *)
  Theorem C81_reset : decodes dec R -> (0 < in_sz)%nat -> (0 < n <= out_sz)%nat ->
    forall s plain fuel m, (z_rp s <= length (z_buf s) <= out_sz)%nat -> R (z_d s) (z_in s ++ z_all s) plain ->
    (length (z_in s) + length (z_all s) + length plain < fuel)%nat ->
    exists s' j, z_reads dec in_sz out_sz fuel m (z_reset s) n = Ok (s', delivered n (drop (z_rp s) (z_buf s) ++ plain) j m) /\ (j <= m)%nat.
  Proof.
    intros Hd Hi Hn s plain fuel m Hb HR Hf.
    destruct (z_reads_ok dec R in_sz out_sz n Hd Hi Hn fuel m (length (z_in s) + length (z_all s) + length plain) (z_reset s)
      (drop (z_rp s) (z_buf s) ++ plain) plain 0 (drop (z_rp s) (z_buf s) ++ plain)) as (s' & j & E & J1 & _).
    { split; cbn; try done; lia. } { done. } { by rewrite drop_0. } { lia. }
    by exists s', j.
  Qed.
End C81.

(** *** Decoders *)
(** stored data: input is copied to the output *)
Definition copy_dec : decoder unit := fun _ inp room => (tt, Nat.min (length inp) room, take room inp).
Definition copy_R (_ : unit) (inp out : list Z) : Prop := out = inp.
Lemma copy_ok : decodes copy_dec copy_R.
Proof.
  split; unfold copy_dec, copy_R.
  - intros d inp more out room d' k p -> Hne E. injection E as _ <- <-. split; [lia|]. rewrite take_length. split; [lia|].
    eexists. split; [|done]. rewrite app_assoc. f_equal. destruct (decide (length inp <= room)%nat).
    + rewrite Nat.min_l, take_ge, drop_all, app_nil_r by lia. done.
    + rewrite Nat.min_r, take_drop by lia. done.
  - intros d inp more out room d' k p -> Hne Hr E. injection E as _ <- <-. left. destruct inp; [done|]. cbn [length]. lia.
Qed.
Lemma copy_prompt : prompt copy_R.
Proof. intros d out H. exact H. Qed.

(** each byte stands for three; the input is consumed at once, what does not fit
    the output is kept for the next call *)
Definition three (l : list Z) : list Z := l ≫= (fun x => [x; x; x]).
Definition three_dec : decoder (list Z) := fun d inp room => (drop room (d ++ three inp), length inp, take room (d ++ three inp)).
Definition three_R (d : list Z) (inp out : list Z) : Prop := out = d ++ three inp.
Lemma three_app l1 l2 : three (l1 ++ l2) = three l1 ++ three l2.
Proof. apply bind_app. Qed.
Lemma three_ok : decodes three_dec three_R.
Proof.
  split; unfold three_dec, three_R.
  - intros d inp more out room d' k p -> Hne E. injection E as <- <- <-. split; [done|]. split; [rewrite take_length; lia|].
    eexists. split; [|done]. rewrite drop_all. cbn [app]. rewrite three_app, app_assoc, (app_assoc (take _ _)), take_drop. done.
  - intros d inp more out room d' k p -> Hne Hr E. injection E as <- <- <-. left. destruct inp; [done|]. cbn [length]. lia.
Qed.

Definition out81 {D} (x : res (zr D * list (option (list Z)))) : res (list (option (list Z))) := let! (_, l) := x in Ok l.
(** seven stored bytes in records of two, a buffer of three bytes in, four out *)
Example C81_copy_ex : out81 (z_reads copy_dec 3 4 20 5 (z_create tt [1; 2; 3; 4; 5; 6; 7]) 2) =
  Ok [Some [1; 2]; Some [3; 4]; Some [5; 6]; None; None].
Proof. vm_compute. reflexivity. Qed.
Example C81_complete_ex : exists s, z_reads copy_dec 3 4 20 5 (z_create tt [1; 2; 3; 4; 5; 6; 7]) 2 = Ok (s, delivered 2 [1; 2; 3; 4; 5; 6; 7] 3 5).
Proof. apply (C81_complete_partial copy_dec copy_R 3 4 2 copy_ok copy_prompt) with (m := 5%nat) (plain := [1; 2; 3; 4; 5; 6; 7]); [lia|lia|done|cbn; lia]. Qed.
Example C81_prefix_ex : three_R [] [1; 2] [1; 1; 1; 2; 2; 2].
Proof. done. Qed.

(** *** Where it fails *)
(** The end of the trace can be lost: when the last input is consumed and the
    output buffer is full, what the decoder still holds is never asked for.  The
    trace has three records of two bytes, two are delivered. *)
Theorem C81_lost_refuted : exists (dec : decoder (list Z)) R in_sz out_sz n d file plain,
  decodes dec R /\ (0 < in_sz)%nat /\ (0 < n <= out_sz)%nat /\ R d file plain /\ length plain = (3 * n)%nat /\
  forall fuel, (20 <= fuel)%nat ->
    out81 (z_reads dec in_sz out_sz fuel 3 (z_create d file) n) = Ok [Some (record n plain 0); Some (record n plain 1); None].
Proof.
  exists three_dec, three_R, 2%nat, 4%nat, 2%nat, [], [1; 2], [1; 1; 1; 2; 2; 2].
  split; [apply three_ok|]. split; [lia|]. split; [lia|]. split; [done|]. split; [done|]. intros fuel Hf.
  do 20 (destruct fuel as [|fuel]; [lia|]). vm_compute. reflexivity.
Qed.
(** After a reset the first record is not delivered again: the buffered rest of
    the trace comes first, and the first record is then cut in the middle. *)
Theorem C81_reset_refuted : exists in_sz out_sz n file s,
  (0 < in_sz)%nat /\ (0 < n <= out_sz)%nat /\ length file = (3 * n)%nat /\
  z_reads copy_dec in_sz out_sz 20 1 (z_create tt file) n = Ok (s, [Some (record n file 0)]) /\
  out81 (z_reads copy_dec in_sz out_sz 20 2 (z_reset s) n) = Ok [Some [3; 1]; Some [2; 3]].
Proof.
  exists 3%nat, 4%nat, 2%nat, [1; 2; 3; 4; 5; 6]. eexists. split; [lia|]. split; [lia|]. split; [done|].
  split; [vm_compute; reflexivity|]. vm_compute. reflexivity.
Qed.
(** A corrupt file: the decoder reports an error, consumes and writes nothing; the
    read never returns. *)
Theorem C81_corrupt_refuted : forall {D} (dec : decoder D) in_sz out_sz n d x file,
  (0 < in_sz)%nat -> (0 < n <= out_sz)%nat -> (forall e inp room, dec e inp room = (e, 0%nat, [])) ->
  forall fuel, z_reads dec in_sz out_sz fuel 1 (z_create d (x :: file)) n = Err OutOfFuel.
Proof.
  intros D dec in_sz out_sz n d x file Hi Hn Hd fuel. cbn [z_reads]. unfold z_read_one.
  enough (E : z_read_bytes dec in_sz out_sz fuel (z_create d (x :: file)) n = Err OutOfFuel) by (by rewrite E).
  assert (G : forall fuel f i e, i <> [] -> z_read_bytes dec in_sz out_sz fuel (mkZ d (x :: file) f i [] 0 e) n = Err OutOfFuel).
  { clear fuel. induction fuel as [|fuel IH]; intros f i e Hne; cbn [z_read_bytes z_buf z_rp length]; rewrite decide_True by lia; [done|].
    unfold z_decompress. cbn [z_in z_file z_buf z_d z_rp z_eof z_all]. destruct i as [|y i]; [done|]. cbn [z_in z_file z_buf z_d z_rp z_eof z_all].
    rewrite Hd. rewrite drop_0. cbn [drop app]. by apply IH. }
  destruct fuel as [|fuel]; cbn [z_read_bytes z_create z_buf z_rp length]; rewrite decide_True by lia; [done|].
  unfold z_decompress, z_read_file, z_create. cbn [z_in z_file z_buf z_d z_rp z_eof z_all drop]. destruct in_sz as [|k]; [lia|]. cbn [take length Nat.eqb negb drop].
  cbn [z_in z_file z_buf z_d z_rp z_eof z_all]. rewrite Hd. rewrite drop_0. cbn [app]. by apply G.
Qed.
Example C81_corrupt_ex : z_reads (fun (e : unit) _ _ => (e, 0%nat, [])) 3 4 1000 1 (z_create tt [9; 9]) 2 = Err OutOfFuel.
Proof. apply C81_corrupt_refuted; [lia|lia|done]. Qed.
