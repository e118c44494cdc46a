(** Facts about the reader model: byte access, decoding and the relation
    between file offsets and record positions. *)
From stdpp Require Import gmap list numbers fin_maps.
From Verif Require Import Base ModelReader SpecReader.
Open Scope Z_scope.

(** * Little-endian access *)

Lemma le_at_ok f off n : (off + n <= length f)%nat -> exists v, le_at f off n = Ok v.
Proof.
  revert off. induction n as [|n IH]; intros off H; [eexists; reflexivity|].
  cbn. destruct (f !! off) as [b|] eqn:E.
  - destruct (IH (S off)) as [v Hv]; [lia|]. rewrite Hv. cbn. eexists; reflexivity.
  - apply lookup_ge_None in E. lia.
Qed.

Lemma le_at_slice f o m k n :
  (k + n <= m)%nat -> (o + m <= length f)%nat ->
  le_at (take m (drop o f)) k n = le_at f (o + k) n.
Proof.
  revert k. induction n as [|n IH]; intros k H1 H2; [reflexivity|]. cbn.
  rewrite lookup_take by lia. rewrite lookup_drop.
  destruct (f !! (o + k)%nat); [|reflexivity].
  rewrite IH by lia. replace (o + S k)%nat with (S (o + k)) by lia. reflexivity.
Qed.

Lemma le_bytes_length n x : length (le_bytes n x) = n.
Proof. revert x. induction n; intros; cbn; auto. Qed.

Lemma le_at_app_r pre l k n :
  le_at (pre ++ l) (length pre + k) n = le_at l k n.
Proof.
  revert k. induction n as [|n IH]; intros k; [reflexivity|]. cbn.
  rewrite lookup_app_r by lia.
  replace (length pre + k - length pre)%nat with k by lia.
  destruct (l !! k); [|reflexivity].
  replace (S (length pre + k)) with (length pre + S k)%nat by lia.
  rewrite IH. reflexivity.
Qed.

Lemma le_at_bytes n x l : le_at (le_bytes n x ++ l) 0 n = Ok (x mod 2 ^ (8 * Z.of_nat n)).
Proof.
  assert (G : forall pre, le_at (pre ++ le_bytes n x ++ l) (length pre) n
              = Ok (x mod 2 ^ (8 * Z.of_nat n))); [|exact (G [])].
  revert x. induction n as [|n IH]; intros x pre; [cbn; rewrite Z.mod_1_r; reflexivity|].
  cbn [le_bytes le_at app].
  rewrite lookup_app_r by lia. rewrite Nat.sub_diag. cbn [lookup list_lookup].
  assert (IH' := IH (x / 256) (pre ++ [x mod 256])).
  rewrite app_length in IH'. cbn in IH'. rewrite <- app_assoc in IH'. cbn in IH'.
  replace (length pre + 1)%nat with (S (length pre)) in IH' by lia.
  rewrite IH'. cbn [rbind]. f_equal.
  replace (8 * Z.of_nat (S n)) with (8 + 8 * Z.of_nat n) by lia.
  rewrite Z.pow_add_r by lia. change (2 ^ 8) with 256.
  rewrite Z.rem_mul_r; [lia|lia|]. apply Z.pow_pos_nonneg; lia.
Qed.

(** Reading a later field of a concatenation of fields. *)
Lemma le_at_skip m x l k n :
  le_at (le_bytes m x ++ l) (m + k) n = le_at l k n.
Proof.
  rewrite <- (le_bytes_length m x) at 2. apply le_at_app_r.
Qed.

(** * Decoding *)

Lemma dec_table_union t f o w q :
  dec_table t f o (w ∪ q) = let! w' := dec_table t f o w in Ok (w' ∪ q).
Proof.
  revert w. induction t as [|e t IH]; intros w; [reflexivity|]. cbn.
  destruct (le_at f (o + f_off e) (f_width e)) as [v|er]; [|reflexivity]. cbn.
  rewrite <- IH, insert_union_l. reflexivity.
Qed.

Lemma dec_table_empty t f o q :
  dec_table t f o q = let! w := dec_table t f o ∅ in Ok (w ∪ q).
Proof. rewrite <- dec_table_union, (left_id_L ∅ (∪)). reflexivity. Qed.

Definition fields (t : list fieldrd) : list Z := map f_field t.

Lemma dec_table_dom t f o w w' x :
  dec_table t f o w = Ok w' ->
  is_Some (w' !! x) <-> (x ∈ fields t \/ is_Some (w !! x)).
Proof.
  revert w. induction t as [|e t IH]; intros w H; cbn in *.
  - injection H as ->. split; [auto|]. intros [H|H]; [set_solver|auto].
  - destruct (le_at f (o + f_off e) (f_width e)) as [v|er]; [|discriminate]. cbn in H.
    rewrite (IH _ H). rewrite elem_of_cons.
    destruct (decide (f_field e = x)) as [->|N].
    + rewrite lookup_insert. split; [tauto|]. intros _. right. eauto.
    + rewrite lookup_insert_ne by done. split; [tauto|]. intros [[?|?]|?]; [congruence|tauto|tauto].
Qed.

Lemma dec_table_slice t f o m q :
  Forall (fun e => f_off e + f_width e <= m)%nat t -> (o + m <= length f)%nat ->
  dec_table t (take m (drop o f)) 0 q = dec_table t f o q.
Proof.
  intros Ht Ho. revert q. induction Ht as [|e t He Ht IH]; intros q; [reflexivity|].
  cbn [dec_table]. rewrite Nat.add_0_l, le_at_slice by lia.
  destruct (le_at f (o + f_off e) (f_width e)); [|reflexivity]. cbn. apply IH.
Qed.

Lemma dec_table_ok t f o q m :
  Forall (fun e => f_off e + f_width e <= m)%nat t -> (o + m <= length f)%nat ->
  exists q', dec_table t f o q = Ok q'.
Proof.
  intros Ht Ho. revert q. induction Ht as [|e t He Ht IH]; intros q; [eexists; reflexivity|].
  cbn. destruct (le_at_ok f (o + f_off e) (f_width e)) as [v ->]; [lia|]. cbn. apply IH.
Qed.

Lemma sum_list_with_take_le {A} (f : A -> nat) (l : list A) k :
  (sum_list_with f (take k l) <= sum_list_with f l)%nat.
Proof.
  revert k. induction l as [|a l IH]; intros [|k]; cbn; try lia. specialize (IH k). lia.
Qed.

Lemma sum_list_with_take_S {A} (f : A -> nat) (l : list A) k c :
  l !! k = Some c ->
  (sum_list_with f (take k l) + f c = sum_list_with f (take (S k) l))%nat.
Proof.
  intros H. rewrite (take_S_r _ _ _ H), sum_list_with_app. cbn. lia.
Qed.

Lemma bin_field_fits p fld idx conv :
  Forall (fun e => f_off e + f_width e <= item_size (T_BIN p))%nat
         (bin_field p fld idx conv).
Proof.
  unfold bin_field. destruct idx as [|k]; [constructor|].
  destruct (b_fmt p !! k) as [c|] eqn:E; [|constructor].
  constructor; [|constructor]. cbn [f_off f_width item_size]. unfold cal_offset.
  replace (S k - 1)%nat with k by lia.
  rewrite (sum_list_with_take_S _ _ _ _ E).
  rewrite (firstn_all2 (n := length (b_fmt p) + 1 - 1)) by lia.
  apply sum_list_with_take_le.
Qed.

(** Every assignment of a read function stays inside its record. *)
Lemma table_fits t :
  Forall (fun e => f_off e + f_width e <= item_size t)%nat
         (table_of (stored_type t)).
Proof.
  destruct t; cbn [stored_type table_of];
    try (repeat constructor; cbn; lia).
  unfold bin_table. repeat (apply Forall_app; split); apply bin_field_fits.
Qed.

(** * Records and positions *)

Lemma chop_length isz n l : length (chop isz n l) = n.
Proof. revert l. induction n; intros; cbn; auto. Qed.

Lemma chop_lookup isz n l i :
  (i < n)%nat -> chop isz n l !! i = Some (take isz (drop (i * isz) l)).
Proof.
  revert l i. induction n as [|n IH]; intros l i Hi; [lia|].
  destruct i as [|i]; cbn; [rewrite drop_0; reflexivity|].
  rewrite IH by lia. rewrite drop_drop. reflexivity.
Qed.

Definition wr (t : ttype) (bytes : list Z) : treq :=
  match dec_table (table_of t) bytes 0 ∅ with Ok w => w | Err _ => ∅ end.

(** Skip condition as a boolean (no abort). *)
Definition skipb (t : ttype) (ign0 fwd : bool) (q : treq) : bool :=
  match skip_of t with
  | SkNever | SkVal0Abort => false
  | SkSize0 => (fget q F_SIZE =? 0) && ign0 && fwd
  | SkSize0Any => (fget q F_SIZE =? 0) && ign0
  | SkVal0 => (fget q F_VAL =? 0) && ign0 && is_get q && fwd
  end.

Definition dlv (t : ttype) (ignsz : bool) (q : treq) (r : list Z) : treq :=
  let q1 := wr t r ∪ prologue q in
  if ignsz then <[F_SIZE := 1]> q1 else q1.

Definition keepr (t : ttype) (ign0 fwd : bool) (q : treq) (r : list Z) : bool :=
  negb (skipb t ign0 fwd (wr t r ∪ prologue q)).

(** Fields that every read overwrites. *)
Definition wfields (t : ttype) (ignsz : bool) : list Z :=
  F_HV :: F_TTL :: F_VALID :: (if ignsz then [F_SIZE] else []) ++ fields (table_of t).

Definition agree (t : ttype) (ignsz : bool) (q q0 : treq) : Prop :=
  forall x, x ∉ wfields t ignsz -> q !! x = q0 !! x.

(** A reader standing before record [c] of a file of [n] whole records. *)
Record rinv (rd : reader) (n c : nat) : Prop := {
  ri_isz : (0 < rd_isz rd)%nat;
  ri_len : length (rd_file rd) = (rd_start rd + n * rd_isz rd)%nat;
  ri_off : rd_off rd = (rd_start rd + c * rd_isz rd)%nat;
  ri_le : (c <= n)%nat;
  ri_fit : Forall (fun e => f_off e + f_width e <= rd_isz rd)%nat (table_of (rd_type rd));
  ri_abort : skip_of (rd_type rd) = SkVal0Abort -> rd_ign0 rd = false;
  ri_vscsi : rd_type rd = T_VSCSI1 \/ rd_type rd = T_VSCSI2 -> rd_start rd = O
}.

Definition recs (rd : reader) (n : nat) : list (list Z) :=
  chop (rd_isz rd) n (drop (rd_start rd) (rd_file rd)).

Lemma rinv_set_off rd n c c' :
  rinv rd n c -> (c' <= n)%nat ->
  rinv (set_off rd (rd_start rd + c' * rd_isz rd)%nat) n c'.
Proof. intros [] H. split; cbn; auto. Qed.

Lemma rinv_set_nread rd n c k : rinv rd n c -> rinv (set_nread rd k) n c.
Proof. intros []. split; cbn; auto. Qed.

Lemma rinv_set_samp rd n c k : rinv rd n c -> rinv (set_samp rd k) n c.
Proof. intros []. split; cbn; auto. Qed.

Lemma rinv_set_fwd rd n c k : rinv rd n c -> rinv (set_fwd rd k) n c.
Proof. intros []. split; cbn; auto. Qed.

Lemma recs_lookup rd n c :
  rinv rd n c -> (c < n)%nat ->
  recs rd n !! c = Some (take (rd_isz rd) (drop (rd_off rd) (rd_file rd))).
Proof.
  intros H Hc. unfold recs. rewrite chop_lookup by done.
  rewrite drop_drop, (ri_off _ _ _ H). reflexivity.
Qed.

Lemma recs_drop rd n c :
  rinv rd n c -> (c < n)%nat ->
  drop c (recs rd n)
  = take (rd_isz rd) (drop (rd_off rd) (rd_file rd)) :: drop (S c) (recs rd n).
Proof. intros H Hc. apply drop_S, recs_lookup; done. Qed.

Lemma rinv_room rd n c : rinv rd n c -> (c < n)%nat ->
  (rd_off rd + rd_isz rd <= length (rd_file rd))%nat.
Proof. intros [] Hc. rewrite ri_len0, ri_off0. nia. Qed.

Lemma dec_cur rd n c q :
  rinv rd n c -> (c < n)%nat ->
  dec_table (table_of (rd_type rd)) (rd_file rd) (rd_off rd) q
  = Ok (wr (rd_type rd) (take (rd_isz rd) (drop (rd_off rd) (rd_file rd))) ∪ q).
Proof.
  intros H Hc. assert (Hr := rinv_room _ _ _ H Hc). destruct H.
  rewrite <- (dec_table_slice _ _ _ (rd_isz rd)) by done.
  rewrite dec_table_empty. unfold wr.
  destruct (dec_table_ok (table_of (rd_type rd))
              (take (rd_isz rd) (drop (rd_off rd) (rd_file rd))) 0 ∅ (rd_isz rd))
    as [w Hw]; [done| |].
  { rewrite take_length, drop_length. lia. }
  rewrite Hw. reflexivity.
Qed.

Lemma wr_dom t isz r x :
  Forall (fun e => f_off e + f_width e <= isz)%nat (table_of t) ->
  (isz <= length r)%nat ->
  is_Some (wr t r !! x) <-> x ∈ fields (table_of t).
Proof.
  intros Hf Hl. unfold wr.
  destruct (dec_table_ok (table_of t) r 0 ∅ isz) as [w Hw]; [done|cbn; lia|].
  rewrite Hw, (dec_table_dom _ _ _ _ _ x Hw). split; [|auto].
  intros [?|[? E]]; [done|]. rewrite lookup_empty in E. discriminate.
Qed.

Lemma wr_absorb t isz r1 r2 q :
  Forall (fun e => f_off e + f_width e <= isz)%nat (table_of t) ->
  (isz <= length r1)%nat -> (isz <= length r2)%nat ->
  wr t r2 ∪ (wr t r1 ∪ q) = wr t r2 ∪ q.
Proof.
  intros Hf H1 H2. apply map_eq. intros x.
  destruct (decide (x ∈ fields (table_of t))) as [Hx|Hx].
  - apply (wr_dom t isz r2 x Hf H2) in Hx as [v Hv].
    rewrite !(lookup_union_Some_l _ _ _ _ Hv). reflexivity.
  - assert (N1 : wr t r1 !! x = None).
    { apply eq_None_not_Some. intros S. apply Hx, (wr_dom t isz r1 x Hf H1), S. }
    assert (N2 : wr t r2 !! x = None).
    { apply eq_None_not_Some. intros S. apply Hx, (wr_dom t isz r2 x Hf H2), S. }
    rewrite !lookup_union_r by done. reflexivity.
Qed.

Lemma skip_rec_ok rd q :
  (skip_of (rd_type rd) = SkVal0Abort -> rd_ign0 rd = false) ->
  skip_rec rd q = Ok (skipb (rd_type rd) (rd_ign0 rd) (rd_fwd rd) q).
Proof.
  unfold skip_rec, skipb. intros H.
  destruct (skip_of (rd_type rd)); try reflexivity.
  rewrite H by done. rewrite andb_false_r. reflexivity.
Qed.

Lemma at_eof_cur rd n c :
  rinv rd n c -> (c < n)%nat -> at_eof rd = false.
Proof.
  intros H Hc. assert (Hr := rinv_room _ _ _ H Hc). destruct H.
  assert (E : (file_size rd <=? rd_off rd)%nat = false).
  { apply Nat.leb_gt. unfold file_size. lia. }
  assert (V : rd_type rd = T_VSCSI1 \/ rd_type rd = T_VSCSI2 ->
              (n_total_req rd * rd_isz rd <=? rd_off rd)%nat = false).
  { intros V. apply ri_vscsi0 in V. apply Nat.leb_gt. unfold n_total_req, file_size.
    rewrite ri_len0, ri_off0, V. rewrite Nat.sub_0_r, !Nat.add_0_l, Nat.div_mul by lia. nia. }
  unfold at_eof. destruct (rd_type rd); auto.
Qed.

Lemma at_eof_end rd n :
  rinv rd n n -> (forall p, rd_type rd <> T_BIN p) -> at_eof rd = true.
Proof.
  intros H Hb. destruct H.
  assert (E : (file_size rd <=? rd_off rd)%nat = true).
  { apply Nat.leb_le. unfold file_size. lia. }
  assert (V : rd_type rd = T_VSCSI1 \/ rd_type rd = T_VSCSI2 ->
              (n_total_req rd * rd_isz rd <=? rd_off rd)%nat = true).
  { intros V. apply ri_vscsi0 in V. apply Nat.leb_le. unfold n_total_req, file_size.
    rewrite ri_len0, ri_off0, V. rewrite Nat.sub_0_r, !Nat.add_0_l, Nat.div_mul by lia. nia. }
  unfold at_eof. destruct (rd_type rd) eqn:ET; auto. destruct (Hb p). done.
Qed.

Lemma set_off_set_off rd a b : set_off (set_off rd a) b = set_off rd b.
Proof. reflexivity. Qed.

Lemma set_off_id rd : set_off rd (rd_off rd) = rd.
Proof. destruct rd; reflexivity. Qed.

(** The read function delivers the next kept record. *)
Lemma item_read_spec fuel : forall rd n c q0 q,
  rinv rd n c -> (n - c < fuel)%nat ->
  ((c < n)%nat \/ forall p, rd_type rd <> T_BIN p) ->
  (exists r, q = wr (rd_type rd) r ∪ q0 /\ (rd_isz rd <= length r)%nat) \/ q = q0 ->
  match first_kept (fun r => negb (skipb (rd_type rd) (rd_ign0 rd) (rd_fwd rd)
                                     (wr (rd_type rd) r ∪ q0))) (drop c (recs rd n)) with
  | Some (k, r) =>
      (c + k < n)%nat /\ recs rd n !! (c + k)%nat = Some r /\
      item_read fuel rd q
      = Ok (set_off rd (rd_start rd + (c + k + 1) * rd_isz rd)%nat,
            wr (rd_type rd) r ∪ q0, 0)
  | None =>
      exists q', item_read fuel rd q
        = Ok (set_off rd (rd_start rd + n * rd_isz rd)%nat, set_invalid q', 1) /\
        ((exists r, q' = wr (rd_type rd) r ∪ q0 /\ (rd_isz rd <= length r)%nat) \/ q' = q0)
  end.
Proof.
  induction fuel as [|fuel IH]; intros rd n c q0 q H Hf Hb Hq; [lia|].
  destruct (decide (c < n)%nat) as [Hc|Hc].
  - rewrite (recs_drop _ _ _ H Hc).
    set (r := take (rd_isz rd) (drop (rd_off rd) (rd_file rd))).
    assert (Hlr : (rd_isz rd <= length r)%nat).
    { assert (Hr := rinv_room _ _ _ H Hc). unfold r. rewrite take_length, drop_length. lia. }
    assert (Habs : wr (rd_type rd) r ∪ q = wr (rd_type rd) r ∪ q0).
    { destruct Hq as [(r' & -> & Hl')| ->]; [|done].
      eapply wr_absorb; [exact (ri_fit _ _ _ H)|done|done]. }
    cbn [item_read first_kept]. rewrite (at_eof_cur _ _ _ H Hc), (dec_cur _ _ _ _ H Hc).
    cbn [rbind]. rewrite skip_rec_ok by exact (ri_abort _ _ _ H). cbn [rbind].
    fold r. cbn [rd_type rd_ign0 rd_fwd set_off]. rewrite Habs.
    destruct (skipb (rd_type rd) (rd_ign0 rd) (rd_fwd rd) (wr (rd_type rd) r ∪ q0)) eqn:Esk;
      cbn [negb].
    + assert (Ho : (rd_off rd + rd_isz rd = rd_start rd + S c * rd_isz rd)%nat).
      { rewrite (ri_off _ _ _ H). lia. }
      rewrite Ho.
      assert (H' : rinv (set_off rd (rd_start rd + S c * rd_isz rd)%nat) n (S c)).
      { apply rinv_set_off with c; [done|lia]. }
      assert (Hb' : (S c < n)%nat \/ forall p, rd_type rd <> T_BIN p).
      { right. intros p E. unfold skipb in Esk. rewrite E in Esk. discriminate. }
      assert (IH' := IH _ n (S c) q0 (wr (rd_type rd) r ∪ q0) H' ltac:(lia) Hb'
                        (or_introl (ex_intro _ r (conj eq_refl Hlr)))).
      cbn [rd_type rd_ign0 rd_fwd set_off] in IH'.
      change (recs (set_off rd (rd_start rd + S c * rd_isz rd)%nat) n) with (recs rd n) in IH'.
      destruct (first_kept _ (drop (S c) (recs rd n))) as [[k r']|] eqn:Ek; cbn.
      * destruct IH' as (I1 & I2 & I3). split_and!.
        -- lia.
        -- replace (c + S k)%nat with (S c + k)%nat by lia. done.
        -- unfold set_off in *. cbn in I3. rewrite I3. repeat f_equal. lia.
      * destruct IH' as (q' & I1 & I2). exists q'. split; [exact I1|exact I2].
    + split_and!; [lia| |].
      * rewrite Nat.add_0_r. exact (recs_lookup _ _ _ H Hc).
      * assert (Ho : (rd_off rd + rd_isz rd = rd_start rd + (c + 0 + 1) * rd_isz rd)%nat).
        { rewrite (ri_off _ _ _ H). lia. }
        rewrite Ho. reflexivity.
  - assert (c = n) as -> by (destruct H; lia).
    rewrite drop_ge by (unfold recs; rewrite chop_length; lia). cbn [first_kept].
    destruct Hb as [Hb|Hb]; [lia|].
    exists q. split.
    + cbn. rewrite (at_eof_end _ _ H Hb).
      rewrite <- (ri_off _ _ _ H), set_off_id. reflexivity.
    + exact Hq.
Qed.

Lemma agree_refl t i q : agree t i q q.
Proof. intros x _. reflexivity. Qed.

Lemma agree_trans t i q1 q2 q3 : agree t i q1 q2 -> agree t i q2 q3 -> agree t i q1 q3.
Proof. intros H1 H2 x Hx. rewrite H1, H2 by done. reflexivity. Qed.

Lemma agree_insert t i q f v : f ∈ wfields t i -> agree t i (<[f := v]> q) q.
Proof. intros Hf x Hx. rewrite lookup_insert_ne; [done|]. intros ->. done. Qed.

Lemma agree_prologue t i q : agree t i (prologue q) q.
Proof.
  unfold prologue. eapply agree_trans; [apply agree_insert; unfold wfields; set_solver|].
  eapply agree_trans; [apply agree_insert; unfold wfields; set_solver|].
  apply agree_insert; unfold wfields; set_solver.
Qed.

Lemma agree_wr t i isz r q :
  Forall (fun e => f_off e + f_width e <= isz)%nat (table_of t) ->
  (isz <= length r)%nat -> agree t i (wr t r ∪ q) q.
Proof.
  intros Hf Hl x Hx. apply lookup_union_r. apply eq_None_not_Some. intros S.
  apply (wr_dom t isz r x Hf Hl) in S. apply Hx. unfold wfields.
  rewrite !elem_of_cons, elem_of_app. tauto.
Qed.

Lemma dlv_agree t i isz r q :
  Forall (fun e => f_off e + f_width e <= isz)%nat (table_of t) ->
  (isz <= length r)%nat -> agree t i (dlv t i q r) q.
Proof.
  intros Hf Hl. unfold dlv. destruct i.
  - eapply agree_trans; [apply agree_insert; unfold wfields; set_solver|].
    eapply agree_trans; [eapply agree_wr; done|]. apply agree_prologue.
  - eapply agree_trans; [eapply agree_wr; done|]. apply agree_prologue.
Qed.

Lemma prologue_lookup q x :
  prologue q !! x = if decide (x = F_HV) then Some 0 else if decide (x = F_TTL) then Some (-1)
                    else if decide (x = F_VALID) then Some 1 else q !! x.
Proof.
  unfold prologue. destruct (decide (x = F_HV)) as [->|N1];
    [rewrite !lookup_insert_ne by done; rewrite lookup_insert; done|].
  destruct (decide (x = F_TTL)) as [->|N2];
    [rewrite lookup_insert_ne by done; rewrite lookup_insert; done|].
  destruct (decide (x = F_VALID)) as [->|N3];
    [rewrite lookup_insert; done|].
  rewrite !lookup_insert_ne by done. done.
Qed.

Lemma wr_pro_agree t i isz r q q0 x :
  Forall (fun e => f_off e + f_width e <= isz)%nat (table_of t) ->
  (isz <= length r)%nat -> agree t i q q0 ->
  (i = true -> x ∈ fields (table_of t) \/ x <> F_SIZE) ->
  (wr t r ∪ prologue q) !! x = (wr t r ∪ prologue q0) !! x.
Proof.
  intros Hf Hl Ha Hi.
  destruct (decide (x ∈ fields (table_of t))) as [Hx|Hx].
  - apply (wr_dom t isz r x Hf Hl) in Hx as [v Hv].
    rewrite !(lookup_union_Some_l _ _ _ _ Hv). reflexivity.
  - assert (N : wr t r !! x = None).
    { apply eq_None_not_Some. intros S. apply Hx, (wr_dom t isz r x Hf Hl), S. }
    rewrite !lookup_union_r by done. rewrite !prologue_lookup.
    destruct (decide (x = F_HV)) as [|N1]; [done|].
    destruct (decide (x = F_TTL)) as [|N2]; [done|].
    destruct (decide (x = F_VALID)) as [|N3]; [done|].
    apply Ha. unfold wfields. rewrite !elem_of_cons, elem_of_app.
    intros [?|[?|[?|[Hs|?]]]]; try done. destruct i; [|set_solver].
    destruct (Hi eq_refl) as [?|Hne]; [done|]. set_solver.
Qed.

Lemma dlv_eq t i isz r q q0 :
  Forall (fun e => f_off e + f_width e <= isz)%nat (table_of t) ->
  (isz <= length r)%nat -> agree t i q q0 -> dlv t i q r = dlv t i q0 r.
Proof.
  intros Hf Hl Ha. unfold dlv. apply map_eq. intros x. destruct i.
  - destruct (decide (x = F_SIZE)) as [->|Hx]; [rewrite !lookup_insert; done|].
    rewrite !lookup_insert_ne by done. eapply wr_pro_agree; eauto.
  - eapply wr_pro_agree; eauto.
Qed.

Lemma keepr_eq t i isz r q q0 b1 b2 :
  Forall (fun e => f_off e + f_width e <= isz)%nat (table_of t) ->
  (isz <= length r)%nat -> agree t i q q0 ->
  keepr t b1 b2 q r = keepr t b1 b2 q0 r.
Proof.
  intros Hf Hl Ha. unfold keepr. f_equal.
  assert (Hop : fget (wr t r ∪ prologue q) F_OP = fget (wr t r ∪ prologue q0) F_OP).
  { unfold fget. erewrite wr_pro_agree; [done|exact Hf|done|exact Ha|]. intros _. right. done. }
  assert (Hval : fget (wr t r ∪ prologue q) F_VAL = fget (wr t r ∪ prologue q0) F_VAL).
  { unfold fget. erewrite wr_pro_agree; [done|exact Hf|done|exact Ha|]. intros _. right. done. }
  assert (Hsz : F_SIZE ∈ fields (table_of t) ->
     fget (wr t r ∪ prologue q) F_SIZE = fget (wr t r ∪ prologue q0) F_SIZE).
  { intros Hx. unfold fget. erewrite wr_pro_agree; [done|exact Hf|done|exact Ha|].
    intros _. left. done. }
  unfold skipb, is_get. rewrite Hop, Hval.
  destruct t; cbn [skip_of]; try reflexivity;
    (rewrite Hsz; [reflexivity|cbn; set_solver]).
Qed.

(** One read call without a sampler. *)
Lemma read_raw_spec rd n c q :
  rinv rd n c ->
  if decide ((n <= c)%nat \/ (1 < rd_cap rd /\ rd_cap rd <= rd_nread rd)) then
    read_raw rd q = Ok (rd, set_invalid q, 1)
  else
  match first_kept (keepr (rd_type rd) (rd_ign0 rd) (rd_fwd rd) q) (drop c (recs rd n)) with
  | Some (k, r) =>
      (c + k < n)%nat /\ recs rd n !! (c + k)%nat = Some r /\
      read_raw rd q
      = Ok (set_nread (set_off rd (rd_start rd + (c + k + 1) * rd_isz rd)%nat) (rd_nread rd + 1),
            dlv (rd_type rd) (rd_ignsz rd) q r, 0)
  | None =>
      exists q', read_raw rd q
        = Ok (set_nread (set_off rd (rd_start rd + n * rd_isz rd)%nat) (rd_nread rd + 1), q', 1) /\
        fget q' F_VALID = 0 /\ agree (rd_type rd) (rd_ignsz rd) q' q
  end.
Proof.
  intros H. destruct (decide _) as [Hd|Hd].
  - unfold read_raw. assert (E : no_more rd = true); [|rewrite E; done].
    unfold no_more. apply orb_true_iff. destruct Hd as [Hd|[Hd1 Hd2]].
    + left. apply Nat.leb_le. unfold file_size. destruct H. rewrite ri_len0, ri_off0. nia.
    + right. apply andb_true_iff. split; [apply Z.ltb_lt|apply Z.leb_le]; lia.
  - assert (Hc : (c < n)%nat) by lia.
    assert (E : no_more rd = false).
    { unfold no_more. apply orb_false_iff. split.
      - apply Nat.leb_gt. assert (Hr := rinv_room _ _ _ H Hc). destruct H. unfold file_size. lia.
      - apply andb_false_iff. destruct (Z.ltb_spec 1 (rd_cap rd)); [right|left; done].
        apply Z.leb_gt. lia. }
    assert (HS := item_read_spec (S (file_size rd)) (set_nread rd (rd_nread rd + 1)) n c
                   (prologue q) (prologue q) (rinv_set_nread _ _ _ _ H)).
    assert (Hfuel : (n - c < S (file_size rd))%nat).
    { unfold file_size. destruct H. rewrite ri_len0. nia. }
    specialize (HS Hfuel (or_introl Hc) (or_intror eq_refl)).
    cbn [rd_type rd_ign0 rd_fwd set_nread rd_start rd_isz] in HS.
    change (recs (set_nread rd (rd_nread rd + 1)) n) with (recs rd n) in HS.
    unfold keepr. unfold read_raw. rewrite E.
    destruct (first_kept _ (drop c (recs rd n))) as [[k r]|] eqn:Ek.
    + destruct HS as (S1 & S2 & S3). split_and!; [done|done|]. rewrite S3. cbn [rbind].
      unfold ign_size, dlv. reflexivity.
    + destruct HS as (q' & S1 & S2). rewrite S1. cbn [rbind].
      eexists. split; [reflexivity|]. split.
      * unfold ign_size. cbn. destruct (rd_ignsz rd); unfold fget, set_invalid.
        -- rewrite lookup_insert_ne by done. rewrite lookup_insert. done.
        -- rewrite lookup_insert. done.
      * assert (A : agree (rd_type rd) (rd_ignsz rd) (set_invalid q') q).
        { eapply agree_trans; [apply agree_insert; unfold wfields; set_solver|].
          destruct S2 as [(r & -> & Hl)| ->].
          - eapply agree_trans; [eapply agree_wr; [exact (ri_fit _ _ _ H)|exact Hl]|].
            apply agree_prologue.
          - apply agree_prologue. }
        unfold ign_size. cbn. destruct (rd_ignsz rd) eqn:Ei; [|done].
        eapply agree_trans; [|exact A]. apply agree_insert. unfold wfields. set_solver.
Qed.
