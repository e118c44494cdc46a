(** Facts about the trace converter. *)
From stdpp Require Import gmap list numbers fin_maps fin_sets.
From Verif Require Import Base ModelReader SpecReader ReaderFacts PropsReader PropsLayout
  ModelConv SpecConv.
Open Scope Z_scope.

(** * Records as bytes *)

Lemma og_bytes_length g : length (og_bytes g) = og_size.
Proof. unfold og_bytes. rewrite !app_length, !le_bytes_length. reflexivity. Qed.

Lemma og_concat_length gs : length (concat (map og_bytes gs)) = (og_size * length gs)%nat.
Proof.
  induction gs as [|g gs IH]; cbn [map concat length]; [lia|].
  rewrite app_length, og_bytes_length, IH. lia.
Qed.

Definition og_wf (g : og) : Prop :=
  uint 32 (g_time g) /\ uint 64 (g_id g) /\ uint 32 (g_size g) /\ sint 64 (g_next g).

Lemma le_at_mid pre n x post k :
  k = length pre -> le_at (pre ++ le_bytes n x ++ post) k n = Ok (x mod 2 ^ (8 * Z.of_nat n)).
Proof.
  intros ->. rewrite <- (Nat.add_0_r (length pre)), le_at_app_r. apply le_at_bytes.
Qed.

Lemma og_load_at pre g post :
  og_wf g -> og_load (pre ++ og_bytes g ++ post) (length pre) = Ok g.
Proof.
  intros (H1 & H2 & H3 & H4). unfold og_load, og_bytes. rewrite <- !app_assoc.
  rewrite (le_at_mid pre 4) by done. cbn [rbind].
  rewrite (app_assoc pre (le_bytes 4 _)).
  rewrite (le_at_mid _ 8) by (rewrite app_length, le_bytes_length; done). cbn [rbind].
  rewrite (app_assoc _ (le_bytes 8 _)).
  rewrite (le_at_mid _ 4) by (rewrite !app_length, !le_bytes_length; lia). cbn [rbind].
  rewrite (app_assoc _ (le_bytes 4 (g_size g))).
  rewrite (le_at_mid _ 8) by (rewrite !app_length, !le_bytes_length; lia). cbn [rbind].
  change (8 * Z.of_nat 4) with 32. change (8 * Z.of_nat 8) with 64.
  rewrite !mod_uint by done. rewrite signed_mod by (lia || done). by destruct g.
Qed.

(** * The backward pass on a list *)

Definition q_id (q : treq) : Z := fget q F_ID.

(** The value stored for the next access of [q] when [l] follows it: the number
    of requests behind the next access. *)
Definition back_next (l : list treq) (q : treq) : Z :=
  match list_find (fun q' => q_id q' = q_id q) l with
  | None => -1
  | Some (k, _) => Z.of_nat (length l) - 1 - Z.of_nat k
  end.

Fixpoint back_recs (l : list treq) : list og :=
  match l with
  | [] => []
  | q :: l' =>
      mkOg (u32 (fget q F_TIME)) (q_id q) (u32 (fget q F_SIZE)) (back_next l' q)
        :: back_recs l'
  end.

(** The loop state after the requests of [l], the last one first. *)
Definition conv_all (l : list treq) : cst :=
  foldr (fun q c => conv_body (og_init (mkOg 0 0 0 0) q) q c) cst_init l.

Definition idsz (l : list treq) : list (Z * Z) := map (fun q => (q_id q, fget q F_SIZE)) l.

Lemma list_find_cons {A} (P : A -> Prop) `{forall x, Decision (P x)} x l :
  list_find P (x :: l) =
  if decide (P x) then Some (O, x) else prod_map S id <$> list_find P l.
Proof. reflexivity. Qed.

Lemma conv_map l x :
  cv_map (conv_all l) !! x =
  (fun p => Z.of_nat (length l) - 1 - Z.of_nat p.1) <$> list_find (fun q => q_id q = x) l.
Proof.
  assert (Hreq : forall m, st_req (cv_stat (conv_all m)) = Z.of_nat (length m)).
  { induction m as [|q m IH]; [done|]. cbn [conv_all foldr] in *. fold (conv_all m) in *.
    unfold conv_body. destruct (cv_map (conv_all m) !! _); cbn; rewrite IH; lia. }
  induction l as [|q l IH]; [done|].
  rewrite list_find_cons. cbn [conv_all foldr]. fold (conv_all l).
  assert (E : cv_map (conv_body (og_init (mkOg 0 0 0 0) q) q (conv_all l))
              = <[q_id q := Z.of_nat (length l)]> (cv_map (conv_all l))).
  { unfold conv_body. destruct (cv_map (conv_all l) !! g_id (og_init (mkOg 0 0 0 0) q)); cbn [cv_map]; rewrite (Hreq l); reflexivity. }
  rewrite E. destruct (decide (q_id q = x)) as [->|N].
  - rewrite lookup_insert. cbn. f_equal. lia.
  - rewrite lookup_insert_ne by done. rewrite IH.
    destruct (list_find _ l) as [[k y]|]; cbn; [|done]. f_equal. lia.
Qed.

Lemma conv_state l :
  cv_out (conv_all l) = concat (map og_bytes (rev (back_recs l))) /\
  st_req (cv_stat (conv_all l)) = Z.of_nat (length l) /\
  st_obj (cv_stat (conv_all l)) = Z.of_nat (size (list_to_set (map q_id l) : gset Z)) /\
  st_req_byte (cv_stat (conv_all l)) = sum_z (map (fun q => fget q F_SIZE) l) /\
  st_obj_byte (cv_stat (conv_all l)) = last_sizes (idsz l).
Proof.
  induction l as [|q l (I1 & I2 & I3 & I4 & I5)]; [done|].
  cbn [conv_all foldr]. fold (conv_all l). unfold conv_body.
  assert (M := conv_map l (q_id q)).
  change (g_id (og_init (mkOg 0 0 0 0) q)) with (q_id q).
  cbn [back_recs rev map list_to_set idsz last_sizes sum_z foldr length].
  fold (idsz l) (sum_z (map (fun q => fget q F_SIZE) l)).
  rewrite map_app, concat_app. cbn [map concat]. rewrite app_nil_r.
  assert (Hid : map fst (idsz l) = map q_id l).
  { unfold idsz. rewrite map_map. done. }
  unfold back_next. rewrite M.
  destruct (list_find (fun q' => q_id q' = q_id q) l) as [[k y]|] eqn:E;
    cbn [fmap option_fmap option_map cv_out cv_stat st_req st_obj st_req_byte st_obj_byte
         og_init g_time g_id g_size fst].
  - apply list_find_Some in E as (E1 & E2 & _).
    assert (Hin : q_id q ∈ map q_id l).
    { rewrite <- E2. apply elem_of_list_fmap. exists y. split; [done|].
      apply elem_of_list_lookup. by exists k. }
    rewrite I1, I2, I3, I4, I5. split_and!; try lia; try done.
    + replace ({[q_id q]} ∪ list_to_set (map q_id l) : gset Z)
        with (list_to_set (map q_id l) : gset Z) by set_solver. done.
    + rewrite decide_True by (rewrite Hid; done). lia.
  - apply list_find_None in E. rewrite Forall_forall in E.
    assert (Hin : q_id q ∉ map q_id l).
    { intros Hin. apply elem_of_list_fmap in Hin as (y & Hy & Hl).
      apply (E y Hl). done. }
    rewrite I1, I2, I3, I4, I5. split_and!; try lia; try done.
    + rewrite size_union by set_solver. rewrite size_singleton. lia.
    + rewrite decide_False by (rewrite Hid; done). lia.
Qed.

Lemma back_recs_length l : length (back_recs l) = length l.
Proof. induction l; cbn; congruence. Qed.

(** * The reversing pass *)

Definition first_sz (G : list og) (g : og) : Z :=
  match list_find (fun g' => g_id g' = g_id g) G with
  | Some (_, g') => g_size g'
  | None => g_size g
  end.

Definition fin (N : Z) (rsc : bool) (G : list og) (g : og) : og :=
  mkOg (g_time g) (g_id g) (if rsc then first_sz G g else g_size g)
       (if g_next g =? -1 then g_next g else N - g_next g).

Lemma list_find_app {A} (P : A -> Prop) `{forall x, Decision (P x)} l l' :
  list_find P (l ++ l') =
  match list_find P l with
  | Some p => Some p
  | None => prod_map (Nat.add (length l)) id <$> list_find P l'
  end.
Proof.
  induction l as [|x l IH]; cbn [app].
  - cbn. destruct (list_find P l') as [[k y]|]; done.
  - rewrite !list_find_cons. destruct (decide (P x)); [done|]. rewrite IH.
    destruct (list_find P l) as [[k y]|]; cbn; [done|].
    destruct (list_find P l') as [[k y]|]; done.
Qed.

Lemma rev_loop_spec st rsc : forall rest P fuel sizes n out,
  Forall og_wf (P ++ rest) -> (length rest < fuel)%nat ->
  (rsc = true -> forall x, sizes !! x =
     (fun p => g_size p.2) <$> list_find (fun g => g_id g = x) P) ->
  rev_loop fuel (concat (map og_bytes (rev (P ++ rest)))) st rsc
    (og_size * length rest) sizes n out
  = Ok (out ++ concat (map og_bytes (map (fin (st_req st) rsc (P ++ rest)) rest)),
        n + Z.of_nat (length rest)).
Proof.
  induction rest as [|g rest IH]; intros P fuel sizes n out Hwf Hf Hs.
  - destruct fuel; [cbn in Hf; lia|]. cbn [rev_loop length map concat]. rewrite Nat.mul_0_r.
    cbn [Nat.leb og_size]. rewrite app_nil_r. do 2 f_equal. cbn. lia.
  - destruct fuel; [cbn in Hf; lia|]. cbn [rev_loop length].
    rewrite (proj2 (Nat.leb_le og_size (og_size * S (length rest)))) by lia.
    replace (og_size * S (length rest) - og_size)%nat with (og_size * length rest)%nat by lia.
    assert (Hg : og_wf g).
    { apply Forall_app in Hwf as [_ Hwf]. inversion Hwf; done. }
    assert (Hl : og_load (concat (map og_bytes (rev (P ++ g :: rest)))) (og_size * length rest) = Ok g).
    { rewrite rev_app_distr. cbn [rev]. rewrite map_app, map_app, !concat_app.
      cbn [map concat]. rewrite app_nil_r.
      rewrite <- app_assoc.
      assert (Hlen : length (concat (map og_bytes (rev rest))) = (og_size * length rest)%nat).
      { rewrite og_concat_length, rev_length. done. }
      rewrite <- Hlen. apply og_load_at. done. }
    rewrite Hl. cbn [rbind].
    assert (Eapp : P ++ g :: rest = (P ++ [g]) ++ rest) by (rewrite <- app_assoc; done).
    assert (Enx : (if negb (g_next g =? -1) then st_req st - g_next g else g_next g)
                  = (if g_next g =? -1 then g_next g else st_req st - g_next g)).
    { destruct (g_next g =? -1); done. }
    rewrite Enx.
    assert (Hfs : first_sz (P ++ g :: rest) g =
       match list_find (fun g' => g_id g' = g_id g) P with
       | Some (_, g') => g_size g' | None => g_size g end).
    { unfold first_sz. rewrite list_find_app, list_find_cons.
      destruct (list_find _ P) as [[k y]|]; [done|]. rewrite decide_True by done. done. }
    cbn [map concat]. rewrite (app_assoc out).
    destruct rsc.
    + specialize (Hs eq_refl).
      assert (Hnew : forall sizes1 s,
        sizes1 = match sizes !! g_id g with Some _ => sizes | None => <[g_id g := g_size g]> sizes end ->
        s = first_sz (P ++ g :: rest) g ->
        rev_loop fuel (concat (map og_bytes (rev (P ++ g :: rest)))) st true (og_size * length rest)
          sizes1 (n + 1) (out ++ og_bytes (mkOg (g_time g) (g_id g) s
             (if g_next g =? -1 then g_next g else st_req st - g_next g)))
        = Ok ((out ++ og_bytes (fin (st_req st) true (P ++ g :: rest) g)) ++
              concat (map og_bytes (map (fin (st_req st) true (P ++ g :: rest)) rest)),
              n + Z.of_nat (S (length rest)))).
      { intros sizes1 s -> ->. rewrite Eapp. rewrite IH.
        - f_equal. f_equal. lia.
        - rewrite <- Eapp. done.
        - cbn in Hf. lia.
        - intros _ x. rewrite list_find_app.
          destruct (decide (g_id g = x)) as [Hx|Hx].
          + subst x. specialize (Hs (g_id g)).
            destruct (list_find (fun g0 => g_id g0 = g_id g) P) as [[k y]|] eqn:EP; cbn in Hs |- *.
            * rewrite Hs. rewrite Hs. done.
            * rewrite Hs. rewrite lookup_insert. rewrite decide_True by done. done.
          + rewrite list_find_cons, decide_False by done. cbn.
            transitivity (sizes !! x).
            * destruct (sizes !! g_id g); [done|]. rewrite lookup_insert_ne by done. done.
            * rewrite Hs. destruct (list_find (fun g0 => g_id g0 = x) P) as [[k y]|]; reflexivity. }
      specialize (Hs (g_id g)). rewrite Hfs in Hnew.
      destruct (sizes !! g_id g) as [s0|] eqn:Es.
      * apply Hnew; [done|].
        destruct (list_find (fun g0 => g_id g0 = g_id g) P) as [[k y]|]; cbn in Hs; congruence.
      * apply Hnew; [done|].
        destruct (list_find (fun g0 => g_id g0 = g_id g) P) as [[k y]|]; cbn in Hs; congruence.
    + rewrite Eapp. rewrite IH.
      * f_equal. f_equal. lia.
      * rewrite <- Eapp. done.
      * cbn in Hf. lia.
      * done.
Qed.

(** * What the final records say *)

Lemma back_recs_lookup l i q :
  l !! i = Some q ->
  back_recs l !! i = Some (mkOg (u32 (fget q F_TIME)) (q_id q) (u32 (fget q F_SIZE))
                               (back_next (drop (S i) l) q)).
Proof.
  revert i. induction l as [|q' l IH]; intros i H; [done|].
  destruct i; cbn in H |- *; [injection H as ->; rewrite ?drop_0; done|]. apply IH. done.
Qed.

Lemma back_next_ref l i q :
  l !! i = Some q ->
  next_ref (map q_id l) i
    (let v := back_next (drop (S i) l) q in
     if v =? -1 then v else Z.of_nat (length l) - v).
Proof.
  intros H. exists (q_id q). rewrite list_lookup_fmap, H. split; [done|].
  assert (Hi : (i < length l)%nat) by (apply lookup_lt_Some in H; done).
  unfold back_next.
  destruct (list_find (fun q' => q_id q' = q_id q) (drop (S i) l)) as [[k y]|] eqn:E.
  - apply list_find_Some in E as (E1 & E2 & E3). rewrite lookup_drop in E1.
    assert (Hk := lookup_lt_Some _ _ _ E1). rewrite drop_length.
    cbv zeta. destruct (Z.eqb_spec (Z.of_nat (length l - S i) - 1 - Z.of_nat k) (-1)) as [E0|N]; [lia|].
    left. exists (S i + k)%nat. split_and!; [lia| | |lia].
    + rewrite list_lookup_fmap, E1. cbn. congruence.
    + intros m Hm Hmx. rewrite list_lookup_fmap in Hmx.
      destruct (l !! m) as [z|] eqn:Ez; [|done]. cbn in Hmx. injection Hmx as Hz.
      apply (E3 (m - S i)%nat z); [|lia|done].
      rewrite lookup_drop. replace (S i + (m - S i))%nat with m by lia. done.
  - apply list_find_None in E. right. split; [|done].
    intros m Hm Hmx. rewrite list_lookup_fmap in Hmx.
    destruct (l !! m) as [z|] eqn:Ez; [|done]. cbn in Hmx. injection Hmx as Hz.
    rewrite Forall_forall in E. apply (E z); [|done].
    apply elem_of_list_lookup. exists (m - S i)%nat.
    rewrite lookup_drop. replace (S i + (m - S i))%nat with m by lia. done.
Qed.

Lemma first_sz_spec l g :
  g_id g ∈ map q_id l ->
  exists s, first_size (map q_id l) (map (fun q => fget q F_SIZE) l) (g_id g) s /\
            first_sz (back_recs l) g = u32 s.
Proof.
  intros Hin. unfold first_sz.
  destruct (list_find (fun g' => g_id g' = g_id g) (back_recs l)) as [[k y]|] eqn:E.
  - apply list_find_Some in E as (E1 & E2 & E3).
    assert (Hk := lookup_lt_Some _ _ _ E1). rewrite back_recs_length in Hk.
    destruct (lookup_lt_is_Some_2 l k Hk) as [q Hq].
    rewrite (back_recs_lookup _ _ _ Hq) in E1. injection E1 as <-. cbn in E2 |- *.
    exists (fget q F_SIZE). split; [|done]. exists k.
    rewrite !list_lookup_fmap, Hq. cbn. split_and!; [congruence|done|].
    intros m Hm Hmx. rewrite list_lookup_fmap in Hmx.
    destruct (l !! m) as [z|] eqn:Ez; [|done]. cbn in Hmx. injection Hmx as Hz.
    eapply (E3 m); [apply back_recs_lookup, Ez|done|]. cbn. done.
  - apply list_find_None in E. rewrite Forall_forall in E.
    apply elem_of_list_fmap in Hin as (q & Hq & Hl).
    apply elem_of_list_lookup in Hl as [k Hk].
    exfalso. eapply E; [apply elem_of_list_lookup; exists k; apply back_recs_lookup, Hk|].
    cbn. done.
Qed.

Lemma u32_uint x : uint 32 (u32 x).
Proof. unfold uint, u32. apply Z.mod_pos_bound. lia. Qed.

Lemma back_recs_wf l :
  Forall (fun q => uint 64 (q_id q)) l -> Z.of_nat (length l) < 2 ^ 63 ->
  Forall og_wf (back_recs l).
Proof.
  induction 1 as [|q l Hq H IH]; cbn [length back_recs]; intros Hn; constructor.
  - unfold og_wf. cbn. split_and!; try apply u32_uint; try done.
    unfold sint, back_next. destruct (list_find _ l) as [[k y]|] eqn:E; [|lia].
    apply list_find_Some in E as (E1 & _). apply lookup_lt_Some in E1. lia.
  - apply IH. lia.
Qed.
