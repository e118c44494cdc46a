(** SLRU: the code of SLRU.c implements the segment machine of SpecSLRU.v. *)
From stdpp Require Import gmap list numbers fin_maps.
From Verif Require Import Base Driver ModelQueue SpecApi SpecComp ModelSLRU SpecSLRU.
Open Scope Z_scope.

(** * Overflow *)

Local Arguments total_bytes : simpl never.

Definition nonneg (l : seg) : Prop := Forall (fun x => 0 <= x.2) l.

Lemma total_cons x (l : seg) : total_bytes (x :: l) = x.2 + total_bytes l.
Proof. done. Qed.
Lemma total_app (a b : seg) : total_bytes (a ++ b) = total_bytes a + total_bytes b.
Proof. unfold total_bytes. induction a as [|x a IH]; cbn in *; lia. Qed.
Lemma total_snoc (a : seg) x : total_bytes (a ++ [x]) = total_bytes a + x.2.
Proof. rewrite total_app. unfold total_bytes. cbn. lia. Qed.
Lemma total_nonneg l : nonneg l -> 0 <= total_bytes l.
Proof. unfold total_bytes. induction 1; cbn in *; lia. Qed.
Lemma total_perm (a b : seg) : a ≡ₚ b -> total_bytes a = total_bytes b.
Proof. unfold total_bytes. induction 1; cbn in *; lia. Qed.

Lemma fit_app m l : (fit m l).1 ++ (fit m l).2 = l.
Proof.
  revert m. induction l as [|x l IH]; intros m; cbn; [done|].
  case_decide; cbn; [|done]. by rewrite IH.
Qed.

Lemma fit_all m l : nonneg l -> total_bytes l <= m -> fit m l = (l, []).
Proof.
  intros H. revert m. induction H as [|x l Hx H IH]; intros m Hm; cbn in *; [done|].
  assert (Hn := total_nonneg l H). rewrite decide_True by (rewrite ?total_cons in *; lia).
  rewrite IH by (rewrite ?total_cons in *; lia). done.
Qed.

Lemma fit_le m l : 0 <= m -> total_bytes (fit m l).1 <= m.
Proof.
  revert m. induction l as [|x l IH]; intros m Hm; cbn; [unfold total_bytes; cbn; lia|].
  case_decide; cbn; [|unfold total_bytes; cbn; lia]. specialize (IH (m - x.2)). rewrite total_cons. lia.
Qed.

Lemma fit_over m l : nonneg l -> total_bytes l > m -> 0 <= m -> (fit m l).2 <> [].
Proof.
  intros H Hm H0 E. assert (A := fit_app m l). rewrite E, app_nil_r in A.
  assert (B := fit_le m l H0). rewrite A in B. lia.
Qed.

Lemma fit_snoc m l x : 0 <= m -> nonneg (l ++ [x]) -> total_bytes (l ++ [x]) > m ->
  fit m (l ++ [x]) = ((fit m l).1, (fit m l).2 ++ [x]).
Proof.
  revert m. induction l as [|y l IH]; intros m H0 Hn Hm; cbn in *.
  - unfold total_bytes in Hm; cbn in Hm. rewrite decide_False by lia. done.
  - apply Forall_cons in Hn as [Hy Hn]. case_decide; cbn; [|done].
    rewrite IH by (try done; rewrite ?total_cons in *; lia). done.
Qed.

Lemma fit_shrink m m' b : m' <= m ->
  fit m' b = ((fit m' (fit m b).1).1, (fit m' (fit m b).1).2 ++ (fit m b).2).
Proof.
  revert m m'. induction b as [|x b IH]; intros m m' Hm; cbn; [done|].
  destruct (decide (x.2 <= m)) as [Hx|Hx]; cbn.
  - destruct (decide (x.2 <= m')) as [Hx'|Hx']; cbn.
    + rewrite (IH (m - x.2) (m' - x.2)) at 1 2 by lia. done.
    + rewrite fit_app. done.
  - rewrite decide_False by lia. done.
Qed.

Lemma fit_push m m' a b : m' <= m -> nonneg a ->
  fit m' (a ++ b) = ((fit m' (a ++ (fit m b).1)).1,
                     (fit m' (a ++ (fit m b).1)).2 ++ (fit m b).2).
Proof.
  intros Hm Ha. revert m' Hm. induction Ha as [|x a Hx Ha IH]; intros m' Hm.
  - cbn. by apply fit_shrink.
  - cbn [app fit]. case_decide; cbn.
    + rewrite (IH (m' - x.2)) at 1 2 by lia. done.
    + f_equal. rewrite <- app_assoc, fit_app. done.
Qed.

Section Settle.
  Context (ms : list Z).

  Lemma settle_eq k segs :
    settle ms k segs =
    match (fit (ms !!! k) (segs !!! k)).2, k with
    | [], _ => segs
    | _, O => <[O := (fit (ms !!! k) (segs !!! k)).1]> segs
    | over, S j => settle ms j (<[j := over ++ segs !!! j]>
                                 (<[k := (fit (ms !!! k) (segs !!! k)).1]> segs))
    end.
  Proof. destruct k; cbn [settle]; destruct (fit _ _) as [keep [|x over]]; done. Qed.

  Lemma settle_length k segs : length (settle ms k segs) = length segs.
  Proof.
    revert segs. induction k as [|k IH]; intros segs; rewrite settle_eq;
      destruct (fit _ _).2; try done; rewrite ?IH, ?insert_length; done.
  Qed.

  Lemma settle_insert_above k i x segs : (k < i)%nat ->
    settle ms k (<[i := x]> segs) = <[i := x]> (settle ms k segs).
  Proof.
    revert segs. induction k as [|k IH]; intros segs Hi; rewrite !settle_eq;
      rewrite (list_lookup_total_insert_ne segs i) by lia; destruct (fit _ _).2; try done.
    - by rewrite list_insert_commute by lia.
    - rewrite (list_lookup_total_insert_ne segs i) by lia.
      rewrite (list_insert_commute segs (S k) i) by lia.
      rewrite (list_insert_commute _ k i) by lia. apply IH. lia.
  Qed.

  Lemma settle_above k i segs : (k < i)%nat -> settle ms k segs !!! i = segs !!! i.
  Proof.
    revert segs. induction k as [|k IH]; intros segs Hi; rewrite settle_eq;
      destruct (fit _ _).2; try done.
    - by rewrite list_lookup_total_insert_ne by lia.
    - rewrite IH by lia. by rewrite !list_lookup_total_insert_ne by lia.
  Qed.

  Lemma settle_at k segs : (k < length segs)%nat ->
    settle ms k segs !!! k = (fit (ms !!! k) (segs !!! k)).1.
  Proof.
    intros Hk. rewrite settle_eq. assert (A := fit_app (ms !!! k) (segs !!! k)).
    destruct (fit _ _).2 as [|x over]; [by rewrite app_nil_r in A|]. destruct k.
    - by rewrite list_lookup_total_insert.
    - rewrite settle_above by lia. rewrite list_lookup_total_insert_ne by lia.
      by rewrite list_lookup_total_insert.
  Qed.

  Lemma settle_push k a b segs : (k < length segs)%nat -> nonneg a -> nonneg b ->
    Forall nonneg segs ->
    settle ms k (<[k := a ++ (fit (ms !!! k) b).1]> (settle ms k (<[k := b]> segs)))
    = settle ms k (<[k := a ++ b]> segs).
  Proof.
    revert a b segs. induction k as [|k IH]; intros a b segs Hk Ha Hb Hs;
      rewrite (settle_eq _ (<[_ := b]> segs)), (settle_eq _ (<[_ := a ++ b]> segs));
      rewrite !list_lookup_total_insert by done;
      assert (F := fit_push (ms !!! 0%nat) (ms !!! 0%nat) a b (Z.le_refl _) Ha).
    - rewrite F. cbn [fst snd]. destruct (fit (ms !!! 0%nat) b) as [K ov] eqn:Eb. cbn [fst snd].
      assert (A := fit_app (ms !!! 0%nat) b). rewrite Eb in A. cbn in A.
      destruct ov as [|y ov].
      + rewrite app_nil_r in *. subst K. rewrite list_insert_insert.
        rewrite settle_eq. rewrite list_lookup_total_insert by done. done.
      + rewrite !list_insert_insert. rewrite settle_eq. rewrite list_lookup_total_insert by done.
        assert (A2 := fit_app (ms !!! 0%nat) (a ++ K)).
        destruct (fit (ms !!! 0%nat) (a ++ K)) as [K2 [|z ov2]] eqn:E2; cbn in *.
        * rewrite app_nil_r in A2. by subst.
        * by rewrite list_insert_insert.
    - clear F. assert (F := fit_push (ms !!! S k) (ms !!! S k) a b (Z.le_refl _) Ha).
      rewrite F. cbn [fst snd]. destruct (fit (ms !!! S k) b) as [K ov] eqn:Eb. cbn [fst snd].
      assert (A := fit_app (ms !!! S k) b). rewrite Eb in A. cbn in A.
      destruct ov as [|y ov].
      + rewrite app_nil_r in *. subst K. rewrite list_insert_insert.
        rewrite settle_eq. rewrite list_lookup_total_insert by done. done.
      + rewrite !list_insert_insert. rewrite !(list_lookup_total_insert_ne segs (S k) k) by lia.
        set (T := settle ms k _).
        assert (Hov : nonneg (y :: ov)).
        { unfold nonneg in *. rewrite <- A in Hb. apply Forall_app in Hb. tauto. }
        assert (LT : length T = length segs) by (unfold T; rewrite settle_length, !insert_length; done).
        rewrite settle_eq. rewrite list_lookup_total_insert by (rewrite LT; done).
        assert (A2 := fit_app (ms !!! S k) (a ++ K)).
        assert (Hins : forall z, <[S k := z]> T
          = settle ms k (<[k := (y :: ov) ++ segs !!! k]> (<[S k := z]> segs))).
        { intros z. unfold T. rewrite <- settle_insert_above by lia.
          rewrite (list_insert_commute _ (S k) k) by lia. by rewrite list_insert_insert. }
        destruct (fit (ms !!! S k) (a ++ K)) as [K2 [|z ov2]] eqn:E2; cbn [fst snd] in *.
        * rewrite app_nil_r in A2. subst K2. rewrite Hins. done.
        * rewrite (list_lookup_total_insert_ne T (S k) k) by lia.
          rewrite list_insert_insert, Hins.
          assert (HT : T !!! k = (fit (ms !!! k) ((y :: ov) ++ segs !!! k)).1).
          { unfold T. rewrite settle_at by (rewrite !insert_length; lia).
            by rewrite list_lookup_total_insert by (rewrite insert_length; lia). }
          rewrite HT.
          assert (Hsk : nonneg (segs !!! k)).
          { destruct (lookup_lt_is_Some_2 segs k ltac:(lia)) as [l El].
            rewrite (list_lookup_total_correct _ _ _ El).
            rewrite Forall_lookup in Hs. by apply (Hs k). }
          rewrite (IH (z :: ov2) ((y :: ov) ++ segs !!! k) (<[S k := K2]> segs)).
          -- change ((z :: ov2) ++ y :: ov) with (z :: (ov2 ++ y :: ov)).
             cbn [app]. rewrite <- app_assoc. done.
          -- rewrite insert_length. lia.
          -- assert (HK : nonneg (a ++ K)).
             { unfold nonneg. apply Forall_app. split; [done|]. rewrite <- A in Hb.
               apply Forall_app in Hb. tauto. }
             unfold nonneg in *. rewrite <- A2 in HK. apply Forall_app in HK. tauto.
          -- apply Forall_app. done.
          -- apply Forall_insert; [done|]. assert (HK : nonneg (a ++ K)).
             { unfold nonneg. apply Forall_app. split; [done|]. rewrite <- A in Hb.
               apply Forall_app in Hb. tauto. }
             unfold nonneg in *. rewrite <- A2 in HK. apply Forall_app in HK. tauto.
  Qed.
End Settle.

(** * Lists of segments *)

Definition inseg (segs : list seg) (i : nat) (y : Z * Z) : Prop :=
  exists l, segs !! i = Some l /\ y ∈ l.

Lemma concat_push (segs : list seg) k l a : segs !! k = Some l ->
  concat (<[k := a ++ l]> segs) ≡ₚ a ++ concat segs.
Proof.
  revert k. induction segs as [|s segs IH]; intros [|k] H; cbn in *; try done.
  - injection H as ->. by rewrite app_assoc.
  - rewrite (IH _ H). rewrite !app_assoc. apply Permutation_app_tail, Permutation_app_comm.
Qed.

Lemma concat_pop (segs : list seg) k l1 a l2 : segs !! k = Some (l1 ++ a ++ l2) ->
  concat segs ≡ₚ a ++ concat (<[k := l1 ++ l2]> segs).
Proof.
  revert k. induction segs as [|s segs IH]; intros [|k] H; cbn in *; try done.
  - injection H as ->. rewrite !app_assoc. f_equiv. f_equiv. apply Permutation_app_comm.
  - rewrite (IH _ H). rewrite !app_assoc. apply Permutation_app_tail, Permutation_app_comm.
Qed.

Lemma inseg_concat segs i y : inseg segs i y -> y ∈ concat segs.
Proof.
  intros (l & H & Hy). apply elem_of_list_In, in_concat. exists l.
  split; apply elem_of_list_In; [by eapply elem_of_list_lookup_2|done].
Qed.
Lemma concat_inseg segs y : y ∈ concat segs -> exists i, inseg segs i y.
Proof.
  rewrite elem_of_list_In, in_concat. intros (l & H & Hy).
  apply elem_of_list_In, elem_of_list_lookup in H as [i H]. exists i, l.
  split; [done|by apply elem_of_list_In].
Qed.

Lemma inseg_pop segs i l1 x l2 j y : NoDup (concat segs).*1 ->
  segs !! i = Some (l1 ++ x :: l2) ->
  inseg (<[i := l1 ++ l2]> segs) j y <-> inseg segs j y /\ y.1 <> x.1.
Proof.
  intros Hnd Hi. assert (P := concat_pop segs i l1 [x] l2 Hi).
  rewrite P in Hnd. cbn in Hnd. apply NoDup_cons in Hnd as [Hx _].
  assert (Hlt := lookup_lt_Some _ _ _ Hi). split.
  - intros H. split.
    + destruct H as (l & Hl & Hy). apply list_lookup_insert_Some in Hl as [(-> & <- & _)|[Hne Hl]].
      * exists (l1 ++ x :: l2). split; [done|]. apply elem_of_app in Hy. apply elem_of_app.
        rewrite elem_of_cons. tauto.
      * by exists l.
    + intros E. apply Hx. rewrite <- E. apply elem_of_list_fmap_1. by eapply inseg_concat.
  - intros [(l & Hl & Hy) Hne]. destruct (decide (j = i)) as [->|Hj].
    + rewrite Hi in Hl. injection Hl as <-. exists (l1 ++ l2).
      rewrite list_lookup_insert by done. split; [done|].
      apply elem_of_app in Hy. apply elem_of_app. rewrite elem_of_cons in Hy.
      destruct Hy as [?|[->|?]]; [by left|done|by right].
    + exists l. by rewrite list_lookup_insert_ne.
Qed.

Lemma inseg_push segs k M x j y : segs !! k = Some M ->
  inseg (<[k := x :: M]> segs) j y <-> (j = k /\ y = x) \/ inseg segs j y.
Proof.
  intros Hk. assert (Hlt := lookup_lt_Some _ _ _ Hk). split.
  - intros (l & Hl & Hy). apply list_lookup_insert_Some in Hl as [(-> & <- & _)|[Hne Hl]].
    + apply elem_of_cons in Hy as [->|Hy]; [by left|]. right. by exists M.
    + right. by exists l.
  - intros [[-> ->]|(l & Hl & Hy)].
    + exists (x :: M). rewrite list_lookup_insert by done. split; [done|left].
    + destruct (decide (j = k)) as [->|Hj].
      * rewrite Hk in Hl. injection Hl as ->. exists (x :: l).
        rewrite list_lookup_insert by done. split; [done|by right].
      * exists l. by rewrite list_lookup_insert_ne.
Qed.

Lemma alter_insert {A} (f : A -> Z) (d : Z) (segs : list A) i l l' :
  segs !! i = Some l -> f l' = d + f l ->
  alter (Z.add d) i (f <$> segs) = f <$> <[i := l']> segs.
Proof.
  intros Hi Hf. apply list_eq. intros j. rewrite list_lookup_fmap.
  destruct (decide (j = i)) as [->|Hj].
  - rewrite list_lookup_alter, list_lookup_fmap, Hi.
    rewrite list_lookup_insert by (by eapply lookup_lt_Some). cbn. by rewrite Hf.
  - rewrite list_lookup_alter_ne by done. rewrite list_lookup_insert_ne by done.
    by rewrite list_lookup_fmap.
Qed.

Lemma q_del_mid (l1 l2 : seg) x : NoDup (l1 ++ x :: l2).*1 ->
  q_del x.1 (l1 ++ x :: l2).*1 = (l1 ++ l2).*1.
Proof.
  rewrite !fmap_app, fmap_cons. intros H. apply NoDup_app in H as (H1 & H2 & H3).
  apply NoDup_cons in H3 as [H3 H4]. unfold q_del. rewrite filter_app, filter_cons.
  rewrite decide_False by (intros E; by apply E).
  assert (F : forall l : list Z, x.1 ∉ l -> filter (fun y => y <> x.1) l = l).
  { induction l as [|y l IH]; [done|]. rewrite not_elem_of_cons. intros [N1 N2].
    rewrite filter_cons, decide_True by done. by rewrite IH. }
  rewrite !F; [done|done|]. intros E. apply (H2 x.1 E). left.
Qed.

Lemma nodup_seg (segs : list seg) i l : NoDup (concat segs).*1 -> segs !! i = Some l -> NoDup l.*1.
Proof.
  intros Hnd Hi. assert (P := concat_pop segs i [] l []). rewrite app_nil_r in P.
  specialize (P Hi). rewrite P, fmap_app in Hnd. apply NoDup_app in Hnd. tauto.
Qed.

(** * The state of the code against segments *)

Section Rel.
  Context (ms : list Z) (cap : Z).

  Definition osz_ok (x : Z * Z) : Prop := 0 < x.2 /\ x.2 <= ms !!! O /\ x.2 < 2 ^ 32.

  Record srel (s : slru) (a : sspec) : Prop := {
    sr_max : sl_max s = ms;
    sr_len : length (ss_segs a) = length ms;
    sr_q : sl_q s = (fun l : seg => l.*1) <$> ss_segs a;
    sr_nb : sl_nb s = (total_bytes : seg -> Z) <$> ss_segs a;
    sr_no : sl_no s = (fun l : seg => Z.of_nat (length l)) <$> ss_segs a;
    sr_nd : NoDup (concat (ss_segs a)).*1;
    sr_tbl : forall id sz i, inseg (ss_segs a) i (id, sz) <->
       exists o, c_tbl (sl_c s) !! id = Some o /\ o_size o = sz /\ o_p1 o = Z.of_nat i;
    sr_p1 : forall id o, c_tbl (sl_c s) !! id = Some o -> 0 <= o_p1 o;
    sr_occ : c_occ (sl_c s) = held (ss_segs a);
    sr_nobj : c_nobj (sl_c s) = Z.of_nat (length (concat (ss_segs a)));
    sr_md : c_md (sl_c s) = 0;
    sr_cap : c_size (sl_c s) = cap;
    sr_adm : c_adm (sl_c s) = ss_adm a;
    sr_ok : Forall osz_ok (concat (ss_segs a))
  }.

  Lemma srel_find s a id o : srel s a -> c_tbl (sl_c s) !! id = Some o ->
    inseg (ss_segs a) (Z.to_nat (o_p1 o)) (id, o_size o).
  Proof.
    intros H E. apply (sr_tbl s a H). exists o. split_and!; try done.
    assert (P := sr_p1 s a H _ _ E). lia.
  Qed.

  Lemma srel_none s a id : srel s a -> c_tbl (sl_c s) !! id = None ->
    id ∉ (concat (ss_segs a)).*1.
  Proof.
    intros H E Hin. apply elem_of_list_fmap in Hin as ([id' sz] & -> & Hin).
    apply concat_inseg in Hin as [i Hin]. apply (sr_tbl s a H) in Hin as (o & Ho & _).
    cbn in *. congruence.
  Qed.

  Lemma srel_q s a i l : srel s a -> ss_segs a !! i = Some l ->
    at_ (sl_q s) i = Ok l.*1 /\ at_ (sl_nb s) i = Ok (total_bytes l).
  Proof.
    intros H E. unfold at_. rewrite (sr_q s a H), (sr_nb s a H), !list_lookup_fmap, E. done.
  Qed.

  Lemma srel_nonneg s a : srel s a -> Forall nonneg (ss_segs a).
  Proof.
    intros H. apply Forall_lookup. intros i l Hl. apply Forall_forall. intros y Hy.
    assert (A := sr_ok s a H). rewrite Forall_forall in A.
    assert (B : y ∈ concat (ss_segs a)) by (eapply inseg_concat; by exists l).
    apply A in B. unfold osz_ok in B. lia.
  Qed.

  (** Moving an object from one segment to the front of another. *)
  Lemma srel_move s a i k l1 x l2 M (f : cobj -> cobj) o s' segs1 segs2 :
    srel s a -> ss_segs a !! i = Some (l1 ++ x :: l2) ->
    segs1 = <[i := l1 ++ l2]> (ss_segs a) -> segs1 !! k = Some M ->
    segs2 = <[k := x :: M]> segs1 ->
    c_tbl (sl_c s) !! x.1 = Some o -> o_size (f o) = x.2 -> o_p1 (f o) = Z.of_nat k ->
    sl_c s' = c_upd (sl_c s) x.1 f ->
    sl_q s' = (fun l : seg => l.*1) <$> segs2 -> sl_nb s' = (total_bytes : seg -> Z) <$> segs2 ->
    sl_no s' = (fun l : seg => Z.of_nat (length l)) <$> segs2 -> sl_max s' = sl_max s ->
    srel s' (mkSS segs2 (ss_adm a)).
  Proof.
    intros H Hi E1 Hk E2 Ho Hf1 Hf2 Ec Eq Enb Eno Emx.
    assert (P1 : concat (ss_segs a) ≡ₚ x :: concat segs1)
      by (rewrite E1; exact (concat_pop _ _ l1 [x] l2 Hi)).
    assert (P2 : concat segs2 ≡ₚ x :: concat segs1)
      by (rewrite E2; exact (concat_push _ k M [x] Hk)).
    assert (P : concat segs2 ≡ₚ concat (ss_segs a)) by (by rewrite P1, P2).
    assert (Hnd := sr_nd s a H).
    split; cbn [ss_segs ss_adm]; try done.
    - rewrite Emx. apply H.
    - rewrite E2, E1, !insert_length. apply H.
    - by rewrite P.
    - intros id sz j. rewrite E2, (inseg_push _ _ _ _ _ _ Hk), E1.
      rewrite (inseg_pop _ _ _ _ _ _ _ Hnd Hi), (sr_tbl s a H), Ec. cbn [c_upd c_set_tbl c_tbl fst].
      destruct (decide (id = x.1)) as [->|Hne].
      + rewrite lookup_alter, Ho. cbn. split.
        * intros [[-> Ex]|[_ []]]; [|done]. exists (f o). rewrite <- Ex in Hf1. done.
        * intros (o' & [= <-] & E & Ep). left. split; [lia|]. destruct x as [x1 x2]. cbn in *. by subst.
      + rewrite lookup_alter_ne by done. split.
        * intros [[_ Ex]|[E _]]; [|done]. destruct x; cbn in *. congruence.
        * intros E. by right.
    - intros id o' E. rewrite Ec in E. cbn in E. apply lookup_alter_Some in E as [(E0 & o1 & E & ->)|[_ E]].
      + rewrite <- E0 in E || subst id. rewrite Ho in E. injection E as <-. lia.
      + by apply (sr_p1 s a H) in E.
    - rewrite Ec. unfold held. rewrite (total_perm _ _ P). cbn. apply H.
    - rewrite Ec, P. apply H.
    - rewrite Ec. apply H.
    - rewrite Ec. apply H.
    - rewrite Ec. apply H.
    - rewrite P. apply H.
  Qed.

  (** The victim. *)
  Lemma srel_victim s a : srel s a ->
    slru_to_evict_from (sl_q s) (sl_nb s) = Ok (victim (ss_segs a)).
  Proof.
    intros H. rewrite (sr_q s a H), (sr_nb s a H).
    assert (A := sr_ok s a H). induction (ss_segs a) as [|l segs IH]; [done|].
    cbn [fmap list_fmap slru_to_evict_from victim]. cbn [concat] in A.
    apply Forall_app in A as [A1 A2]. destruct l as [|x l] using rev_ind.
    - cbn. by apply IH.
    - rewrite decide_True.
      + rewrite fmap_app. cbn [fmap list_fmap]. rewrite !last_snoc. done.
      + rewrite total_snoc. apply Forall_app in A1 as [A0 A1].
        assert (0 <= total_bytes l).
        { apply total_nonneg. apply (Forall_impl _ _ _ A0). unfold osz_ok. lia. }
        apply Forall_cons in A1 as [A1 _]. unfold osz_ok in A1. cbn. lia.
  Qed.

  Lemma evict_low_spec segs : Forall (fun l : seg => l = []) segs /\ victim segs = None /\ evict_low segs = segs \/
    exists i l x, segs !! i = Some (l ++ [x]) /\ victim segs = Some x.1 /\
      evict_low segs = <[i := l]> segs /\ forall j, (j < i)%nat -> segs !! j = Some [].
  Proof.
    induction segs as [|l segs IH].
    - left. done.
    - destruct l as [|x l] using rev_ind.
      + destruct IH as [(A & B & C)|(i & l & x & A & B & C & D)].
        * left. cbn. rewrite B, C. split; [by constructor|done].
        * right. exists (S i), l, x. cbn. rewrite B, C. split_and!; try done.
          intros [|j] Hj; [done|]. cbn. apply D. lia.
      + right. clear IHl. exists O, l, x. cbn [victim evict_low].
        rewrite last_snoc. split_and!; try done; [|lia].
        destruct (l ++ [x]) as [|y l'] eqn:E; [by destruct l|]. rewrite <- E.
        rewrite removelast_last. done.
  Qed.

  Lemma srel_evict s a r : srel s a -> concat (ss_segs a) <> [] ->
    exists s', slru_evict s r = Ok s' /\ srel s' (mkSS (evict_low (ss_segs a)) (ss_adm a)).
  Proof.
    intros H Hne. unfold slru_evict, slru_to_evict. rewrite (srel_victim s a H). cbn [rbind].
    destruct (evict_low_spec (ss_segs a)) as [(A & _)|(i & l & x & A & B & C & _)].
    { exfalso. apply Hne. clear -A. induction A as [|l segs -> A IH]; done. }
    rewrite B, C. assert (Hx : inseg (ss_segs a) i x).
    { exists (l ++ [x]). split; [done|]. apply elem_of_app. right. left. }
    assert (Hx' := Hx). destruct x as [id sz]. cbn [fst].
    apply (sr_tbl s a H) in Hx' as (o & Ho & Hsz & Hp). rewrite Ho, Hp, Nat2Z.id.
    destruct (srel_q s a i _ H A) as [-> _]. cbn [rbind sl_count sl_set_q sl_set_c sl_c].
    unfold cache_evict_base, cache_remove_obj_base. rewrite Ho. cbn [rbind].
    eexists. split; [reflexivity|].
    assert (P : concat (ss_segs a) ≡ₚ (id, sz) :: concat (<[i := l]> (ss_segs a))).
    { assert (P := concat_pop (ss_segs a) i l [(id, sz)] []). rewrite !app_nil_r in P. exact (P A). }
    assert (Hnd := sr_nd s a H). assert (Hok := sr_ok s a H). assert (Hmd := sr_md s a H).
    assert (Hl := lookup_lt_Some _ _ _ A).
    assert (Hok1 := Hok). rewrite P in Hok1. apply Forall_cons in Hok1 as [Hox Hok1].
    assert (Hq : q_del id (l ++ [(id, sz)]).*1 = l.*1).
    { assert (Q := q_del_mid l [] (id, sz)). rewrite app_nil_r in Q. apply Q.
      by eapply nodup_seg. }
    split; cbn [ss_segs ss_adm sl_c sl_q sl_nb sl_no sl_max sl_set_c sl_set_q sl_count c_occ c_nobj c_md
                c_size c_adm c_tbl]; try apply H.
    - rewrite insert_length. apply H.
    - rewrite Hq, (sr_q s a H), list_fmap_insert. done.
    - rewrite (sr_nb s a H). apply (alter_insert _ _ _ _ _ _ A). rewrite total_snoc, Hmd. cbn. lia.
    - rewrite (sr_no s a H). apply (alter_insert _ _ _ _ _ _ A). rewrite app_length. cbn. lia.
    - rewrite P in Hnd. cbn in Hnd. apply NoDup_cons in Hnd. tauto.
    - intros id' sz' j. assert (Q := inseg_pop (ss_segs a) i l (id, sz) [] j (id', sz') Hnd A).
      rewrite app_nil_r in Q. rewrite Q, (sr_tbl s a H). cbn [fst].
      destruct (decide (id' = id)) as [->|Hd].
      + rewrite lookup_delete. split; [tauto|]. by intros (? & ? & _).
      + rewrite lookup_delete_ne by done. tauto.
    - intros id' o' E. apply lookup_delete_Some in E as [_ E]. by apply (sr_p1 s a H) in E.
    - rewrite (sr_occ s a H), Hmd. unfold held. rewrite (total_perm _ _ P), total_cons. cbn [snd].
      unfold osz_ok in Hox. cbn in Hox. unfold u32. rewrite Z.mod_small; lia.
    - rewrite (sr_nobj s a H), P. cbn. lia.
    - done.
  Qed.

  (** ** Overflow, one object at a time *)

  Context (Hms : Forall (fun m => 0 <= m) ms).

  Lemma ms_nonneg k : 0 <= ms !!! k.
  Proof.
    destruct (ms !! k) as [m|] eqn:E.
    - rewrite (list_lookup_total_correct _ _ _ E). rewrite Forall_lookup in Hms. by apply (Hms k).
    - rewrite list_lookup_total_alt, E. cbn. lia.
  Qed.

  Definition below (k : nat) (L : seg) (x : Z * Z) (segs : list seg) : list seg :=
    match k with
    | O => <[O := L]> segs
    | S j => settle ms j (<[j := x :: segs !!! j]> (<[k := L]> segs))
    end.

  Lemma below_at k L x segs : (k < length segs)%nat -> below k L x segs !!! k = L.
  Proof.
    intros Hk. destruct k; cbn.
    - by rewrite list_lookup_total_insert.
    - rewrite settle_above by lia. rewrite list_lookup_total_insert_ne by lia.
      by rewrite list_lookup_total_insert.
  Qed.

  Lemma below_length k L x segs : length (below k L x segs) = length segs.
  Proof. destruct k; cbn; rewrite ?settle_length, ?insert_length; done. Qed.

  Lemma settle_step k L x segs : segs !! k = Some (L ++ [x]) -> Forall nonneg segs ->
    total_bytes (L ++ [x]) > ms !!! k ->
    settle ms k (below k L x segs) = settle ms k segs.
  Proof.
    intros Hk Hn Hm. assert (Hlt := lookup_lt_Some _ _ _ Hk).
    assert (Hl : nonneg (L ++ [x])) by (rewrite Forall_lookup in Hn; by apply (Hn k)).
    assert (F := fit_snoc _ _ _ (ms_nonneg k) Hl Hm).
    assert (A := fit_app (ms !!! k) L).
    rewrite (settle_eq _ _ segs), (list_lookup_total_correct _ _ _ Hk), F. cbn [fst snd].
    apply Forall_app in Hl as [Hl Hx].
    rewrite settle_eq, below_at by done. destruct k as [|k]; cbn [below].
    - destruct (fit (ms !!! 0%nat) L) as [K [|y o]]; cbn in *.
      + rewrite app_nil_r in A. by subst.
      + by rewrite list_insert_insert.
    - destruct (fit (ms !!! S k) L) as [K [|y o]]; cbn [fst snd app] in *.
      + rewrite app_nil_r in A. by subst.
      + set (b := x :: segs !!! k).
        assert (Hb : (settle ms k (<[k:=b]> (<[S k:=L]> segs))) !!! k = (fit (ms !!! k) b).1).
        { rewrite settle_at by (rewrite !insert_length; lia).
          by rewrite list_lookup_total_insert by (rewrite insert_length; lia). }
        rewrite Hb. rewrite <- settle_insert_above by lia.
        rewrite (list_insert_commute _ (S k) k) by lia. rewrite list_insert_insert.
        change (y :: o ++ (fit (ms !!! k) b).1) with ((y :: o) ++ (fit (ms !!! k) b).1).
        change (y :: (o ++ [x]) ++ segs !!! k) with ((y :: o ++ [x]) ++ segs !!! k).
        assert (HKo : nonneg K /\ nonneg (y :: o)).
        { unfold nonneg in *. rewrite <- A in Hl. by apply Forall_app in Hl. }
        rewrite settle_push.
        * unfold b. cbn [app]. rewrite <- app_assoc. done.
        * rewrite insert_length. lia.
        * tauto.
        * unfold b. apply Forall_cons. split; [by apply Forall_cons in Hx as [? _]|].
          destruct (lookup_lt_is_Some_2 segs k ltac:(lia)) as [l El].
          rewrite (list_lookup_total_correct _ _ _ El). rewrite Forall_lookup in Hn. by apply (Hn k).
        * apply Forall_insert; tauto.
  Qed.

  Lemma settle_sub k segs : (k < length segs)%nat ->
    exists out, concat segs ≡ₚ out ++ concat (settle ms k segs).
  Proof.
    revert segs. induction k as [|k IH]; intros segs Hk; rewrite settle_eq;
      assert (A := fit_app (ms !!! 0%nat) (segs !!! 0%nat)).
    - destruct (lookup_lt_is_Some_2 segs 0%nat Hk) as [l El].
      rewrite (list_lookup_total_correct _ _ _ El) in *.
      destruct (fit (ms !!! 0%nat) l) as [K [|y o]]; cbn [fst snd] in *; [by exists []|].
      exists (y :: o). assert (P := concat_pop segs 0 K (y :: o) []). rewrite !app_nil_r in P.
      apply P. by rewrite A.
    - clear A. assert (A := fit_app (ms !!! S k) (segs !!! S k)).
      destruct (lookup_lt_is_Some_2 segs (S k) Hk) as [l El].
      destruct (lookup_lt_is_Some_2 segs k ltac:(lia)) as [M EM].
      rewrite (list_lookup_total_correct _ _ _ El) in *.
      rewrite (list_lookup_total_correct _ _ _ EM).
      destruct (fit (ms !!! S k) l) as [K [|y o]]; cbn [fst snd] in *; [by exists []|].
      destruct (IH (<[k:=(y :: o) ++ M]> (<[S k:=K]> segs))) as [out P];
        [rewrite !insert_length; lia|].
      exists out. rewrite <- P. rewrite concat_push.
      + assert (Q := concat_pop segs (S k) K (y :: o) []). rewrite !app_nil_r in Q.
        apply Q. by rewrite A.
      + by rewrite list_lookup_insert_ne by lia.
  Qed.

  Lemma settle_count k segs : (k < length segs)%nat ->
    (length (concat (settle ms k segs)) <= length (concat segs))%nat.
  Proof. intros Hk. destruct (settle_sub k segs Hk) as [out ->]. rewrite app_length. lia. Qed.

  Lemma below_count k L x segs : segs !! k = Some (L ++ [x]) ->
    (length (concat (below k L x segs)) <= length (concat segs))%nat.
  Proof.
    intros Hk. assert (P := concat_pop segs k L [x] [] Hk). rewrite app_nil_r in P.
    assert (Hlt := lookup_lt_Some _ _ _ Hk). rewrite P. destruct k as [|k]; cbn [below].
    - rewrite app_length. lia.
    - etransitivity; [apply settle_count; rewrite !insert_length; lia|].
      destruct (lookup_lt_is_Some_2 segs k ltac:(lia)) as [M EM].
      rewrite (list_lookup_total_correct _ _ _ EM).
      change (x :: M) with ([x] ++ M). rewrite concat_push; [lia|].
      by rewrite list_lookup_insert_ne by lia.
  Qed.

  Section Loops.
    Context (r : req) (fuel : nat).

    Definition cool_ok (k : nat) : Prop := forall s a L x,
      srel s a -> ss_segs a !! k = Some (L ++ [x]) -> (length (concat (ss_segs a)) <= fuel)%nat ->
      total_bytes (L ++ [x]) > ms !!! k ->
      exists s', slru_cool fuel r k s = Ok s' /\ srel s' (mkSS (below k L x (ss_segs a)) (ss_adm a)).

    Lemma srel_over s a k : srel s a -> (k < length ms)%nat ->
      seg_over k s = Ok (bool_decide (total_bytes (ss_segs a !!! k) > ms !!! k)).
    Proof.
      intros H Hk. destruct (lookup_lt_is_Some_2 ms k Hk) as [m Em].
      destruct (lookup_lt_is_Some_2 (ss_segs a) k) as [l El]; [by rewrite (sr_len s a H)|].
      unfold seg_over. destruct (srel_q s a k l H El) as [_ ->]. cbn [rbind].
      unfold at_. rewrite (sr_max s a H), Em. cbn [rbind].
      by rewrite (list_lookup_total_correct _ _ _ El), (list_lookup_total_correct _ _ _ Em).
    Qed.

    Lemma loop_of_cool k : cool_ok k -> forall n s a fw,
      srel s a -> (k < length ms)%nat -> (length (concat (ss_segs a)) <= fuel)%nat ->
      length (fit (ms !!! k) (ss_segs a !!! k)).2 = n -> (n <= fw)%nat ->
      exists s', while_ fw (seg_over k) (slru_cool fuel r k) s = Ok s' /\
                 srel s' (mkSS (settle ms k (ss_segs a)) (ss_adm a)).
    Proof.
      intros HC. induction n as [|n IH]; intros s a fw H Hk Hf En Hw;
        destruct (lookup_lt_is_Some_2 (ss_segs a) k) as [l El]; try (by rewrite (sr_len s a H));
        assert (Hn : nonneg l) by
          (assert (B := srel_nonneg s a H); rewrite Forall_lookup in B; by apply (B k));
        assert (El' := list_lookup_total_correct _ _ _ El); rewrite El' in En;
        assert (A := fit_app (ms !!! k) l); assert (B := fit_le (ms !!! k) l (ms_nonneg k));
        assert (EO := srel_over s a k H Hk).
      - destruct (fit (ms !!! k) l) as [K o] eqn:E. cbn in *. destruct o; [|done].
        rewrite app_nil_r in A. subst K. exists s. split.
        + destruct fw; cbn [while_]; rewrite EO; cbn [rbind];
            rewrite bool_decide_eq_false_2; try done; rewrite El'; lia.
        + rewrite settle_eq, El', E. cbn. by destruct a.
      - assert (Hover : total_bytes l > ms !!! k).
        { destruct (decide (total_bytes l <= ms !!! k)) as [Hle|]; [|lia].
          rewrite (fit_all _ _ Hn Hle) in En. done. }
        destruct l as [|x L] using rev_ind.
        { done. }
        clear IHL. destruct (HC s a L x H El Hf Hover) as (s1 & Ec & H1).
        destruct fw as [|fw]; [lia|]. cbn [while_]. rewrite EO. cbn [rbind].
        rewrite bool_decide_eq_true_2 by (rewrite El'; lia). rewrite Ec. cbn [rbind].
        assert (Hlt := lookup_lt_Some _ _ _ El).
        destruct (IH s1 (mkSS (below k L x (ss_segs a)) (ss_adm a)) fw H1 Hk) as (s2 & E2 & H2).
        + cbn. etransitivity; [by apply below_count|done].
        + cbn. rewrite below_at by done. rewrite fit_snoc in En by (try done; apply ms_nonneg).
          cbn in En. rewrite app_length in En. cbn in En. lia.
        + lia.
        + exists s2. split; [exact E2|]. cbn in H2. rewrite settle_step in H2; try done.
          by apply (srel_nonneg s).
    Qed.

    Lemma all_cool_ok k : (k < length ms)%nat -> cool_ok k.
    Proof.
      induction k as [|k IH]; intros Hk s a L x H El Hf Hover.
      - cbn [slru_cool below]. destruct (srel_evict s a r H) as (s' & E & H').
        { intros E. apply (f_equal length) in E. assert (P := concat_pop _ _ L [x] [] El).
          rewrite P in E. by rewrite app_length in E. }
        exists s'. split; [exact E|].
        replace (<[0%nat:=L]> (ss_segs a)) with (evict_low (ss_segs a)); [exact H'|].
        destruct (ss_segs a) as [|l0 segs]; [done|]. cbn in El. injection El as ->. cbn.
        destruct (L ++ [x]) as [|y l'] eqn:E2; [by destruct L|]. rewrite <- E2.
        by rewrite removelast_last.
      - cbn [slru_cool below]. destruct (srel_q s a _ _ H El) as [-> _]. cbn [rbind].
        rewrite fmap_app. cbn [fmap list_fmap]. rewrite last_snoc.
        assert (Hx : inseg (ss_segs a) (S k) x).
        { exists (L ++ [x]). split; [done|]. apply elem_of_app. right. left. }
        assert (Hx' := Hx). destruct x as [id sz]. cbn [fst].
        apply (sr_tbl s a H) in Hx' as (o & Ho & Hsz & Hp). rewrite Ho.
        assert (Hlt := lookup_lt_Some _ _ _ El). assert (Hl := sr_len s a H).
        destruct (lookup_lt_is_Some_2 (ss_segs a) k ltac:(lia)) as [M EM].
        assert (Hq : q_del id (L.*1 ++ [id]) = L.*1).
        { assert (Q := q_del_mid L [] (id, sz)). rewrite app_nil_r, fmap_app in Q. apply Q.
          rewrite <- (fmap_app fst L [(id, sz)]). eapply nodup_seg; [apply H|exact El]. }
        rewrite Hq. unfold at_ at 1. cbn [sl_set_q sl_q].
        rewrite list_lookup_insert_ne by lia. rewrite (sr_q s a H), list_lookup_fmap, EM.
        cbn [fmap option_fmap option_map rbind]. rewrite (list_lookup_total_correct _ _ _ EM).
        set (segs2 := <[k:=(id, sz) :: M]> (<[S k:=L]> (ss_segs a))).
        match goal with |- exists s', while_ _ _ _ ?s1 = _ /\ _ =>
          assert (H1 : srel s1 (mkSS segs2 (ss_adm a))) end.
        { refine (srel_move s a (S k) k L (id, sz) [] M (fun o => o_set_p1 o (Z.of_nat k)) o _
                    (<[S k:=L]> (ss_segs a)) segs2 H El _ _ eq_refl Ho Hsz eq_refl _ _ _ _ _).
          - by rewrite app_nil_r.
          - by rewrite list_lookup_insert_ne by lia.
          - done.
          - cbn. unfold segs2. rewrite !list_fmap_insert, <- (sr_q s a H). done.
          - cbn. rewrite (sr_nb s a H).
            rewrite (alter_insert total_bytes _ _ _ _ L El); [|rewrite total_snoc; cbn; lia].
            apply (alter_insert _ _ _ _ M); [by rewrite list_lookup_insert_ne by lia|].
            rewrite total_cons. cbn. lia.
          - cbn. rewrite (sr_no s a H).
            rewrite (alter_insert _ _ _ _ _ L El); [|rewrite app_length; cbn; lia].
            apply (alter_insert _ _ _ _ M); [by rewrite list_lookup_insert_ne by lia|].
            cbn [length]. lia.
          - done. }
        assert (Hc2 : length (concat segs2) = length (concat (ss_segs a))).
        { unfold segs2. assert (P := concat_pop _ _ L [(id, sz)] [] El). rewrite app_nil_r in P.
          rewrite P. change ((id, sz) :: M) with ([(id, sz)] ++ M). rewrite concat_push; [done|].
          by rewrite list_lookup_insert_ne by lia. }
        destruct (loop_of_cool k (IH ltac:(lia)) (length (fit (ms !!! k) (segs2 !!! k)).2) _ _ fuel H1
                    ltac:(lia))
          as (s2 & E2 & H2).
        + cbn [ss_segs]. lia.
        + done.
        + transitivity (length (segs2 !!! k)).
          * assert (A := f_equal length (fit_app (ms !!! k) (segs2 !!! k))).
            rewrite app_length in A. lia.
          * destruct (lookup_lt_is_Some_2 segs2 k) as [l2 E2];
              [unfold segs2; rewrite !insert_length; lia|].
            rewrite (list_lookup_total_correct _ _ _ E2).
            assert (P := concat_pop segs2 k [] l2 []). rewrite !app_nil_r in P.
            apply P in E2. rewrite E2 in Hc2. rewrite app_length in Hc2. lia.
        + exists s2. split; [exact E2|exact H2].
    Qed.
  End Loops.

  (** ** Lookup *)

  Lemma locate_inseg segs id i sz : locate id segs = Some (i, sz) -> inseg segs i (id, sz).
  Proof.
    revert i. induction segs as [|l segs IH]; intros i; cbn; [done|].
    destruct (list_find (fun x => x.1 = id) l) as [[n x]|] eqn:E.
    - intros [= <- <-]. apply list_find_Some in E as (E & Ex & _). exists l. split; [done|].
      destruct x as [x1 x2]. cbn in *. subst. by eapply elem_of_list_lookup_2.
    - destruct (locate id segs) as [[i' sz']|]; cbn; [|done]. intros [= <- <-].
      destruct (IH i' eq_refl) as (l' & Hl & Hy). by exists l'.
  Qed.

  Lemma locate_None segs id : locate id segs = None -> id ∉ (concat segs).*1.
  Proof.
    induction segs as [|l segs IH]; cbn; [intros _; apply not_elem_of_nil|].
    destruct (list_find (fun x => x.1 = id) l) as [[n x]|] eqn:E; [done|].
    destruct (locate id segs) as [[i' sz']|]; cbn; [done|]. intros _.
    rewrite fmap_app, not_elem_of_app. split; [|by apply IH].
    apply list_find_None in E. rewrite Forall_forall in E. intros Hin.
    apply elem_of_list_fmap in Hin as (y & -> & Hy). by apply (E y).
  Qed.

  Lemma srel_locate s a id : srel s a ->
    locate id (ss_segs a) =
    match c_tbl (sl_c s) !! id with
    | Some o => Some (Z.to_nat (o_p1 o), o_size o)
    | None => None
    end.
  Proof.
    intros H. destruct (locate id (ss_segs a)) as [[i sz]|] eqn:E.
    - apply locate_inseg in E. apply (sr_tbl s a H) in E as (o & -> & <- & ->).
      by rewrite Nat2Z.id.
    - apply locate_None in E. destruct (c_tbl (sl_c s) !! id) as [o|] eqn:Eo; [|done].
      exfalso. apply E. apply (srel_find s a id o H) in Eo. apply inseg_concat in Eo.
      by apply (elem_of_list_fmap_1 fst) in Eo.
  Qed.

  Lemma without_mid (l1 l2 : seg) x : NoDup (l1 ++ x :: l2).*1 ->
    without x.1 (l1 ++ x :: l2) = l1 ++ l2.
  Proof.
    rewrite !fmap_app, fmap_cons. intros H. apply NoDup_app in H as (H1 & H2 & H3).
    apply NoDup_cons in H3 as [H3 H4]. unfold without. rewrite filter_app, filter_cons.
    rewrite decide_False by (intros E; by apply E).
    assert (F : forall l : seg, x.1 ∉ l.*1 -> filter (fun y => y.1 <> x.1) l = l).
    { induction l as [|y l IH]; [done|]. rewrite fmap_cons, not_elem_of_cons. intros [N1 N2].
      rewrite filter_cons, decide_True by done. by rewrite IH. }
    rewrite !F; [done|done|]. intros E. apply (H2 x.1 E). left.
  Qed.

  Lemma c_upd_same c id : c_upd c id (fun o => o) = c.
  Proof.
    destruct c. unfold c_upd, c_set_tbl. cbn. f_equal. apply map_eq. intros i.
    destruct (decide (i = id)) as [->|Hd]; [|by rewrite lookup_alter_ne].
    rewrite lookup_alter. by destruct (_ !! id).
  Qed.

  (** ** A hit *)

  Lemma settle_head k : forall segs x M, (k < length segs)%nat -> segs !!! k = x :: M ->
    x.2 <= ms !!! O ->
    exists i M', (i < length segs)%nat /\ settle ms k segs !!! i = x :: M' /\
      total_bytes (settle ms k segs !!! i) <= ms !!! i.
  Proof.
    induction k as [|k IH]; intros segs x M Hk Ek Hx;
      assert (A := settle_at ms _ segs Hk).
    - exists O. assert (B := fit_le (ms !!! O) (segs !!! O) (ms_nonneg O)).
      rewrite A. rewrite Ek in *. cbn [fit]. rewrite decide_True by done. cbn [fst].
      eexists. split; [lia|]. split; [done|]. cbn [fit] in B. by rewrite decide_True in B by done.
    - destruct (decide (x.2 <= ms !!! S k)) as [Hle|Hgt].
      + exists (S k). assert (B := fit_le (ms !!! S k) (segs !!! S k) (ms_nonneg (S k))).
        rewrite A. rewrite Ek in *. cbn [fit] in *. rewrite decide_True in * by done. cbn [fst] in *.
        eexists. split; [lia|]. split; done.
      + rewrite settle_eq, Ek. cbn [fit]. rewrite decide_False by done. cbn [fst snd].
        destruct (IH (<[k:=(x :: M) ++ segs !!! k]> (<[S k:=[]]> segs)) x (M ++ segs !!! k))
          as (i & M' & Hi & E1 & E2).
        * rewrite !insert_length. lia.
        * rewrite list_lookup_total_insert by (rewrite insert_length; lia). done.
        * done.
        * exists i, M'. rewrite !insert_length in Hi. done.
  Qed.

  Lemma srel_seg_of s a k x M : srel s a -> (k < length (ss_segs a))%nat ->
    ss_segs a !!! k = x :: M -> seg_of x.1 s = Ok k.
  Proof.
    intros H Hk Ek. assert (Hx : inseg (ss_segs a) k (x.1, x.2)).
    { exists (ss_segs a !!! k). split; [by apply list_lookup_lookup_total_lt|].
      rewrite Ek. destruct x. left. }
    apply (sr_tbl s a H) in Hx as (o & Ho & _ & Hp). unfold seg_of. rewrite Ho, Hp.
    by rewrite Nat2Z.id.
  Qed.

  Lemma find_loop r fuel k x : forall n s a fw M,
    srel s a -> (k < length ms)%nat -> ss_segs a !!! k = x :: M ->
    (length (concat (ss_segs a)) <= fuel)%nat ->
    length (fit (ms !!! k) (ss_segs a !!! k)).2 = n -> (n <= fw)%nat ->
    exists s', while_ fw (fun s => let! i := seg_of x.1 s in seg_over i s)
                 (fun s => let! i := seg_of x.1 s in slru_cool fuel r i s) s = Ok s' /\
               srel s' (mkSS (settle ms k (ss_segs a)) (ss_adm a)).
  Proof.
    induction n as [|n IH]; intros s a fw M H Hk Ek Hf En Hw;
      assert (Hlen := sr_len s a H);
      assert (El : ss_segs a !! k = Some (x :: M)) by
        (rewrite <- Ek; apply list_lookup_lookup_total_lt; lia);
      assert (ES := srel_seg_of s a k x M H ltac:(lia) Ek);
      assert (Hn : nonneg (x :: M)) by
        (assert (B := srel_nonneg s a H); rewrite Forall_lookup in B; by apply (B k));
      rewrite Ek in En;
      assert (A := fit_app (ms !!! k) (x :: M));
      assert (B := fit_le (ms !!! k) (x :: M) (ms_nonneg k));
      assert (EO := srel_over s a k H Hk).
    - destruct (fit (ms !!! k) (x :: M)) as [K o] eqn:E. cbn in A, B, En. destruct o; [|done].
      rewrite app_nil_r in A. subst K. exists s. split.
      + destruct fw; cbn [while_]; rewrite ES; cbn [rbind]; rewrite EO; cbn [rbind];
          rewrite bool_decide_eq_false_2; try done; rewrite Ek; lia.
      + rewrite settle_eq, Ek, E. cbn. by destruct a.
    - assert (Hover : total_bytes (x :: M) > ms !!! k).
      { destruct (decide (total_bytes (x :: M) <= ms !!! k)) as [Hle|]; [|lia].
        rewrite (fit_all _ _ Hn Hle) in En. done. }
      assert (exists L y, x :: M = L ++ [y]) as (L & y & Exy).
      { destruct (exists_last (l := x :: M)) as (L & y & E); [done|]. by exists L, y. }
      rewrite Exy in *. destruct (all_cool_ok r fuel k Hk s a L y H El Hf Hover) as (s1 & Ec & H1).
      destruct fw as [|fw]; [lia|]. cbn [while_]. rewrite ES. cbn [rbind]. rewrite EO. cbn [rbind].
      rewrite bool_decide_eq_true_2 by (rewrite Ek; lia). rewrite Ec. cbn [rbind].
      assert (Hlt := lookup_lt_Some _ _ _ El).
      assert (HS := settle_step k L y (ss_segs a) El (srel_nonneg s a H) Hover).
      destruct L as [|x' L].
      + (* the object itself has moved down *)
        cbn in Exy. injection Exy as <- ->.
        assert (Hx0 : x.2 <= ms !!! O).
        { assert (Q := sr_ok s a H). rewrite Forall_forall in Q.
          assert (osz_ok x) as (_ & ? & _); [|done]. apply Q. eapply inseg_concat.
          exists [x]. split; [done|left]. }
        assert (total_bytes [x] = x.2) as Ht by (unfold total_bytes; cbn; lia).
        destruct k as [|k]; [cbn in Hover; lia|].
        exists s1. split; [|rewrite <- HS; rewrite (settle_eq _ _ (below _ _ _ _)), below_at by done; exact H1].
        cbn [below] in H1.
        destruct (settle_head k (<[k:=x :: ss_segs a !!! k]> (<[S k:=[]]> (ss_segs a))) x
                    (ss_segs a !!! k)) as (i & M' & Hi & E1 & E2).
        { rewrite !insert_length. lia. }
        { by rewrite list_lookup_total_insert by (rewrite insert_length; lia). }
        { done. }
        rewrite !insert_length in Hi.
        assert (ES1 := srel_seg_of s1 _ i x M' H1). cbn [ss_segs] in ES1.
        rewrite settle_length, !insert_length in ES1. specialize (ES1 Hi E1).
        assert (EO1 := srel_over s1 _ i H1 ltac:(lia)). cbn [ss_segs] in EO1.
        destruct fw; cbn [while_]; rewrite ES1; cbn [rbind]; rewrite EO1; cbn [rbind];
          rewrite bool_decide_eq_false_2; try done; lia.
      + cbn in Exy. injection Exy as <- EM.
        destruct (IH s1 (mkSS (below k (x :: L) y (ss_segs a)) (ss_adm a)) fw L H1 Hk) as (s2 & E2 & H2).
        * cbn [ss_segs]. by rewrite below_at.
        * cbn [ss_segs]. etransitivity; [by apply below_count|done].
        * cbn [ss_segs]. rewrite below_at by done.
          rewrite fit_snoc in En by (try done; apply ms_nonneg).
          cbn [snd] in En. rewrite app_length in En. cbn in En. cbn. lia.
        * lia.
        * exists s2. split; [exact E2|]. cbn [ss_segs ss_adm] in H2. by rewrite HS in H2.
  Qed.

  Lemma srel_hit s a r o : srel s a -> c_tbl (sl_c s) !! r_id r = Some o ->
    exists s', slru_find s r true = Ok (s', true) /\
      srel s' (mkSS (spec_hit ms (ss_segs a) (r_id r) (Z.to_nat (o_p1 o)) (o_size o)) (ss_adm a)).
  Proof.
    intros H Ho. unfold slru_find. rewrite Ho. assert (Hin := srel_find s a _ _ H Ho).
    assert (Hp := sr_p1 s a H _ _ Ho). set (i := Z.to_nat (o_p1 o)) in *. set (id := r_id r) in *.
    destruct Hin as (l & El & Hl). assert (Hlt := lookup_lt_Some _ _ _ El).
    assert (Hlen := sr_len s a H).
    apply elem_of_list_split in Hl as (l1 & l2 & ->).
    assert (Hnd := nodup_seg _ _ _ (sr_nd s a H) El).
    assert (Ew := without_mid l1 l2 (id, o_size o) Hnd). cbn [fst] in Ew.
    assert (Eqd := q_del_mid l1 l2 (id, o_size o) Hnd). cbn [fst] in Eqd.
    unfold spec_hit. rewrite (list_lookup_total_correct _ _ _ El), Ew.
    rewrite (sr_max s a H). destruct (srel_q s a i _ H El) as [Eat _].
    destruct (decide (o_p1 o = Z.of_nat (length ms) - 1)) as [Ht|Ht].
    - rewrite decide_True by lia. rewrite Eat. cbn [rbind]. eexists. split; [reflexivity|].
      refine (srel_move s a i i l1 (id, o_size o) l2 (l1 ++ l2) (fun o => o) o _
                (<[i:=l1 ++ l2]> (ss_segs a)) _ H El eq_refl _ _ Ho eq_refl _ _ _ _ _ _).
      + by rewrite list_lookup_insert.
      + by rewrite list_insert_insert.
      + lia.
      + by rewrite c_upd_same.
      + cbn. unfold q_to_head. rewrite list_fmap_insert, Eqd, (sr_q s a H). done.
      + cbn. rewrite (sr_nb s a H). symmetry. rewrite list_fmap_insert.
        apply list_insert_id. rewrite list_lookup_fmap, El. cbn. f_equal.
        apply total_perm. symmetry. by rewrite Permutation_middle.
      + cbn. rewrite (sr_no s a H). symmetry. rewrite list_fmap_insert.
        apply list_insert_id. rewrite list_lookup_fmap, El. cbn. f_equal.
        rewrite !app_length. cbn. lia.
      + done.
    - rewrite decide_False by lia. unfold slru_promote. fold i. rewrite Eat. cbn [rbind].
      rewrite Eqd. assert (HSi : (S i < length ms)%nat) by lia.
      destruct (lookup_lt_is_Some_2 (ss_segs a) (S i) ltac:(lia)) as [M EM].
      rewrite (list_lookup_total_correct _ _ _ EM).
      unfold at_. cbn [sl_q sl_set_c sl_count sl_set_q]. rewrite list_lookup_insert_ne by lia.
      rewrite (sr_q s a H), list_lookup_fmap, EM. cbn [fmap option_fmap option_map rbind].
      set (segs2 := <[S i:=(id, o_size o) :: M]> (<[i:=l1 ++ l2]> (ss_segs a))).
      match goal with |- context [sl_fuel ?s1] =>
        assert (H1 : srel s1 (mkSS segs2 (ss_adm a))) end.
      { refine (srel_move s a i (S i) l1 (id, o_size o) l2 M (fun o => o_set_p1 o (o_p1 o + 1)) o _
                  (<[i:=l1 ++ l2]> (ss_segs a)) segs2 H El eq_refl _ eq_refl Ho eq_refl _ _ _ _ _ _).
        - by rewrite list_lookup_insert_ne by lia.
        - cbn. lia.
        - done.
        - cbn. unfold segs2. rewrite !list_fmap_insert, <- (sr_q s a H). done.
        - cbn. rewrite (sr_nb s a H), (sr_md s a H).
          rewrite (alter_insert total_bytes _ _ _ _ (l1 ++ l2) El);
            [|rewrite !total_app, total_cons; cbn; lia].
          apply (alter_insert _ _ _ _ M); [by rewrite list_lookup_insert_ne by lia|].
          rewrite total_cons. cbn. lia.
        - cbn. rewrite (sr_no s a H).
          rewrite (alter_insert _ _ _ _ _ (l1 ++ l2) El); [|rewrite !app_length; cbn; lia].
          apply (alter_insert _ _ _ _ M); [by rewrite list_lookup_insert_ne by lia|].
          cbn [length]. lia.
        - done. }
      match goal with |- context [sl_fuel ?s1] => set (s1' := s1) in * end.
      destruct (find_loop r (sl_fuel s1') (S i) (id, o_size o)
                  (length (fit (ms !!! S i) (segs2 !!! S i)).2) s1' _ (sl_fuel s1') M H1 HSi)
        as (s2 & E2 & H2).
      + cbn [ss_segs]. unfold segs2.
        by rewrite list_lookup_total_insert by (rewrite insert_length; lia).
      + unfold sl_fuel. rewrite (sr_nobj _ _ H1). cbn [ss_segs]. lia.
      + done.
      + unfold sl_fuel. rewrite (sr_nobj _ _ H1). cbn [ss_segs].
        transitivity (length (segs2 !!! S i)).
        * assert (A := f_equal length (fit_app (ms !!! S i) (segs2 !!! S i))).
          rewrite app_length in A. lia.
        * destruct (lookup_lt_is_Some_2 segs2 (S i)) as [l3 E3];
            [unfold segs2; rewrite !insert_length; lia|].
          rewrite (list_lookup_total_correct _ _ _ E3).
          assert (P := concat_pop segs2 (S i) [] l3 []). rewrite !app_nil_r in P.
          apply P in E3. rewrite E3, app_length. lia.
      + cbn [fst] in E2. rewrite E2. cbn [rbind]. exists s2. split; [done|]. exact H2.
  Qed.

  (** ** A miss *)

  Lemma srel_adm s a c adm : srel s a ->
    c_tbl c = c_tbl (sl_c s) -> c_occ c = c_occ (sl_c s) -> c_nobj c = c_nobj (sl_c s) ->
    c_md c = c_md (sl_c s) -> c_size c = c_size (sl_c s) -> c_adm c = adm ->
    srel (sl_set_c s c) (mkSS (ss_segs a) adm).
  Proof.
    intros H E1 E2 E3 E4 E5 E6. split; cbn; try apply H; rewrite ?E1, ?E2, ?E3, ?E4, ?E5; try apply H.
    done.
  Qed.

  Lemma evict_low_count segs : concat segs <> [] ->
    S (length (concat (evict_low segs))) = length (concat segs).
  Proof.
    intros Hne. destruct (evict_low_spec segs) as [(A & _)|(i & l & x & A & B & C & _)].
    { exfalso. apply Hne. clear -A. induction A as [|l segs -> A IH]; done. }
    rewrite C. assert (P := concat_pop segs i l [x] []). rewrite !app_nil_r in P.
    rewrite (P A), app_length. cbn. lia.
  Qed.

  Lemma srel_evict_loop n : forall s a r fuel, srel s a -> r_size r <= cap ->
    length (concat (ss_segs a)) = n -> (n <= fuel)%nat ->
    exists s', evict_loop slru_ops fuel s r = Ok s' /\
      srel s' (mkSS (make_room n cap (r_size r) (ss_segs a)) (ss_adm a)) /\
      held (make_room n cap (r_size r) (ss_segs a)) + r_size r <= cap.
  Proof.
    induction n as [|n IH]; intros s a r fuel H Hr En Hf.
    - cbn [make_room]. assert (held (ss_segs a) = 0) as E0.
      { unfold held. destruct (concat (ss_segs a)); [done|cbn in En; lia]. }
      exists s. split; [|split; [by destruct a|lia]].
      destruct fuel; cbn [evict_loop slru_ops op_occupied op_md op_size];
        rewrite (sr_occ s a H), (sr_md s a H), (sr_cap s a H), decide_False; try done; lia.
    - cbn [make_room]. destruct fuel as [|fuel]; [lia|].
      cbn [evict_loop slru_ops op_occupied op_md op_size].
      rewrite (sr_occ s a H), (sr_md s a H), (sr_cap s a H).
      destruct (decide (held (ss_segs a) + r_size r > cap)) as [Hd|Hd].
      + rewrite decide_True by lia.
        assert (Hne : concat (ss_segs a) <> []) by (intros E; by rewrite E in En).
        destruct (srel_evict s a r H Hne) as (s1 & E1 & H1). change (op_evict slru_ops s r) with (slru_evict s r). rewrite E1. cbn [rbind].
        assert (C := evict_low_count _ Hne).
        destruct (IH s1 _ r fuel H1 Hr) as (s2 & E2 & H2 & Hh); [cbn; lia|lia|].
        exists s2. done.
      + rewrite decide_False by lia. exists s. split; [done|]. split; [by destruct a|lia].
  Qed.

  Lemma first_room_eq segs sz : first_room ((total_bytes : seg -> Z) <$> segs) ms sz = with_room ms segs sz.
  Proof.
    clear Hms. revert ms. induction segs as [|l segs IH]; intros [|m mx]; cbn; try done.
    case_decide; [done|]. by rewrite IH.
  Qed.

  Lemma with_room_lt : forall segs sz i mx, with_room mx segs sz = Some i ->
    (i < length segs)%nat /\ total_bytes (segs !!! i) + sz <= mx !!! i.
  Proof.
    induction segs as [|l segs IH]; intros sz i [|m mx]; cbn; try done.
    case_decide as E; [intros [= <-]; cbn; split; [lia|done]|].
    destruct (with_room mx segs sz) as [j|] eqn:Ej; cbn; [|done]. intros [= <-].
    apply IH in Ej as [? ?]. split; [lia|done].
  Qed.

  Lemma srel_insert s a r : srel s a -> (0 < length ms)%nat -> c_tbl (sl_c s) !! r_id r = None ->
    0 < r_size r < 2 ^ 32 -> r_size r <= ms !!! O -> held (ss_segs a) + r_size r <= cap ->
    exists s', slru_insert s r = Ok s' /\
      srel s' (mkSS (place ms (ss_segs a) (r_id r) (r_size r)) (ss_adm a)).
  Proof.
    intros H Hms0 En Hsz Hsm Hroom. unfold slru_insert, place.
    rewrite (sr_nb s a H), (sr_max s a H), first_room_eq, (sr_md s a H), Z.add_0_r.
    assert (Hlen := sr_len s a H).
    assert (HW : match with_room ms (ss_segs a) (r_size r) with
                 | Some i => Ok (s, i)
                 | None => let! s := while_ (sl_fuel s)
                     (fun s => Ok (bool_decide (c_occ (sl_c s) + r_size r + c_md (sl_c s) > c_size (sl_c s))))
                     (fun s => slru_evict s r) s in Ok (s, 0%nat)
                 end = Ok (s, default 0%nat (with_room ms (ss_segs a) (r_size r)))).
    { destruct (with_room _ _ _); [done|]. unfold sl_fuel. cbn [while_].
      rewrite (sr_occ s a H), (sr_md s a H), (sr_cap s a H).
      rewrite bool_decide_eq_false_2 by lia. done. }
    rewrite HW. cbn [rbind]. set (i := default 0%nat (with_room ms (ss_segs a) (r_size r))).
    assert (Hi : (i < length (ss_segs a))%nat).
    { unfold i. destruct (with_room _ _ _) eqn:E; [by apply with_room_lt in E as [? _]|cbn; lia]. }
    destruct (lookup_lt_is_Some_2 _ _ Hi) as [M EM]. rewrite (list_lookup_total_correct _ _ _ EM).
    unfold cache_insert_base. rewrite En. cbn [rbind].
    unfold at_. cbn [sl_set_c sl_q]. rewrite (sr_q s a H), list_lookup_fmap, EM.
    cbn [fmap option_fmap option_map rbind]. eexists. split; [reflexivity|].
    assert (Hu : u32 (r_size r) = r_size r) by (unfold u32; rewrite Z.mod_small; lia).
    assert (Hnew := srel_none s a _ H En).
    assert (P : concat (<[i:=(r_id r, r_size r) :: M]> (ss_segs a)) ≡ₚ (r_id r, r_size r) :: concat (ss_segs a))
      by (exact (concat_push _ i M [(r_id r, r_size r)] EM)).
    split; cbn [ss_segs ss_adm sl_c sl_q sl_nb sl_no sl_max sl_set_c sl_set_q sl_count c_upd c_set_tbl
                c_occ c_nobj c_md c_size c_adm c_tbl]; try apply H.
    - by rewrite insert_length.
    - rewrite list_fmap_insert, (sr_q s a H). done.
    - rewrite (sr_nb s a H). apply (alter_insert _ _ _ _ _ _ EM). rewrite total_cons. cbn. lia.
    - rewrite (sr_no s a H). apply (alter_insert _ _ _ _ _ _ EM). cbn [length]. lia.
    - rewrite P. cbn. apply NoDup_cons. split; [done|apply H].
    - intros id sz j. rewrite (inseg_push _ _ _ _ _ _ EM), (sr_tbl s a H).
      destruct (decide (id = r_id r)) as [->|Hd].
      + rewrite lookup_alter, lookup_insert. cbn. split.
        * intros [[-> [= ->]]|(o & Ho & _)]; [|congruence]. eexists. split; [done|].
          cbn. by rewrite Hu.
        * intros (o & [= <-] & E1 & E2). cbn in E1, E2. left. split; [lia|]. by rewrite <- E1, Hu.
      + rewrite lookup_alter_ne, lookup_insert_ne by done. split.
        * intros [[_ [= ? _]]|E]; [done|exact E].
        * intros E. by right.
    - intros id o E. apply lookup_alter_Some in E as [(E0 & o1 & E & ->)|[_ E]].
      + cbn. lia.
      + apply lookup_insert_Some in E as [[_ <-]|[_ E]]; [cbn; lia|]. by apply (sr_p1 s a H) in E.
    - rewrite (sr_occ s a H), (sr_md s a H). unfold held. rewrite (total_perm _ _ P), total_cons.
      cbn. rewrite Hu. lia.
    - rewrite (sr_nobj s a H), P. cbn [length]. lia.
    - rewrite P. apply Forall_cons. split; [|apply H]. unfold osz_ok. cbn. lia.
  Qed.
End Rel.
