(** The splay tree keeps its keys in order and its sizes right. *)
From stdpp Require Import sets list numbers sorting.
From Verif Require Import Base ModelSplay.
Open Scope Z_scope.

Ltac anorm := repeat (rewrite <- app_assoc || rewrite <- app_comm_cons || rewrite app_nil_l); try reflexivity.

Fixpoint keys (t : tree) : list Z :=
  match t with Leaf => [] | Node l k _ r => keys l ++ k :: keys r end.

(** every value field is the number of nodes below and including it *)
Fixpoint sized (t : tree) : Prop :=
  match t with
  | Leaf => True
  | Node l k v r => v = Z.of_nat (length (keys l ++ k :: keys r)) /\ sized l /\ sized r
  end.

Lemma nv_sized t : sized t -> nv t = Z.of_nat (length (keys t)).
Proof. destruct t; cbn; [done|]. by intros [-> _]. Qed.

Definition lkeys (L : list (tree * Z)) : list Z := concat (map (fun '(l, k) => keys l ++ [k]) (rev L)).
Definition rkeys (R : list (tree * Z)) : list Z := concat (map (fun '(r, k) => k :: keys r) R).
Definition fsized (L : list (tree * Z)) : Prop := Forall (fun '(t, _) => sized t) L.

Lemma lkeys_cons l k L : lkeys ((l, k) :: L) = lkeys L ++ keys l ++ [k].
Proof. unfold lkeys. cbn. rewrite map_app, concat_app. cbn. by rewrite app_nil_r. Qed.
Lemma rkeys_cons r k R : rkeys ((r, k) :: R) = (k :: keys r) ++ rkeys R.
Proof. done. Qed.

Lemma build_left_spec bot : sized bot -> forall p ls, fsized p ->
  ls = Z.of_nat (length (concat (map (fun '(l, k) => keys l ++ [k]) p) ++ keys bot)) ->
  keys (build_left p ls bot) = concat (map (fun '(l, k) => keys l ++ [k]) p) ++ keys bot /\
  sized (build_left p ls bot).
Proof.
  intros Hb. induction p as [|[l k] p IH]; intros ls Hp ->; cbn; [done|].
  apply Forall_cons in Hp as [Hl Hp].
  destruct (IH (Z.of_nat (length (concat (map (λ '(l, k), keys l ++ [k]) p) ++ keys bot))) Hp eq_refl) as [IH1 IH2].
  rewrite (nv_sized l Hl).
  match goal with |- context [build_left p ?x bot] =>
    replace x with (Z.of_nat (length (concat (map (λ '(l, k), keys l ++ [k]) p) ++ keys bot))) end.
  - rewrite IH1. split; [by rewrite <- !app_assoc|]. split_and!; [|done|done].
    rewrite <- !app_assoc. done.
  - rewrite !app_length. cbn [length]. lia.
Qed.

Lemma build_right_spec bot : sized bot -> forall p rs, fsized p ->
  rs = Z.of_nat (length (keys bot ++ concat (map (fun '(r, k) => k :: keys r) (rev p)))) ->
  keys (build_right p rs bot) = keys bot ++ concat (map (fun '(r, k) => k :: keys r) (rev p)) /\
  sized (build_right p rs bot).
Proof.
  intros Hb. induction p as [|[r k] p IH]; intros rs Hp ->; cbn; [by rewrite app_nil_r|].
  apply Forall_cons in Hp as [Hr Hp].
  rewrite map_app, concat_app. cbn. rewrite app_nil_r.
  destruct (IH _ Hp eq_refl) as [IH1 IH2].
  rewrite (nv_sized r Hr).
  match goal with |- context [build_right p ?x bot] =>
    replace x with (Z.of_nat (length (keys bot ++ concat (map (λ '(r, k), k :: keys r) (rev p))))) end.
  - rewrite IH1. split; [by rewrite <- !app_assoc|]. split_and!; [|done|done]. by rewrite <- !app_assoc.
  - rewrite !app_length. cbn. lia.
Qed.

Lemma sorted_lt_mid l k r x : StronglySorted Z.lt (l ++ k :: r) ->
  (x ∈ l -> x < k) /\ (x ∈ r -> k < x).
Proof.
  intros H. split; intros Hx.
  - apply (elem_of_StronglySorted_app _ _ _ x k) in H; [done|done|by left].
  - apply StronglySorted_app_inv_r, StronglySorted_inv in H as [_ Hf]. rewrite Forall_forall in Hf. by apply Hf.
Qed.

Lemma sorted_lt_app l r : StronglySorted Z.lt l -> StronglySorted Z.lt r ->
  (forall x y, x ∈ l -> y ∈ r -> x < y) -> StronglySorted Z.lt (l ++ r).
Proof.
  induction 1 as [|x l Hl IH Hf]; intros Hr Hlr; cbn; [done|].
  constructor.
  - apply IH; [done|]. intros a b Ha Hb. apply Hlr; [by right|done].
  - apply Forall_app. split; [done|]. apply Forall_forall. intros y Hy. apply Hlr; [by left|done].
Qed.

Definition below (i : Z) (l : list Z) : Prop := forall x, x ∈ l -> x < i.
Definition above (i : Z) (l : list Z) : Prop := forall x, x ∈ l -> i < x.
Lemma below_app i l l' : below i (l ++ l') <-> below i l /\ below i l'.
Proof. unfold below. setoid_rewrite elem_of_app. naive_solver. Qed.
Lemma above_app i l l' : above i (l ++ l') <-> above i l /\ above i l'.
Proof. unfold above. setoid_rewrite elem_of_app. naive_solver. Qed.
Lemma below_cons i k l : below i (k :: l) <-> k < i /\ below i l.
Proof. unfold below. setoid_rewrite elem_of_cons. naive_solver. Qed.
Lemma above_cons i k l : above i (k :: l) <-> i < k /\ above i l.
Proof. unfold above. setoid_rewrite elem_of_cons. naive_solver. Qed.
Lemma below_nil i : below i []. Proof. intros x Hx. by apply elem_of_nil in Hx. Qed.
Lemma above_nil i : above i []. Proof. intros x Hx. by apply elem_of_nil in Hx. Qed.
Lemma below_weak i j l : i <= j -> below i l -> below j l.
Proof. intros ? H x Hx. specialize (H x Hx). lia. Qed.
Lemma above_weak i j l : j <= i -> above i l -> above j l.
Proof. intros ? H x Hx. specialize (H x Hx). lia. Qed.

Lemma sorted_node l k r : StronglySorted Z.lt (l ++ k :: r) <->
  StronglySorted Z.lt l /\ StronglySorted Z.lt r /\ below k l /\ above k r.
Proof.
  split.
  - intros H. split_and!.
    + by apply StronglySorted_app_inv_l in H.
    + by apply StronglySorted_app_inv_r, StronglySorted_inv in H as [H _].
    + intros x. apply (sorted_lt_mid _ _ _ _ H).
    + intros x. apply (sorted_lt_mid _ _ _ _ H).
  - intros (Hl & Hr & Hb & Ha). apply sorted_lt_app; [done| |].
    + constructor; [done|]. apply Forall_forall. exact Ha.
    + intros x y Hx [->|Hy]%elem_of_cons; [by apply Hb|]. specialize (Hb x Hx). specialize (Ha y Hy). lia.
Qed.

(** what the loop leaves in place *)
Definition loop_post (i : Z) (t : tree) (L R : list (tree * Z)) (ls rs : Z) : Prop :=
  exists tl k tr L' R', splay_loop i t L R ls rs =
      Ok (tl, k, tr, L', R', Z.of_nat (length (lkeys L')), Z.of_nat (length (rkeys R'))) /\
    lkeys L' ++ (keys tl ++ k :: keys tr) ++ rkeys R' = lkeys L ++ keys t ++ rkeys R /\
    sized tl /\ sized tr /\ fsized L' /\ fsized R' /\
    (StronglySorted Z.lt (keys t) -> below i (lkeys L) -> above i (rkeys R) ->
       below i (lkeys L' ++ keys tl) /\ above i (keys tr ++ rkeys R')).

Ltac klen := cbn [keys]; repeat (rewrite app_length || cbn [length]); lia.

Lemma splay_loop_spec i t : forall L R ls rs, t <> Leaf -> sized t -> fsized L -> fsized R ->
  ls = Z.of_nat (length (lkeys L)) -> rs = Z.of_nat (length (rkeys R)) ->
  loop_post i t L R ls rs.
Proof.
  remember (length (keys t)) as n eqn:Hn. revert t Hn.
  induction n as [n IHn] using lt_wf_ind. intros t Hn.
  assert (IH := fun t' (H : (length (keys t') < n)%nat) => IHn _ H t' eq_refl). clear IHn. subst n.
  intros L R ls rs Hne Hs HL HR -> ->. destruct t as [|tl k v tr]; [done|].
  destruct Hs as (_ & Hsl & Hsr). unfold loop_post. cbn [splay_loop].
  destruct (decide (i < k)) as [Hlt|Hge].
  - destruct tl as [|yl yk yv yr].
    + eexists _, _, _, _, _. split; [reflexivity|]. split; [done|]. split_and!; try done.
      intros Hsrt HbL HaR. cbn [keys] in Hsrt |- *. apply sorted_node in Hsrt as (_ & _ & _ & Ha).
      rewrite app_nil_r. split; [done|]. apply above_app. split; [|done]. by apply (above_weak k); [lia|].
    + destruct (decide (i < yk)) as [Hlt2|Hge2].
      * destruct Hsl as (_ & Hsyl & Hsyr).
        set (t' := Node yr k (nv yr + nv tr + 1) tr).
        assert (Ht' : sized t').
        { cbn. split_and!; [|done|done]. rewrite !nv_sized by done. rewrite app_length. cbn. lia. }
        destruct yl as [|a b c d] eqn:Eyl.
        -- eexists _, _, _, _, _. split; [reflexivity|]. split; [done|]. split_and!; try done.
           intros Hsrt HbL HaR. cbn [keys app] in Hsrt.
           apply (sorted_node []) in Hsrt as (_ & _ & _ & Ha).
           cbn [keys]. rewrite app_nil_r. split; [done|]. apply above_app. split; [|done].
           unfold t'. by apply (above_weak yk); [lia|].
        -- rewrite <- Eyl in *.
           destruct (IH yl ltac:(klen) L ((t', yk) :: R) (Z.of_nat (length (lkeys L)))
             (Z.of_nat (length (rkeys R)) + (1 + nv t'))) as (tl' & k' & tr' & L' & R' & Heq & Hk & H1 & H2 & H3 & H4 & H5); auto.
           { by rewrite Eyl. } { by constructor. }
           { rewrite rkeys_cons, (nv_sized t') by done. rewrite app_length. cbn [length]. lia. }
           rewrite Eyl in Heq |- *. rewrite Heq. eexists _, _, _, _, _. split; [reflexivity|].
           rewrite <- Eyl in *. split.
           { rewrite Hk, rkeys_cons. unfold t'. cbn [keys]. by anorm. }
           split_and!; auto. intros Hsrt HbL HaR. cbn [keys] in Hsrt.
           apply sorted_node in Hsrt as (Hy & _ & _ & Ha).
           apply sorted_node in Hy as (Hy & _ & _ & Ha').
           apply H5; [done|done|]. rewrite rkeys_cons. unfold t'. cbn [keys].
           rewrite <- app_comm_cons. apply above_cons. split; [done|]. apply above_app. split; [|done].
           apply above_app. split; [by apply (above_weak yk); [lia|]|].
           apply above_cons. split; [done|]. by apply (above_weak k); [lia|].
      * destruct (IH (Node yl yk yv yr) ltac:(klen) L ((tr, k) :: R) (Z.of_nat (length (lkeys L)))
             (Z.of_nat (length (rkeys R)) + (1 + nv tr))) as (tl' & k' & tr' & L' & R' & Heq & Hk & H1 & H2 & H3 & H4 & H5); auto.
        { by constructor. }
        { rewrite rkeys_cons, (nv_sized tr) by done. rewrite app_length. cbn [length]. lia. }
        rewrite Heq. eexists _, _, _, _, _. split; [reflexivity|]. split.
        { rewrite Hk, rkeys_cons. cbn [keys]. by anorm. }
        split_and!; auto. intros Hsrt HbL HaR.
        apply (sorted_node (keys (Node yl yk yv yr))) in Hsrt as (Hy & _ & _ & Ha).
        apply H5; [done|done|]. rewrite rkeys_cons, <- app_comm_cons. apply above_cons. split; [done|].
        apply above_app. split; [|done]. by apply (above_weak k); [lia|].
  - destruct (decide (k < i)) as [Hgt|Heqk].
    + destruct tr as [|yl yk yv yr].
      * eexists _, _, _, _, _. split; [reflexivity|]. split; [done|]. split_and!; try done.
        intros Hsrt HbL HaR. cbn [keys] in Hsrt |- *. apply sorted_node in Hsrt as (_ & _ & Hb & _).
        rewrite app_nil_l. split; [|done]. apply below_app. split; [done|]. by apply (below_weak k); [lia|].
      * destruct (decide (yk < i)) as [Hgt2|Hle2].
        -- destruct Hsr as (_ & Hsyl & Hsyr).
           set (t' := Node tl k (nv tl + nv yl + 1) yl).
           assert (Ht' : sized t').
           { cbn. split_and!; [|done|done]. rewrite !nv_sized by done. rewrite app_length. cbn. lia. }
           destruct yr as [|a b c d] eqn:Eyr.
           ++ eexists _, _, _, _, _. split; [reflexivity|].
              split. { unfold t'. cbn [keys]. by anorm. }
              split_and!; try done.
              intros Hsrt HbL HaR. cbn [keys] in Hsrt. rewrite app_comm_cons, app_assoc in Hsrt.
              apply sorted_node in Hsrt as (_ & _ & Hb & _).
              cbn [keys]. rewrite app_nil_l. split; [|done]. apply below_app. split; [done|].
              unfold t'. cbn [keys]. by apply (below_weak yk); [lia|].
           ++ rewrite <- Eyr in *.
              destruct (IH yr ltac:(klen) ((t', yk) :: L) R (Z.of_nat (length (lkeys L)) + (1 + nv t'))
                (Z.of_nat (length (rkeys R)))) as (tl' & k' & tr' & L' & R' & Heq & Hk & H1 & H2 & H3 & H4 & H5); auto.
              { by rewrite Eyr. } { by constructor. }
              { rewrite lkeys_cons, (nv_sized t') by done. rewrite !app_length. cbn [length]. lia. }
              rewrite Eyr in Heq |- *. rewrite Heq. eexists _, _, _, _, _. split; [reflexivity|].
              rewrite <- Eyr in *. split.
              { rewrite Hk, lkeys_cons. unfold t'. cbn [keys]. by anorm. }
              split_and!; auto. intros Hsrt HbL HaR. cbn [keys] in Hsrt.
              apply sorted_node in Hsrt as (_ & Hy & Hb & _).
              apply sorted_node in Hy as (_ & Hy & Hb' & _).
              apply H5; [done| |done]. rewrite lkeys_cons. unfold t'. cbn [keys].
              apply below_app. split; [done|]. apply below_app. split.
              ** apply below_app. split; [by apply (below_weak k); [lia|]|].
                 apply below_cons. split; [done|]. by apply (below_weak yk); [lia|].
              ** apply below_cons. split; [done|apply below_nil].
        -- destruct (IH (Node yl yk yv yr) ltac:(klen) ((tl, k) :: L) R (Z.of_nat (length (lkeys L)) + (1 + nv tl))
                (Z.of_nat (length (rkeys R)))) as (tl' & k' & tr' & L' & R' & Heq & Hk & H1 & H2 & H3 & H4 & H5); auto.
           { by constructor. }
           { rewrite lkeys_cons, (nv_sized tl) by done. rewrite !app_length. cbn [length]. lia. }
           rewrite Heq. eexists _, _, _, _, _. split; [reflexivity|]. split.
           { rewrite Hk, lkeys_cons. cbn [keys]. by anorm. }
           split_and!; auto. intros Hsrt HbL HaR.
           apply (sorted_node _ _ (keys (Node yl yk yv yr))) in Hsrt as (_ & Hy & Hb & _).
           apply H5; [done| |done]. rewrite lkeys_cons. apply below_app. split; [done|].
           apply below_app. split; [by apply (below_weak k); [lia|]|].
           apply below_cons. split; [done|apply below_nil].
    + assert (k = i) as -> by lia.
      eexists _, _, _, _, _. split; [reflexivity|]. split; [done|]. split_and!; try done.
      intros Hsrt HbL HaR. cbn [keys] in Hsrt. apply sorted_node in Hsrt as (_ & _ & Hb & Ha).
      by rewrite below_app, above_app.
Qed.

Definition ordered (t : tree) : Prop := StronglySorted Z.lt (keys t).
Definition good (t : tree) : Prop := ordered t /\ sized t.

(** [splay] keeps the keys and splits them around the root at i *)
Lemma splay_spec i t : good t -> exists t', splay i t = Ok t' /\ good t' /\ keys t' = keys t /\
  match t' with
  | Leaf => t = Leaf
  | Node tl k v tr => below i (keys tl) /\ above i (keys tr)
  end.
Proof.
  intros [Ho Hs]. destruct t as [|a b c d]; [by exists Leaf|].
  destruct (splay_loop_spec i (Node a b c d) [] [] 0 0) as (tl & k & tr & L & R & Heq & Hk & H1 & H2 & H3 & H4 & H5);
    try done; try by constructor.
  unfold splay. rewrite Heq. cbn [rbind].
  assert (HL : fsized (rev L)) by (by apply Forall_rev).
  assert (HR : fsized (rev R)) by (by apply Forall_rev).
  rewrite (nv_sized tl), (nv_sized tr) by done.
  destruct (build_left_spec tl H1 (rev L) (Z.of_nat (length (lkeys L)) + Z.of_nat (length (keys tl))) HL) as [E1 S1].
  { fold (lkeys L). rewrite app_length. lia. }
  destruct (build_right_spec tr H2 (rev R) (Z.of_nat (length (rkeys R)) + Z.of_nat (length (keys tr))) HR) as [E2 S2].
  { rewrite rev_involutive. fold (rkeys R). rewrite app_length. lia. }
  rewrite rev_involutive in E2. fold (rkeys R) in E2. fold (lkeys L) in E1.
  unfold lkeys at 2, rkeys at 2 in Hk. cbn [rev map concat] in Hk. rewrite app_nil_l, app_nil_r in Hk.
  assert (Hkeys : keys (build_left (rev L) (Z.of_nat (length (lkeys L)) + Z.of_nat (length (keys tl))) tl) ++ k ::
     keys (build_right (rev R) (Z.of_nat (length (rkeys R)) + Z.of_nat (length (keys tr))) tr) = keys (Node a b c d)).
  { rewrite E1, E2, <- Hk. by anorm. }
  eexists. split; [reflexivity|]. split_and!; [split| | |].
  - unfold ordered. cbn [keys]. rewrite Hkeys. exact Ho.
  - cbn [sized]. split_and!; [|done|done]. rewrite E1, E2. rewrite !app_length. cbn [length]. rewrite !app_length. lia.
  - done.
  - rewrite E1. by apply H5; [..|apply above_nil]; [|apply below_nil].
  - rewrite E2. by apply H5; [..|apply above_nil]; [|apply below_nil].
Qed.

Lemma sp_insert_spec i t : good t -> exists t', sp_insert i t = Ok t' /\ good t' /\
  (forall x, x ∈ keys t' <-> x = i \/ x ∈ keys t).
Proof.
  intros Hg. destruct t as [|a b c d].
  { exists (Node Leaf i 1 Leaf). split; [done|]. split.
    - split; [|done]. unfold ordered. cbn. repeat constructor.
    - intros x. cbn. rewrite elem_of_list_singleton. split; [by left|]. by intros [?|?%elem_of_nil]. }
  unfold sp_insert. destruct (splay_spec i _ Hg) as (t' & -> & [Ho Hs] & Hk & Hroot). cbn [rbind].
  destruct t' as [|tl k v tr]; [done|]. destruct Hroot as [Hb Ha].
  destruct Hs as (Hv & Hsl & Hsr). unfold ordered in Ho. cbn [keys] in Ho. apply sorted_node in Ho as (Hol & Hor & Hbk & Hak).
  rewrite <- Hk. clear Hk Hg a b c d. cbn [keys].
  destruct (decide (i < k)) as [Hlt|Hge]; [|destruct (decide (k < i)) as [Hlt2|Hge2]].
  - eexists. split; [reflexivity|]. split; [split|].
    + unfold ordered. cbn [keys]. rewrite app_nil_l. apply sorted_node. split_and!; [done| |done|].
      * apply (sorted_node []). split_and!; [constructor|done|apply below_nil|done].
      * by apply above_cons.
    + cbn [sized keys]. rewrite app_nil_l. split_and!; try done.
      * cbn [nv]. rewrite (nv_sized tl), (nv_sized tr) by done. rewrite app_length. cbn [length]. lia.
      * rewrite (nv_sized tr) by done. cbn [length]. lia.
    + intros x. cbn [keys]. rewrite app_nil_l. rewrite !elem_of_app, !elem_of_cons. tauto.
  - eexists. split; [reflexivity|]. split; [split|].
    + unfold ordered. cbn [keys]. apply sorted_node. split_and!; [|done| |done].
      * apply sorted_node. split_and!; [done|constructor|done|apply above_nil].
      * apply below_app. split; [done|]. apply below_cons. split; [done|apply below_nil].
    + cbn [sized keys]. split_and!; try done.
      * cbn [nv]. rewrite (nv_sized tl), (nv_sized tr) by done. rewrite !app_length. cbn [length]. lia.
      * rewrite (nv_sized tl) by done. rewrite app_length. cbn [length]. lia.
    + intros x. cbn [keys]. repeat (rewrite elem_of_app || rewrite elem_of_cons). rewrite elem_of_nil. tauto.
  - assert (k = i) as -> by lia. rewrite decide_True.
    + eexists. split; [reflexivity|]. split; [split; [|done]|].
      * unfold ordered. cbn [keys]. apply sorted_node. done.
      * intros x. cbn [keys]. rewrite elem_of_app, elem_of_cons. tauto.
    + rewrite Hv, (nv_sized tl), (nv_sized tr) by done. rewrite app_length. cbn [length]. lia.
Qed.

Lemma sp_delete_spec i t : good t -> exists t', sp_delete i t = Ok t' /\ good t' /\
  (forall x, x ∈ keys t' <-> x <> i /\ x ∈ keys t).
Proof.
  intros Hg. destruct t as [|a b c d].
  { exists Leaf. split; [done|]. split; [done|]. intros x. cbn. rewrite elem_of_nil. tauto. }
  unfold sp_delete. destruct (splay_spec i _ Hg) as (t' & -> & [Ho Hs] & Hk & Hroot). cbn [rbind].
  destruct t' as [|tl k v tr]; [done|]. destruct Hroot as [Hb Ha].
  pose proof Hs as (Hv & Hsl & Hsr). pose proof Ho as Ho'. unfold ordered in Ho. cbn [keys] in Ho.
  apply sorted_node in Ho as (Hol & Hor & Hbk & Hak).
  assert (Hrv : nv (Node a b c d) = v).
  { destruct Hg as [_ Hg]. rewrite (nv_sized _ Hg), <- Hk. cbn [keys]. by rewrite Hv. }
  rewrite Hrv. rewrite <- Hk. clear Hk Hg Hrv a b c d.
  destruct (decide (i = k)) as [<-|Hne].
  2:{ eexists. split; [reflexivity|]. split; [done|]. intros x. cbn [keys].
      rewrite elem_of_app, elem_of_cons. split; [|tauto]. intros Hx. split; [|done]. intros ->.
      destruct Hx as [Hx|[?|Hx]]; [|done|].
      - specialize (Hb i Hx). lia.
      - specialize (Ha i Hx). lia. }
  destruct tl as [|la lb lc ld] eqn:Etl.
  { destruct tr as [|ra rb rc rd].
    - eexists. split; [reflexivity|]. split; [done|]. intros x. cbn [keys app].
      rewrite elem_of_cons, elem_of_nil. tauto.
    - eexists. split; [reflexivity|]. split.
      + split; [exact Hor|]. destruct Hsr as (Hr & ? & ?). cbn [sized]. split_and!; [|done|done].
        cbn [keys] in Hv. rewrite app_nil_l in Hv. cbn [length] in Hv. lia.
      + intros x. cbn [keys app]. change (keys ra ++ rb :: keys rd) with (keys (Node ra rb rc rd)).
        rewrite elem_of_cons. split; [|tauto]. intros Hx. split; [|by right]. intros ->. specialize (Ha i Hx). lia. }
  rewrite <- Etl in *. assert (Hgl : good tl) by done.
  destruct (splay_spec i tl Hgl) as (x & Hx & [Hox Hsx] & Hkx & Hrx).
  rewrite Hx. cbn [rbind]. destruct x as [|xl xk xv xr]; [by rewrite Etl in Hrx|].
  destruct Hrx as [Hbx Hax].
  assert (xr = Leaf) as ->.
  { destruct xr as [|p q r s]; [done|]. exfalso. assert (q ∈ keys tl).
    { rewrite <- Hkx. cbn [keys]. repeat (rewrite elem_of_app || rewrite elem_of_cons). tauto. }
    assert (q < i) by (by apply Hb). assert (i < q); [|lia]. apply Hax. cbn [keys].
    rewrite elem_of_app, elem_of_cons. tauto. }
  destruct Hsx as (Hsxv & Hsxl & _). unfold ordered in Hox. cbn [keys] in Hox.
  apply sorted_node in Hox as (Hoxl & _ & Hbxl & _).
  cbn [keys] in Hkx.
  assert (Hxk : xk < i). { apply Hb. rewrite <- Hkx, elem_of_app, elem_of_cons. tauto. }
  eexists. split; [reflexivity|]. split; [split|].
  - unfold ordered. cbn [keys]. apply sorted_node. split_and!; [done|done|done|].
    by apply (above_weak i); [lia|].
  - cbn [sized]. split_and!; [|done|done]. rewrite Hv, <- Hkx. rewrite !app_length. cbn [length]. lia.
  - intros x. cbn [keys]. rewrite <- Hkx. repeat (rewrite elem_of_app || rewrite elem_of_cons). rewrite elem_of_nil.
    split; [|tauto]. intros Hx'. split.
    + intros ->. destruct Hx' as [Hx'|[->|Hx']]; [|lia|].
      * assert (i < i); [|lia]. apply Hb. rewrite <- Hkx, elem_of_app. tauto.
      * specialize (Ha i Hx'). lia.
    + tauto.
Qed.

(** the count that the profilers read *)
Lemma splay_right i t tl k v tr : good t -> i ∈ keys t -> splay i t = Ok (Node tl k v tr) ->
  k = i /\ nv tr = Z.of_nat (length (filter (fun x => i < x) (keys t))).
Proof.
  intros Hg Hin Hsp. destruct (splay_spec i t Hg) as (t' & Ht' & [Ho Hs] & Hk & Hr).
  rewrite Hsp in Ht'. injection Ht' as <-. destruct Hr as [Hb Ha].
  rewrite <- Hk in Hin |- *. cbn [keys] in Hin |- *.
  assert (k = i) as ->.
  { apply elem_of_app in Hin as [Hin|Hin].
    - specialize (Hb _ Hin). lia.
    - apply elem_of_cons in Hin as [Hin|Hin]; [done|]. specialize (Ha _ Hin). lia. }
  split; [done|]. destruct Hs as (_ & _ & Hs). rewrite (nv_sized _ Hs).
  rewrite filter_app, filter_cons_False by lia.
  assert (E1 : filter (fun x => i < x) (keys tl) = []).
  { clear -Hb. induction (keys tl) as [|y l IH]; [done|]. apply below_cons in Hb as [? ?].
    rewrite filter_cons_False by lia. by apply IH. }
  assert (E2 : filter (fun x => i < x) (keys tr) = keys tr).
  { clear -Ha. induction (keys tr) as [|y l IH]; [done|]. apply above_cons in Ha as [? ?].
    rewrite filter_cons_True by lia. f_equal. by apply IH. }
  by rewrite E1, E2.
Qed.
