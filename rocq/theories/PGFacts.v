(** PG: the graph counts what follows what; its heaps stay in bounds. *)
From stdpp Require Import gmap list numbers fin_maps.
From Verif Require Import Base Driver Abs AbsFacts Sim ModelPQ ModelPrefetch SpecPrefetch PrefetchFacts.
Open Scope Z_scope.

(** ** Heaps that need not be heaps *)

(** Every slot that was ever used holds an allocated node, and every node (but
    perhaps one) has the number of such a slot. *)
Record pq_safe (ex : option Z) (q : pq) (hi : nat) : Prop := {
  ps_sz : (1 <= pq_sz q <= hi + 1)%nat;
  ps_d : forall i, (1 <= i <= hi)%nat -> exists x, pq_d q !! i = Some x /\ is_Some (pq_pri q !! x);
  ps_pos : forall x, is_Some (pq_pri q !! x) -> ex <> Some x -> exists i, pq_pos q !! x = Some i /\ (1 <= i <= hi)%nat
}.

Lemma pq_safe_empty : pq_safe None pq_empty 0.
Proof. split; cbn; try lia. intros x [? Hx]. done. Qed.

Lemma put_safe ex q hi i x : pq_safe ex q hi -> (1 <= i <= hi)%nat -> is_Some (pq_pri q !! x) ->
  pq_safe ex (pq_put q i x) hi.
Proof.
  intros [Hs Hd Hp] Hi Hx. split; cbn [pq_put pq_sz pq_d pq_pri pq_pos]; [done| |].
  - intros j Hj. destruct (decide (j = i)) as [->|]; [|rewrite lookup_insert_ne by done; by apply Hd].
    rewrite lookup_insert. eauto.
  - intros y Hy Hex. destruct (decide (y = x)) as [->|]; [|rewrite lookup_insert_ne by done; by apply Hp].
    rewrite lookup_insert. eauto.
Qed.

Lemma put_safe_ex q hi i x : pq_safe (Some x) q hi -> (1 <= i <= hi)%nat -> is_Some (pq_pri q !! x) ->
  pq_safe None (pq_put q i x) hi.
Proof.
  intros H Hi Hx. pose proof (put_safe (Some x) q hi i x H Hi Hx) as [Hs Hd Hp]. split; [done|done|].
  intros y Hy _. destruct (decide (y = x)) as [->|Hne].
  - cbn [pq_put pq_pos]. rewrite lookup_insert. eauto.
  - apply Hp; [done|congruence].
Qed.

Lemma bubble_loop_safe ex hi mp fuel : forall q i, pq_safe ex q hi -> (1 <= i <= hi)%nat -> (i <= fuel)%nat ->
  exists q' i', bubble_loop fuel q mp i = Ok (q', i') /\ pq_safe ex q' hi /\ (1 <= i' <= hi)%nat /\
    pq_pri q' = pq_pri q /\ pq_sz q' = pq_sz q.
Proof.
  induction fuel as [|fuel IH]; intros q i H Hi Hf; [lia|]. cbn [bubble_loop].
  destruct (decide (1 < i)%nat) as [H1|]; [|by exists q, i].
  assert (Hh : (1 <= i / 2 < i)%nat).
  { split; [|apply Nat.div_lt; lia]. apply Nat.div_le_lower_bound; lia. }
  destruct (ps_d _ _ _ H (i / 2)%nat ltac:(lia)) as (y & Ey & [py Hy]).
  unfold pq_at. rewrite Ey. cbn [rbind]. unfold pq_getpri. rewrite Hy. cbn [rbind].
  destruct (decide (py < mp)); [|by exists q, i].
  destruct (IH (pq_put q i y) (i / 2)%nat) as (q' & i' & E & H' & Hi' & Hp & Hs); [apply put_safe; eauto|lia|lia|].
  exists q', i'. by rewrite E.
Qed.

Lemma bubble_up_safe ex hi q i x : pq_safe ex q hi -> (1 <= i <= hi)%nat -> pq_d q !! i = Some x -> ex = None \/ ex = Some x ->
  exists q', bubble_up q i = Ok q' /\ pq_safe None q' hi /\ pq_pri q' = pq_pri q /\ pq_sz q' = pq_sz q.
Proof.
  intros H Hi Hx Hex. destruct (ps_d _ _ _ H i Hi) as (x' & Ex & [p Hp]). rewrite Hx in Ex. injection Ex as <-.
  unfold bubble_up, pq_at. rewrite Hx. cbn [rbind]. unfold pq_getpri. rewrite Hp. cbn [rbind].
  destruct (bubble_loop_safe ex hi p i q i H Hi ltac:(lia)) as (q' & i' & -> & H' & Hi' & Hpri & Hs). cbn [rbind].
  eexists. split; [done|]. split; [|done].
  destruct Hex as [->| ->]; [apply put_safe|apply put_safe_ex]; try done; rewrite Hpri; eauto.
Qed.

Lemma maxchild_safe ex q hi i : pq_safe ex q hi -> (1 <= i)%nat -> exists c, maxchild q i = Ok c /\
  (c = 0 \/ 2 * i <= c < pq_sz q)%nat.
Proof.
  intros H Hi. pose proof (ps_sz _ _ _ H). unfold maxchild.
  destruct (decide (pq_sz q <= 2 * i)%nat) as [|Hlt]; [exists 0%nat; auto|].
  destruct (decide (2 * i + 1 < pq_sz q)%nat) as [Hlt2|]; [|exists (2 * i)%nat; split; [done|lia]].
  destruct (ps_d _ _ _ H (2 * i)%nat ltac:(lia)) as (x & Ex & [px Hx]).
  destruct (ps_d _ _ _ H (2 * i + 1)%nat ltac:(lia)) as (y & Ey & [py Hy]).
  unfold pq_at, pq_getpri. rewrite Ex. cbn [rbind]. rewrite Hx. cbn [rbind]. rewrite Ey. cbn [rbind]. rewrite Hy. cbn [rbind].
  destruct (decide (px < py)); eexists; (split; [done|]); lia.
Qed.

Lemma percolate_loop_safe ex hi mp fuel : forall q i, pq_safe ex q hi -> (1 <= i <= hi)%nat -> (pq_sz q <= i + fuel)%nat ->
  exists q' i', percolate_loop fuel q mp i = Ok (q', i') /\ pq_safe ex q' hi /\ (1 <= i' <= hi)%nat /\
    pq_pri q' = pq_pri q /\ pq_sz q' = pq_sz q.
Proof.
  induction fuel as [|fuel IH]; intros q i H Hi Hf; cbn [percolate_loop];
    destruct (maxchild_safe ex q hi i H ltac:(lia)) as (c & -> & Hc); cbn [rbind];
    (destruct (decide (c = 0%nat)) as [|Hc0]; [by exists q, i|]);
    pose proof (ps_sz _ _ _ H) as Hsz;
    destruct (ps_d _ _ _ H c ltac:(lia)) as (y & Ey & [py Hy]);
    unfold pq_at; rewrite Ey; cbn [rbind]; unfold pq_getpri; rewrite Hy; cbn [rbind].
  - lia.
  - destruct (decide (mp < py)); [|by exists q, i].
    destruct (IH (pq_put q i y) c) as (q' & i' & E & H' & Hi' & Hp & Hs).
    + apply put_safe; eauto.
    + lia.
    + cbn [pq_put pq_sz]. lia.
    + exists q', i'. by rewrite E.
Qed.

Lemma percolate_down_safe ex hi q i x : pq_safe ex q hi -> (1 <= i <= hi)%nat -> pq_d q !! i = Some x -> ex = None \/ ex = Some x ->
  exists q', percolate_down q i = Ok q' /\ pq_safe None q' hi /\ pq_pri q' = pq_pri q /\ pq_sz q' = pq_sz q.
Proof.
  intros H Hi Hx Hex. destruct (ps_d _ _ _ H i Hi) as (x' & Ex & [p Hp]). rewrite Hx in Ex. injection Ex as <-.
  unfold percolate_down, pq_at. rewrite Hx. cbn [rbind]. unfold pq_getpri. rewrite Hp. cbn [rbind].
  destruct (percolate_loop_safe ex hi p (pq_sz q) q i H Hi ltac:(lia)) as (q' & i' & -> & H' & Hi' & Hpri & Hs). cbn [rbind].
  eexists. split; [done|]. split; [|done].
  destruct Hex as [->| ->]; [apply put_safe|apply put_safe_ex]; try done; rewrite Hpri; eauto.
Qed.

Definition safe (q : pq) : Prop := exists hi, pq_safe None q hi.

Lemma insert_safe q x p : safe q ->
  exists q', pq_insert q x p = Ok q' /\ safe q' /\ pq_pri q' = <[x := p]> (pq_pri q) /\ pq_sz q' = (pq_sz q + 1)%nat.
Proof.
  intros (hi & [Hs Hd Hp]). unfold pq_insert. set (q1 := mkPq _ _ _ _).
  assert (H1 : pq_safe (Some x) q1 (Nat.max hi (pq_sz q))).
  { split; cbn [q1 pq_sz pq_d pq_pri pq_pos].
    - lia.
    - intros i Hi. destruct (decide (i = pq_sz q)) as [->|Hne].
      + rewrite lookup_insert. exists x. split; [done|]. rewrite lookup_insert. eauto.
      + rewrite lookup_insert_ne by done. destruct (Hd i ltac:(lia)) as (y & Ey & Hy). exists y. split; [done|].
        destruct (decide (y = x)) as [->|]; [rewrite lookup_insert|rewrite lookup_insert_ne by done]; eauto.
    - intros y Hy Hne. destruct (decide (y = x)) as [->|Hyx]; [done|]. rewrite lookup_insert_ne in Hy by done.
      destruct (Hp y Hy ltac:(done)) as (i & Ei & Hi). exists i. split; [done|lia]. }
  destruct (bubble_up_safe (Some x) _ q1 (pq_sz q1 - 1) x H1) as (q' & E & H' & Hpri & Hsz).
  - cbn. lia.
  - cbn [q1 pq_d pq_sz]. rewrite Nat.add_sub. apply lookup_insert.
  - by right.
  - exists q'. split; [exact E|]. split; [by eexists|]. split; [exact Hpri|exact Hsz].
Qed.

Lemma bump_safe q b p : safe q -> pq_pri q !! b = Some p ->
  exists q', pg_bump q b p = Ok q' /\ safe q' /\ pq_pri q' = <[b := p + 1]> (pq_pri q).
Proof.
  intros (hi & [Hs Hd Hp]) Hb. unfold pg_bump, pq_change, pq_getpri. cbn [pq_pri pq_d pq_sz pq_pos].
  rewrite lookup_insert. cbn [rbind]. unfold pq_getpos. cbn [pq_pos].
  destruct (Hp b ltac:(eauto) ltac:(done)) as (i & Ei & Hi). rewrite Ei. cbn [rbind]. rewrite decide_False by lia.
  set (q1 := mkPq _ _ _ _).
  assert (H1 : pq_safe None q1 hi).
  { split; cbn [q1 pq_sz pq_d pq_pri pq_pos]; [done| |].
    - intros j Hj. destruct (Hd j Hj) as (y & Ey & Hy). exists y. split; [done|].
      rewrite insert_insert.
      destruct (decide (y = b)) as [->|]; [rewrite lookup_insert|rewrite lookup_insert_ne by done]; eauto.
    - intros y Hy _. rewrite insert_insert in Hy. destruct (decide (y = b)) as [->|]; [eauto|].
      rewrite lookup_insert_ne in Hy by done. by apply Hp. }
  destruct (Hd i Hi) as (x & Ex & _).
  destruct (percolate_down_safe None hi q1 i x H1 Hi Ex ltac:(by left)) as (q' & E & H' & Hpri & _).
  exists q'. split; [exact E|]. split; [by eexists|]. rewrite Hpri. cbn [q1 pq_pri]. apply insert_insert.
Qed.

Lemma pop_safe q : safe q -> exists q' o, pq_pop q = Ok (q', o) /\ safe q' /\ pq_pri q' = pq_pri q /\
  match o with
  | None => q' = q /\ pq_sz q = 1%nat
  | Some x => is_Some (pq_pri q !! x) /\ (pq_sz q' + 1 = pq_sz q)%nat
  end.
Proof.
  intros (hi & [Hs Hd Hp]). unfold pq_pop. destruct (decide (pq_sz q = 1%nat)) as [Hsz|Hne].
  { exists q, None. split_and!; try done. exists hi. by split. }
  destruct (Hd 1%nat ltac:(lia)) as (h & Eh & Hh). destruct (Hd (pq_sz q - 1)%nat ltac:(lia)) as (l & El & Hl).
  unfold pq_at. rewrite Eh. cbn [rbind]. rewrite El. cbn [rbind]. set (q1 := mkPq _ _ _ _).
  assert (H1 : pq_safe None q1 hi).
  { split; cbn [q1 pq_sz pq_d pq_pri pq_pos]; [lia| |done].
    intros j Hj. destruct (decide (j = 1%nat)) as [->|]; [rewrite lookup_insert; eauto|].
    rewrite lookup_insert_ne by done. by apply Hd. }
  destruct (percolate_down_safe None hi q1 1 l H1 ltac:(lia)) as (q' & -> & H' & Hpri & Hsz).
  - cbn [q1 pq_d]. apply lookup_insert.
  - by left.
  - cbn [rbind]. exists q', (Some h). split; [done|]. split; [by eexists|]. split; [exact Hpri|]. split; [done|].
    rewrite Hsz. cbn. lia.
Qed.

(** ** Counting *)
Definition cnt (b : Z) (l : list Z) : Z := Z.of_nat (length (filter (eq b) l)).
Definition ctr (m : gmap Z Z) (b : Z) : Z := default 0 (m !! b).

Lemma cnt_cons b x l : cnt b (x :: l) = (if decide (x = b) then 1 else 0) + cnt b l.
Proof.
  unfold cnt. destruct (decide (x = b)) as [->|Hn].
  - rewrite filter_cons_True by done. cbn [length]. lia.
  - rewrite filter_cons_False by congruence. lia.
Qed.

Lemma cnt_perm b l l' : l ≡ₚ l' -> cnt b l = cnt b l'.
Proof. intros H. unfold cnt. by rewrite H. Qed.

Lemma cnt_times b h : cnt b (map r_id h) = times b h.
Proof.
  unfold times. induction h as [|q h IH]; [done|]. cbn [map]. rewrite cnt_cons, IH.
  destruct (decide (r_id q = b)).
  - rewrite filter_cons_True by done. cbn [length]. lia.
  - rewrite filter_cons_False by done. lia.
Qed.

Definition positive (m : gmap Z Z) : Prop := forall b p, m !! b = Some p -> 0 < p.

Lemma ctr_insert m b v b' : ctr (<[b := v]> m) b' = if decide (b = b') then v else ctr m b'.
Proof.
  unfold ctr. destruct (decide (b = b')) as [->|]; [by rewrite lookup_insert|by rewrite lookup_insert_ne].
Qed.

(** In every case: no crash, known nodes, bounded metadata. *)
Lemma count_safe stop blocks : forall g md, safe (gn_pq g) ->
  exists g' md' w, pg_count stop blocks g md = Ok (g', md', w) /\ safe (gn_pq g') /\
    md <= md' <= md + 32 * Z.of_nat (length blocks) /\
    (forall b, is_Some (pq_pri (gn_pq g') !! b) -> is_Some (pq_pri (gn_pq g) !! b) \/ b ∈ blocks /\ b <> 0).
Proof.
  induction blocks as [|b blocks IH]; intros g md Hs.
  { exists g, md, true. split_and!; try done; try (cbn; lia). auto. }
  cbn [pg_count gn_pq gn_total]. destruct (decide (b = 0)) as [->|Hb].
  { eexists _, md, true. split; [done|]. cbn [gn_pq length]. split_and!; try done; try lia. auto. }
  destruct (pq_pri (gn_pq g) !! b) as [p|] eqn:E.
  - destruct (bump_safe _ b p Hs E) as (q & -> & Hq & Hpri). cbn [rbind].
    destruct (IH (mkGn q (gn_total g + 1)) md Hq) as (g' & md' & w & -> & Hs' & Hmd & Hk).
    exists g', md', w. split; [done|]. split; [done|]. cbn [length]. split; [lia|].
    intros b' Hb'. destruct (Hk b' Hb') as [H|[H1 H2]]; [|right; split; [by right|done]].
    cbn [gn_pq] in H. rewrite Hpri in H. destruct (decide (b' = b)) as [->|]; [left; rewrite E; eauto|].
    rewrite lookup_insert_ne in H by done. by left.
  - destruct stop.
    { eexists _, md, false. split; [done|]. cbn [gn_pq length]. split_and!; try done; try lia. auto. }
    destruct (insert_safe _ b 1 Hs) as (q & -> & Hq & Hpri & _). cbn [rbind].
    destruct (IH (mkGn q (gn_total g + 1)) (md + 32) Hq) as (g' & md' & w & -> & Hs' & Hmd & Hk).
    exists g', md', w. split; [done|]. split; [done|]. cbn [length]. split; [lia|].
    intros b' Hb'. destruct (Hk b' Hb') as [H|[H1 H2]]; [|right; split; [by right|done]].
    cbn [gn_pq] in H. rewrite Hpri in H. destruct (decide (b' = b)) as [->|].
    + right. split; [left|done].
    + rewrite lookup_insert_ne in H by done. by left.
Qed.

(** While recording, a full ring is counted to the end. *)
Lemma count_exact blocks : 0 ∉ blocks -> forall g md g' md' w, safe (gn_pq g) -> positive (pq_pri (gn_pq g)) ->
  pg_count false blocks g md = Ok (g', md', w) ->
  w = true /\ gn_total g' = gn_total g + Z.of_nat (length blocks) /\ positive (pq_pri (gn_pq g')) /\
  forall b, ctr (pq_pri (gn_pq g')) b = ctr (pq_pri (gn_pq g)) b + cnt b blocks.
Proof.
  induction blocks as [|b blocks IH]; intros Hz g md g' md' w Hs Hpos Hc.
  { injection Hc as <- <- <-. split_and!; try done; try (cbn; lia). intros b. change (cnt b []) with 0. lia. }
  apply not_elem_of_cons in Hz as [Hz0 Hz].
  cbn [pg_count gn_pq gn_total] in Hc. rewrite decide_False in Hc by congruence.
  destruct (pq_pri (gn_pq g) !! b) as [p|] eqn:E.
  - destruct (bump_safe _ b p Hs E) as (q & Eq & Hq & Hpri). rewrite Eq in Hc. cbn [rbind] in Hc.
    apply IH in Hc as (-> & Ht & Hp' & Hb); [|done|done|].
    + split; [done|]. cbn [gn_total length] in *. split; [lia|]. split; [done|].
      intros b'. rewrite Hb, cnt_cons. cbn [gn_pq]. rewrite Hpri, ctr_insert.
      destruct (decide (b = b')) as [<-|]; [|lia]. unfold ctr. rewrite E. cbn. lia.
    + cbn [gn_pq]. rewrite Hpri. intros b' v. destruct (decide (b' = b)) as [->|].
      * rewrite lookup_insert. intros [= <-]. specialize (Hpos _ _ E). lia.
      * rewrite lookup_insert_ne by done. apply Hpos.
  - destruct (insert_safe _ b 1 Hs) as (q & Eq & Hq & Hpri & _). rewrite Eq in Hc. cbn [rbind] in Hc.
    apply IH in Hc as (-> & Ht & Hp' & Hb); [|done|done|].
    + split; [done|]. cbn [gn_total length] in *. split; [lia|]. split; [done|].
      intros b'. rewrite Hb, cnt_cons. cbn [gn_pq]. rewrite Hpri, ctr_insert.
      destruct (decide (b = b')) as [<-|]; [|lia]. unfold ctr. rewrite E. cbn. lia.
    + cbn [gn_pq]. rewrite Hpri. intros b' v. destruct (decide (b' = b)) as [->|].
      * rewrite lookup_insert. intros [= <-]. lia.
      * rewrite lookup_insert_ne by done. apply Hpos.
Qed.

(** ** The windows of the specification grow by one *)
Lemma filter_ext_in {A} (P Q : A -> Prop) `{!forall x, Decision (P x)} `{!forall x, Decision (Q x)} (l : list A) :
  (forall x, x ∈ l -> P x <-> Q x) -> filter P l = filter Q l.
Proof.
  induction l as [|x l IH]; intros Hx; [done|].
  assert (HPQ : P x <-> Q x) by (apply Hx; left).
  assert (E : filter P l = filter Q l) by (apply IH; intros y Hy; apply Hx; by right).
  destruct (decide (P x)) as [Hp|Hp].
  - rewrite !filter_cons_True by tauto. by rewrite E.
  - rewrite !filter_cons_False by tauto. done.
Qed.

Lemma filter_none {A} (P : A -> Prop) `{!forall x, Decision (P x)} (l : list A) : (forall x, x ∈ l -> ~ P x) -> filter P l = [].
Proof.
  induction l as [|x l IH]; intros Hx; [done|]. rewrite filter_cons_False by (apply Hx; left).
  apply IH. intros y Hy. apply Hx. by right.
Qed.

Lemma windows_alt L h y : windows L h y = filter (fun i => (r_id <$> h !! i) = Some y) (seq 0 (length h - L)).
Proof.
  unfold windows.
  assert (E : seq 0 (length h) = seq 0 (length h - L) ++ seq (length h - L) (length h - (length h - L))).
  { pose proof (seq_app (length h - L) (length h - (length h - L)) 0) as E. cbn [Nat.add] in E. rewrite <- E. f_equal. lia. }
  rewrite E, filter_app, (filter_none _ (seq (length h - L) _)), app_nil_r.
  - apply filter_ext_in. intros i [Hi1 Hi2]%elem_of_seq. split; [tauto|]. intros ?. split; [done|lia].
  - intros i [Hi1 Hi2]%elem_of_seq [_ Hi3]. lia.
Qed.

Lemma windows_snoc L h r y :
  windows L (h ++ [r]) y = windows L h y ++
    (if decide (0 < L /\ L <= length h /\ (r_id <$> h !! (length h - L)) = Some y)%nat then [(length h - L)%nat] else []) \/ L = 0%nat.
Proof.
  destruct L as [|L]; [by right|left]. rewrite !windows_alt, app_length. cbn [length].
  assert (Ef : forall n, (n <= length h)%nat ->
    filter (fun i => (r_id <$> (h ++ [r]) !! i) = Some y) (seq 0 n) = filter (fun i => (r_id <$> h !! i) = Some y) (seq 0 n)).
  { intros n Hn. apply filter_ext_in. intros i [_ Hi]%elem_of_seq. rewrite lookup_app_l by lia. done. }
  destruct (decide (S L <= length h)%nat) as [Hle|Hgt].
  - replace (length h + 1 - S L)%nat with (length h - S L + 1)%nat by lia.
    rewrite seq_app, filter_app, Ef by lia. f_equal. cbn [seq]. rewrite Nat.add_0_l.
    destruct (decide _) as [(_ & _ & H)|H].
    + rewrite filter_cons_True; [done|]. rewrite lookup_app_l by lia. done.
    + rewrite filter_cons_False; [done|]. rewrite lookup_app_l by lia. intros H'. apply H. split_and!; try done. lia.
  - rewrite decide_False by lia. rewrite app_nil_r. replace (length h + 1 - S L)%nat with 0%nat by lia.
    replace (length h - S L)%nat with 0%nat by lia. done.
Qed.

Lemma follows_snoc L h r y b : (0 < L)%nat ->
  follows L (h ++ [r]) y b = follows L h y b +
    (if decide (L <= length h /\ (r_id <$> h !! (length h - L)) = Some y)%nat
     then times b (drop (length h - L + 1) (h ++ [r])) else 0).
Proof.
  intros HL. unfold follows.
  assert (Hold : forall l, (forall i, i ∈ l -> (i + L < length h)%nat) ->
    foldr (fun i n => times b (take L (drop (i + 1) (h ++ [r]))) + n) 0 l =
    foldr (fun i n => times b (take L (drop (i + 1) h)) + n) 0 l).
  { induction l as [|i l IH]; intros Hl; [done|]. cbn [foldr]. rewrite IH by (intros; apply Hl; by right).
    specialize (Hl i ltac:(left)). rewrite drop_app_le, take_app_le; [done|rewrite drop_length; lia|lia]. }
  assert (Hw : forall i, i ∈ windows L h y -> (i + L < length h)%nat).
  { intros i Hi. unfold windows in Hi. apply elem_of_list_filter in Hi as [[_ Hi] _]. done. }
  assert (Hadd : forall l n, foldr (fun i n => times b (take L (drop (i + 1) (h ++ [r]))) + n) n l =
    foldr (fun i n => times b (take L (drop (i + 1) (h ++ [r]))) + n) 0 l + n).
  { induction l as [|i l IH]; intros n; cbn [foldr]; [lia|]. rewrite IH. lia. }
  destruct (windows_snoc L h r y) as [->|]; [|lia]. rewrite foldr_app, Hadd, Hold by done.
  destruct (decide (0 < L /\ _)%nat) as [(_ & H1 & H2)|H]; destruct (decide (L <= length h /\ _)%nat) as [H'|H'].
  - cbn [foldr]. rewrite take_ge; [lia|]. rewrite drop_length, app_length. cbn. lia.
  - exfalso. apply H'. by split.
  - exfalso. apply H. destruct H'. by split.
  - cbn [foldr]. lia.
Qed.

Lemma followers_snoc L h r y : (0 < L)%nat ->
  followers L (h ++ [r]) y = followers L h y +
    (if decide (L <= length h /\ (r_id <$> h !! (length h - L)) = Some y)%nat then Z.of_nat L else 0).
Proof.
  intros HL. unfold followers. destruct (windows_snoc L h r y) as [->|]; [|lia]. rewrite app_length.
  destruct (decide (0 < L /\ _)%nat) as [(_ & H1 & H2)|H]; destruct (decide (L <= length h /\ _)%nat) as [H'|H'].
  - cbn [length]. lia.
  - exfalso. apply H'. by split.
  - exfalso. apply H. destruct H'. by split.
  - cbn [length]. lia.
Qed.

(** ** The ring of PG *)
Definition padded (L : nat) (h : list req) : list Z := drop (length h) (replicate L 0 ++ map r_id h).

Lemma padded_snoc L h r c w : padded L h = c :: w -> padded L (h ++ [r]) = w ++ [r_id r].
Proof.
  unfold padded. intros E. rewrite map_app, app_assoc, app_length. cbn [length map].
  rewrite drop_app_le.
  - rewrite <- drop_drop, E. done.
  - rewrite app_length, replicate_length, map_length.
    assert (H : length (drop (length h) (replicate L 0 ++ map r_id h)) = length (c :: w)) by (by rewrite E).
    rewrite drop_length, app_length, replicate_length, map_length in H. cbn in H. lia.
Qed.

Lemma padded_length L h : length (padded L h) = L.
Proof. unfold padded. rewrite drop_length, app_length, replicate_length, map_length. lia. Qed.

Lemma padded_full L h : (L <= length h)%nat -> padded L h = map r_id (drop (length h - L) h).
Proof.
  intros H. unfold padded. rewrite drop_app_ge by (by rewrite replicate_length). rewrite replicate_length. apply map_drop || (symmetry; apply fmap_drop).
Qed.

Lemma padded_head L h c w : padded L h = c :: w -> c = 0 /\ (length h < L)%nat \/
  (L <= length h)%nat /\ (r_id <$> h !! (length h - L)%nat) = Some c.
Proof.
  intros E. destruct (decide (L <= length h)%nat) as [Hle|Hgt].
  - right. split; [done|]. rewrite padded_full in E by done.
    assert (H0 : map r_id (drop (length h - L) h) !! 0%nat = Some c) by (by rewrite E).
    apply list_lookup_fmap_Some in H0 as (q & Hq & ->). rewrite lookup_drop, Nat.add_0_r in Hq. by rewrite Hq.
  - left. split; [|lia]. unfold padded in E.
    assert (H0 : drop (length h) (replicate L 0 ++ map r_id h) !! 0%nat = Some c) by (by rewrite E).
    rewrite lookup_drop, Nat.add_0_r, lookup_app_l in H0 by (rewrite replicate_length; lia).
    apply lookup_replicate_1 in H0. tauto.
Qed.

(** ** The invariant *)
Section Inv.
  Context (lbl : nat -> bool) (L : nat) (max : Z).
  Hypothesis (HL : (0 < L)%nat).

  Definition small (r : req) : Prop := 0 < r_id r < 2 ^ 31 /\ 0 <= r_size r < 2 ^ 31.
  Definition room (h : list req) : Prop := 32 * (Z.of_nat L + 1) * Z.of_nat (length h) < max.

  Record pg_ok (h : list req) (p : pg) : Prop := {
    gk_L : pg_L p = L;
    gk_max : pg_max p = max;
    gk_len : length (pg_past p) = L;
    gk_ptr : (pg_ptr p < L)%nat;
    gk_ring : drop (pg_ptr p) (pg_past p) ++ take (pg_ptr p) (pg_past p) = padded L h;
    gk_small : Forall small h;
    gk_safe : forall y g, pg_graph p !! y = Some g -> safe (gn_pq g);
    gk_known : forall y g b, pg_graph p !! y = Some g -> is_Some (pq_pri (gn_pq g) !! b) -> b ∈ map r_id h;
    gk_size_none : forall id, pg_sizes p !! id = None -> id ∉ map r_id h;
    gk_size : forall id sz, pg_sizes p !! id = Some sz -> last_size h (mkReq id sz 0 0 0);
    gk_md : pg_md p <= 32 * (Z.of_nat L + 1) * Z.of_nat (length h);
    gk_stop : room h -> pg_stop p = false;
    gk_none : room h -> forall y, y <> 0 -> pg_graph p !! y = None -> windows L h y = [];
    gk_count : room h -> forall y g, y <> 0 -> pg_graph p !! y = Some g ->
      gn_total g = followers L h y /\ positive (pq_pri (gn_pq g)) /\
      forall b, ctr (pq_pri (gn_pq g)) b = follows L h y b
  }.

  Lemma last_size_snoc h r id sz : last_size h (mkReq id sz 0 0 0) -> r_id r <> id -> last_size (h ++ [r]) (mkReq id sz 0 0 0).
  Proof.
    intros (i & q & Hq & Hid & Hsz & Hl) Hne. exists i, q. cbn [r_id r_size] in *.
    split; [by apply lookup_app_l_Some|]. split; [done|]. split; [done|].
    intros j q' Hj Hq'. apply lookup_app_Some in Hq' as [Hq'|[_ Hq']]; [by apply (Hl j)|].
    apply list_lookup_singleton_Some in Hq' as [_ <-]. done.
  Qed.

  Lemma pg_find_ok h p r b : pg_ok h p -> small r -> exists p', pg_find lbl p r b = Ok p' /\ pg_ok (h ++ [r]) p'.
  Proof using HL.
    intros H Hr. destruct H as [HLp Hmax Hlen Hptr Hring Hsm Hsafe Hknown Hsn Hs Hmd Hstop Hnone Hcount].
    unfold pg_find, pg_add. cbn [pg_past pg_ptr pg_graph pg_L pg_md pg_max pg_stop pg_sizes pg_n].
    destruct (lookup_lt_is_Some_2 (pg_past p) (pg_ptr p) ltac:(lia)) as [cur Hcur]. rewrite Hcur.
    pose proof (take_drop_middle _ _ _ Hcur) as Hsplit.
    set (A := take (pg_ptr p) (pg_past p)) in *. set (B := drop (S (pg_ptr p)) (pg_past p)) in *.
    assert (HlA : length A = pg_ptr p) by (unfold A; rewrite take_length; lia).
    assert (HW : padded L h = cur :: B ++ A).
    { rewrite <- Hring. unfold A, B. rewrite (drop_S _ _ _ Hcur). done. }
    set (past' := <[pg_ptr p := r_id r]> (pg_past p)).
    assert (Hpast : past' = A ++ r_id r :: B).
    { unfold past'. rewrite <- Hsplit. rewrite insert_app_r_alt by lia. rewrite HlA, Nat.sub_diag. done. }
    assert (HlB : (length A + S (length B) = L)%nat).
    { rewrite <- Hlen, <- Hsplit, app_length. done. }
    set (ptr' := ((pg_ptr p + 1) mod pg_L p)%nat).
    assert (Hptr' : (ptr' < L)%nat) by (unfold ptr'; rewrite HLp; apply Nat.mod_upper_bound; lia).
    assert (Hring' : drop ptr' past' ++ take ptr' past' = padded L (h ++ [r])).
    { rewrite (padded_snoc L h r cur (B ++ A) HW), Hpast. unfold ptr'. rewrite HLp.
      destruct (decide (pg_ptr p + 1 = L)%nat) as [E|E].
      - rewrite E, Nat.mod_same by lia. assert (B = []) as -> by (apply nil_length_inv; lia).
        rewrite drop_0, take_0. by rewrite app_nil_r.
      - rewrite Nat.mod_small by lia. replace (pg_ptr p + 1)%nat with (length (A ++ [r_id r])) by (rewrite app_length; cbn; lia).
        change (A ++ r_id r :: B) with (A ++ [r_id r] ++ B). rewrite app_assoc, drop_app, take_app. by rewrite app_assoc. }
    assert (Hlen' : length past' = L) by (unfold past'; by rewrite insert_length).
    assert (Hperm : past' ≡ₚ padded L (h ++ [r])).
    { rewrite <- Hring'. rewrite <- (take_drop ptr' past') at 1. apply Permutation_app_comm. }
    assert (Hsm' : Forall small (h ++ [r])) by (apply Forall_app; split; [done|by apply Forall_singleton]).
    assert (Hin : forall x, x ∈ map r_id h -> x ∈ map r_id (h ++ [r])).
    { intros x Hx. rewrite map_app. apply elem_of_app. by left. }
    assert (Hpin : forall x, x ∈ past' -> x <> 0 -> x ∈ map r_id (h ++ [r])).
    { intros x Hx Hx0. rewrite Hperm in Hx. unfold padded in Hx. apply elem_of_list_lookup in Hx as (j & Hj). rewrite lookup_drop in Hj.
      apply elem_of_list_lookup_2 in Hj. apply elem_of_app in Hj as [Hj|Hj]; [|done].
      apply elem_of_replicate in Hj as [-> _]. done. }
    assert (Hroom : room (h ++ [r]) -> room h).
    { unfold room. rewrite app_length. cbn [length]. nia. }
    assert (Hlenz : Z.of_nat (length (h ++ [r])) = Z.of_nat (length h) + 1) by (rewrite app_length; cbn; lia).
    assert (Hsn' : forall id, <[r_id r := r_size r]> (pg_sizes p) !! id = None -> id ∉ map r_id (h ++ [r])).
    { intros id Hid. apply lookup_insert_None in Hid as [Hid Hne]. rewrite map_app. apply not_elem_of_app.
      split; [by apply Hsn|]. cbn. apply not_elem_of_cons. split; [congruence|apply not_elem_of_nil]. }
    assert (Hs' : forall id sz, <[r_id r := r_size r]> (pg_sizes p) !! id = Some sz -> last_size (h ++ [r]) (mkReq id sz 0 0 0)).
    { intros id sz Hid. apply lookup_insert_Some in Hid as [[<- <-]|[Hne Hid]].
      - exists (length h), r. cbn [r_id r_size]. split; [apply list_lookup_middle; done|]. split; [done|]. split; [done|].
        intros j q' Hj Hq'. apply lookup_lt_Some in Hq'. rewrite app_length in Hq'. cbn in Hq'. lia.
      - apply last_size_snoc; [by apply Hs|done]. }
    (* the case in which nothing is counted: no real window ends here *)
    assert (Hcur0 : cur = 0 -> (length h < L)%nat).
    { intros ->. destruct (padded_head _ _ _ _ HW) as [[_ ?]|[Hle Hc]]; [done|].
      apply fmap_Some in Hc as (q & Hq & Hq0). apply (Forall_lookup_1 _ _ _ _ Hsm) in Hq as [Hq _]. lia. }
    assert (Hcurn : cur <> 0 -> (L <= length h)%nat /\ (r_id <$> h !! (length h - L)%nat) = Some cur).
    { intros Hn. destruct (padded_head _ _ _ _ HW) as [[? _]|?]; done. }
    assert (Hother : forall y, y <> 0 -> y <> cur ->
      windows L (h ++ [r]) y = windows L h y /\ followers L (h ++ [r]) y = followers L h y /\
      forall b, follows L (h ++ [r]) y b = follows L h y b).
    { intros y Hy Hyc.
      assert (Hno : ~ (L <= length h /\ (r_id <$> h !! (length h - L)) = Some y)%nat).
      { intros [Hle Hc]. destruct (padded_head _ _ _ _ HW) as [[_ ?]|[_ Hc']]; [lia|]. congruence. }
      split_and!.
      - destruct (windows_snoc L h r y) as [->|]; [|lia]. rewrite decide_False; [by rewrite app_nil_r|]. tauto.
      - rewrite followers_snoc, decide_False by done. lia.
      - intros b0. rewrite follows_snoc, decide_False by done. lia. }
    destruct (negb (lbl (pg_n p)) && bool_decide (cur = 0)) eqn:Elbl.
    { apply andb_true_iff in Elbl as [_ Ec]. apply bool_decide_eq_true in Ec.
      eexists. split; [done|]. split; cbn [pg_past pg_ptr pg_graph pg_L pg_md pg_max pg_stop pg_sizes pg_n]; try done.
      - intros y g b0 Hg Hb0. apply Hin. by apply (Hknown y g).
      - rewrite Hlenz. nia.
      - auto.
      - intros Hro y Hy Hg. destruct (Hother y Hy ltac:(congruence)) as (-> & _). apply Hnone; auto.
      - intros Hro y g Hy Hg. destruct (Hother y Hy ltac:(congruence)) as (_ & -> & Hf).
        destruct (Hcount (Hroom Hro) y g Hy Hg) as (? & ? & Hc). split_and!; try done. intros b0. by rewrite Hf. }
    set (node := if decide (cur = 0) then None else pg_graph p !! cur).
    destruct (pg_stop p) eqn:Estop.
    - (* recording has stopped *)
      assert (Hnr : ~ room (h ++ [r])) by (intros Hro; specialize (Hstop (Hroom Hro)); done).
      destruct node as [g|] eqn:Enode.
      + assert (Hg : pg_graph p !! cur = Some g) by (unfold node in Enode; by destruct (decide (cur = 0))).
        destruct (count_safe true past' g (pg_md p) (Hsafe _ _ Hg)) as (g' & md' & w & -> & Hsg & Hmd' & Hk). cbn [rbind].
        eexists. split; [done|]. split; cbn [pg_past pg_ptr pg_graph pg_L pg_md pg_max pg_stop pg_sizes pg_n]; try done.
        * intros y g0 Hg0. apply lookup_insert_Some in Hg0 as [[<- <-]|[_ Hg0]]; [done|by apply (Hsafe y)].
        * intros y g0 b0 Hg0 Hb0. apply lookup_insert_Some in Hg0 as [[<- <-]|[_ Hg0]]; [|by apply Hin, (Hknown y g0)].
          destruct (Hk b0 Hb0) as [Hb1|[Hb1 Hb2]]; [by apply Hin, (Hknown cur g)|by apply Hpin].
        * rewrite Hlenz. rewrite Hlen' in Hmd'. lia.
      + eexists. split; [done|]. split; cbn [pg_past pg_ptr pg_graph pg_L pg_md pg_max pg_stop pg_sizes pg_n]; try done.
        * intros y g b0 Hg Hb0. apply Hin. by apply (Hknown y g).
        * rewrite Hlenz. nia.
    - set (start := match node with Some g => Some (g, pg_md p) | None => Some (mkGn pq_empty 0, pg_md p + 32) end).
      assert (Est : exists g md0, start = Some (g, md0) /\ safe (gn_pq g) /\ pg_md p <= md0 <= pg_md p + 32 /\
        (forall b0, is_Some (pq_pri (gn_pq g) !! b0) -> b0 ∈ map r_id h) /\
        (room h -> cur <> 0 -> gn_total g = followers L h cur /\ positive (pq_pri (gn_pq g)) /\
           forall b0, ctr (pq_pri (gn_pq g)) b0 = follows L h cur b0)).
      { unfold start, node. destruct (decide (cur = 0)) as [Ec|Ec].
        - eexists _, _. split; [done|]. split; [exists 0%nat; apply pq_safe_empty|]. split; [lia|]. split; [|done].
          intros b0 [? Hb0]. done.
        - destruct (pg_graph p !! cur) as [g|] eqn:Eg.
          + eexists _, _. split; [done|]. split; [by apply (Hsafe cur)|]. split; [lia|]. split; [by intros; eapply Hknown|].
            intros Hro _. by apply Hcount.
          + eexists _, _. split; [done|]. split; [exists 0%nat; apply pq_safe_empty|]. split; [lia|]. split.
            * intros b0 [? Hb0]. done.
            * intros Hro _. specialize (Hnone Hro cur Ec Eg). unfold followers, follows. rewrite Hnone. cbn.
              split; [lia|]. split; [intros ? ?; done|]. done. }
      destruct Est as (g & md0 & -> & Hsg0 & Hmd0 & Hkn0 & Hex0).
      destruct (count_safe false past' g md0 Hsg0) as (g' & md' & w & Ecount & Hsg & Hmd' & Hk).
      rewrite Ecount. cbn [rbind]. rewrite Hlen' in Hmd'.
      assert (Hmdb : md' <= 32 * (Z.of_nat L + 1) * Z.of_nat (length (h ++ [r]))) by (rewrite Hlenz; nia).
      assert (Hnew : room (h ++ [r]) -> cur <> 0 -> gn_total g' = followers L (h ++ [r]) cur /\ positive (pq_pri (gn_pq g')) /\
           forall b0, ctr (pq_pri (gn_pq g')) b0 = follows L (h ++ [r]) cur b0).
      { intros Hro Hc0. destruct (Hcurn Hc0) as [Hle Hc]. destruct (Hex0 (Hroom Hro) Hc0) as (Ht & Hpos & Hct).
        assert (Hz : 0 ∉ past').
        { rewrite Hperm, padded_full by (rewrite app_length; lia). intros Hz. apply elem_of_list_fmap in Hz as (q & Hq0 & Hq).
          apply elem_of_list_lookup in Hq as (j & Hq). rewrite lookup_drop in Hq.
          apply (Forall_lookup_1 _ _ _ _ Hsm') in Hq as [Hq _]. lia. }
        destruct (count_exact past' Hz g md0 g' md' w Hsg0 Hpos Ecount) as (_ & Ht' & Hpos' & Hct').
        split; [|split; [done|]].
        - rewrite followers_snoc, decide_True by done. rewrite Ht', Ht, Hlen'. done.
        - intros b0. rewrite follows_snoc, decide_True by done. rewrite Hct', Hct. f_equal.
          rewrite (cnt_perm _ _ _ Hperm), padded_full by (rewrite app_length; lia). rewrite cnt_times. do 2 f_equal.
          rewrite app_length. cbn [length]. lia. }
      eexists. split; [done|]. split; cbn [pg_past pg_ptr pg_graph pg_L pg_md pg_max pg_stop pg_sizes pg_n]; try done.
      + intros y g0 Hg0. apply lookup_insert_Some in Hg0 as [[<- <-]|[_ Hg0]]; [done|by apply (Hsafe y)].
      + intros y g0 b0 Hg0 Hb0. apply lookup_insert_Some in Hg0 as [[<- <-]|[_ Hg0]]; [|by apply Hin, (Hknown y g0)].
        destruct (Hk b0 Hb0) as [Hb1|[Hb1 Hb2]]; [by apply Hin, Hkn0|by apply Hpin].
      + intros Hro. rewrite bool_decide_false; [by rewrite andb_false_r|]. unfold room in Hro. lia.
      + intros Hro y Hy Hg. apply lookup_insert_None in Hg as [Hg Hyc]. destruct (Hother y Hy ltac:(congruence)) as (-> & _).
        apply Hnone; auto.
      + intros Hro y g0 Hy Hg0. apply lookup_insert_Some in Hg0 as [[<- <-]|[Hyc Hg0]]; [by apply Hnew|].
        destruct (Hother y Hy ltac:(congruence)) as (_ & -> & Hf).
        destruct (Hcount (Hroom Hro) y g0 Hy Hg0) as (? & ? & Hc). split_and!; try done. intros b0. by rewrite Hf.
  Qed.
End Inv.

(** ** Reading the graph *)
Section List.
  Context (above : Z -> Z -> bool).

  Lemma pops_safe fuel : forall q total acc, safe q -> (pq_sz q <= fuel)%nat ->
    Forall (fun x => exists p, pq_pri q !! x = Some p /\ above p total = true) acc ->
    exists q' l, pg_pops above fuel q total acc = Ok (q', l) /\ safe q' /\ pq_pri q' = pq_pri q /\
      Forall (fun x => exists p, pq_pri q !! x = Some p /\ above p total = true) l.
  Proof.
    induction fuel as [|fuel IH]; intros q total acc Hs Hf Hacc;
      destruct (pop_safe q Hs) as (q1 & o & E & Hs1 & Hpri & Ho); cbn [pg_pops]; rewrite E; cbn [rbind].
    - destruct o as [x|].
      + destruct Ho as [_ Ho]. lia.
      + exists q1, acc. split_and!; done.
    - destruct o as [x|]; [|exists q1, acc; split_and!; done].
      destruct Ho as [[p Hx] Hsz]. unfold pq_getpri. rewrite Hpri, Hx. cbn [rbind].
      destruct (above p total) eqn:Ea; [|exists q1, acc; split_and!; done].
      destruct (IH q1 total (x :: acc) Hs1 ltac:(lia)) as (q' & l & -> & Hs' & Hpri' & Hl).
      { apply Forall_cons. rewrite Hpri. split; [eauto|done]. }
      exists q', l. rewrite Hpri in *. split_and!; done.
  Qed.

  Lemma back_safe l : forall q, safe q -> Forall (fun x => is_Some (pq_pri q !! x)) l ->
    exists q', pg_back q l = Ok q' /\ safe q' /\ pq_pri q' = pq_pri q.
  Proof.
    induction l as [|x l IH]; intros q Hs Hl.
    { exists q. split_and!; done. }
    apply Forall_cons in Hl as [[p Hx] Hl]. cbn [pg_back]. unfold pq_getpri. rewrite Hx. cbn [rbind].
    destruct (insert_safe q x p Hs) as (q1 & -> & Hs1 & Hpri & _). cbn [rbind].
    assert (Hpri1 : pq_pri q1 = pq_pri q) by (rewrite Hpri; by apply insert_id).
    destruct (IH q1 Hs1) as (q2 & -> & Hs2 & Hpri2); [by rewrite Hpri1|].
    exists q2. rewrite Hpri2. split_and!; done.
  Qed.

  Lemma pg_list_ok L max h p r : pg_ok L max h p ->
    exists p' l, pg_list above p r = Ok (p', l) /\ pg_ok L max h p' /\ pg_sizes p' = pg_sizes p /\
      Forall (fun x => x ∈ map r_id h /\
        (room L max h -> r_id r <> 0 -> above (follows L h (r_id r) x) (followers L h (r_id r)) = true)) l.
  Proof.
    intros H. unfold pg_list. destruct (pg_graph p !! r_id r) as [g|] eqn:Eg; [|exists p, []; split_and!; done].
    destruct (pops_safe (pq_sz (gn_pq g)) (gn_pq g) (gn_total g) []) as (q & l & -> & Hs & Hpri & Hl);
      [by eapply gk_safe|done|done|]. cbn [rbind].
    destruct (back_safe l q Hs) as (q' & -> & Hs' & Hpri').
    { eapply Forall_impl; [exact Hl|]. intros x (v & Hv & _). rewrite Hpri, Hv. eauto. }
    cbn [rbind]. eexists _, l. split; [done|]. rewrite Hpri in Hpri'. split; [|split; [done|]].
    - destruct H as [HLp Hmax Hlen Hptr Hring Hsm Hsafe Hknown Hsn Hsz Hmd Hstop Hnone Hcount].
      split; cbn [pg_past pg_ptr pg_graph pg_L pg_md pg_max pg_stop pg_sizes pg_n]; try done.
      + intros y g0 Hg0. apply lookup_insert_Some in Hg0 as [[<- <-]|[_ Hg0]]; [done|by apply (Hsafe y)].
      + intros y g0 b Hg0. apply lookup_insert_Some in Hg0 as [[<- <-]|[_ Hg0]]; [|by apply (Hknown y)].
        cbn [gn_pq]. rewrite Hpri'. by apply (Hknown (r_id r)).
      + intros Hro y Hy Hg0. apply lookup_insert_None in Hg0 as [Hg0 _]. by apply Hnone.
      + intros Hro y g0 Hy Hg0. apply lookup_insert_Some in Hg0 as [[<- <-]|[_ Hg0]]; [|by apply Hcount].
        cbn [gn_pq gn_total]. rewrite Hpri'. by apply Hcount.
    - eapply Forall_impl; [exact Hl|]. intros x (v & Hv & Ha). split.
      + eapply (gk_known _ _ _ _ H); [exact Eg|]. rewrite Hv. eauto.
      + intros Hro H0. destruct (gk_count _ _ _ _ H Hro _ _ H0 Eg) as (Ht & _ & Hc).
        rewrite <- Hc, <- Ht. unfold ctr. by rewrite Hv.
  Qed.
End List.

Lemma int32_id x : 0 <= x < 2 ^ 31 -> int32 x = x.
Proof. intros H. unfold int32. rewrite Z.mod_small by lia. lia. Qed.

Lemma u64_id x : 0 <= x < 2 ^ 31 -> u64 x = x.
Proof. intros H. unfold u64. rewrite Z.mod_small by lia. lia. Qed.

Lemma pg_init_ok L max : (0 < L)%nat -> 0 < max -> pg_ok L max [] (pg_init L max).
Proof.
  intros HL Hm. unfold pg_init. split; cbn [pg_past pg_ptr pg_graph pg_L pg_md pg_max pg_stop pg_sizes pg_n]; try done.
  - apply replicate_length.
  - intros id _. apply not_elem_of_nil.
  - cbn. lia.
Qed.

Section PgRun.
  Context {S : Type} (pol : policy) (O : ops S) (cap md : Z) (P : req -> Prop) (R : S -> abs -> Prop).
  Context (HS : simulation pol O cap md P R).
  Context (lbl : nat -> bool) (above : Z -> Z -> bool) (L : nat) (max : Z).
  Hypothesis (HL : (0 < L)%nat).
  Hypothesis (HP : forall r r', r_size r = r_size r' -> P r -> P r').

  Definition pg_good (r : req) : Prop := P r /\ small r /\ r_size r + md <= cap.
  Definition pg_I (h : list req) (p : pg) : Prop := pg_ok L max h p /\ Forall pg_good h.
  Definition pg_J (h : list req) (r : req) (p : pg) : Prop := pg_ok L max (h ++ [r]) p /\ Forall pg_good (h ++ [r]).

  Lemma pg_run_ok rs h s p a : pg_I h p -> Forall pg_good rs -> R s a -> abs_ok cap md a ->
    exists s' p' hits a', pf_run O (PG lbl above O) (s, p) rs = Ok (s', p', hits) /\
      abs_prun pol cap md (pg_want L max above) h a rs hits a' /\ pg_I (h ++ rs) p' /\ R s' a' /\ abs_ok cap md a'.
  Proof using HS HL HP.
    intros HI HF HR Ha.
    refine (pf_run_ok pol O cap md P R HS (PG lbl above O) (pg_want L max above) pg_I pg_J pg_good _ _ _ rs h s p a HI HF HR Ha).
    - by intros r [].
    - intros h0 q r b [Hq HF0] Hr. destruct (pg_find_ok lbl L max HL h0 q r b Hq) as (q' & E & Hq').
      { apply Hr. }
      exists q'. split; [exact E|]. split; [done|]. apply Forall_app. split; [done|]. by apply Forall_singleton.
    - intros h0 q r s0 a0 [Hq HFq] Hr HR0 Ha0. cbn [PG pf_prefetch]. unfold pg_prefetch.
      destruct (pg_list_ok above L max (h0 ++ [r]) q r Hq) as (q' & l & -> & Hq' & Esz & Hl). cbn [rbind]. rewrite Esz.
      assert (Hx : Forall (fun x => x = r_id (pg_req (pg_sizes q) r x) /\ last_size (h0 ++ [r]) (pg_req (pg_sizes q) r x) /\
        P (pg_req (pg_sizes q) r x) /\ r_size (pg_req (pg_sizes q) r x) + md <= cap) l).
      { eapply Forall_impl; [exact Hl|]. intros x [Hx _]. cbn beta.
        assert (Hid : 0 < x < 2 ^ 31).
        { apply elem_of_list_fmap in Hx as (w & -> & Hw). rewrite Forall_forall in HFq. destruct (HFq w Hw) as (_ & [Hw1 _] & _). done. }
        unfold pg_req. rewrite int32_id, u64_id by lia.
        destruct (pg_sizes q !! x) as [sz|] eqn:Ex.
        2:{ exfalso. by apply (gk_size_none _ _ _ _ Hq x Ex). }
        destruct (gk_size _ _ _ _ Hq x sz Ex) as (i & w & Hw & Hwid & Hwsz & Hlast). cbn [r_id r_size] in Hwid, Hwsz, Hlast.
        pose proof (Forall_lookup_1 _ _ _ _ HFq Hw) as (HPw & [_ Hwz] & Hwc).
        cbn [default]. unfold id. rewrite int32_id by lia. split; [done|]. split; [|split].
        - exists i, w. cbn [r_id r_size]. split_and!; done.
        - eapply HP; [|exact HPw]. cbn [r_size]. done.
        - cbn [r_size]. lia. }
      destruct (fills_ok pol O cap md P R HS (map (pg_req (pg_sizes q) r) l) s0 a0 Ha0 HR0) as (s1 & a1 & -> & Hf & HR1 & Ha1).
      { apply Forall_fmap. eapply Forall_impl; [exact Hx|]. intros x (_ & _ & ? & ?). done. }
      cbn [rbind]. eexists s1, q', _, a1. split; [done|]. split; [by split|]. split; [|split; [exact Hf|done]].
      unfold pg_want. apply Forall_fmap. rewrite Forall_forall in *. intros x Hin. cbn [compose].
      destruct (Hx x Hin) as (Eid & Hls & _). destruct (Hl x Hin) as (_ & Hab).
      split; [done|]. rewrite <- Eid. intros Hro. apply Hab; [exact Hro|]. destruct Hr as (_ & [Hr0 _] & _). lia.
  Qed.
End PgRun.
