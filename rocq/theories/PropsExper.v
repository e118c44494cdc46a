(** C83: the experimental statistics of the analyzer. *)
From stdpp Require Import gmap list numbers fin_maps sorting.
From Verif Require Import Base ModelAnalyzer SpecAnalyzer AnalyzerFacts ModelExper SpecExper.
Open Scope Z_scope.

(** * Lifetimes *)
Lemma visits_app x l2 : forall l1 i, visits x i (l1 ++ l2) = visits x i l1 ++ visits x (i + Z.of_nat (length l1)) l2.
Proof.
  induction l1 as [|q l1 IH]; intros i; cbn [app visits length]; [by rewrite Z.add_0_r|].
  rewrite IH, <- app_assoc. do 3 f_equal. lia.
Qed.
Lemma visits_range x tr : forall i v, v ∈ visits x i tr -> i <= v.1 < i + Z.of_nat (length tr) /\ exists q, q ∈ tr /\ x_time q = v.2.
Proof.
  induction tr as [|q tr IH]; intros i v H; cbn in H; [by inversion H|]. apply elem_of_app in H as [H|H].
  - destruct (decide _); [|by inversion H]. apply elem_of_list_singleton in H as ->. cbn. split; [lia|]. exists q. split; [apply elem_of_list_here|done].
  - destruct (IH _ _ H) as [H1 (q' & H2 & H3)]. cbn [length]. split; [lia|]. exists q'. split; [by apply elem_of_list_further|done].
Qed.

Definition life_ok (s : life) (pre : list xreq) : Prop :=
  lf_n s = Z.of_nat (length pre) /\ forall x,
    match first_last x pre with
    | Some (v, w) => if decide (v.2 < 86400) then lf_clock s !! x = Some (v.2, w.2) /\ lf_logic s !! x = Some (v.1, w.1)
                     else lf_clock s !! x = None /\ lf_logic s !! x = None
    | None => lf_clock s !! x = None /\ lf_logic s !! x = None
    end.

Lemma first_last_snoc x pre q :
  first_last x (pre ++ [q]) =
    if decide (x_id q = x) then
      Some (default (Z.of_nat (length pre) + 1, x_time q) (fst <$> first_last x pre), (Z.of_nat (length pre) + 1, x_time q))
    else first_last x pre.
Proof.
  unfold first_last. rewrite visits_app. cbn [visits]. rewrite app_nil_r.
  replace (1 + Z.of_nat (length pre)) with (Z.of_nat (length pre) + 1) by lia.
  destruct (decide (x_id q = x)); [|by rewrite app_nil_r].
  destruct (visits x 1 pre) as [|v vs]; cbn; [done|]. by rewrite last_snoc.
Qed.

Lemma first_last_In x pre v w : first_last x pre = Some (v, w) -> exists q, q ∈ pre /\ x_time q = v.2.
Proof.
  unfold first_last. destruct (visits x 1 pre) as [|v0 vs] eqn:E; [done|]. intros [= <- _].
  destruct (visits_range x pre 1 v0) as [_ H]; [rewrite E; apply elem_of_list_here|]. exact H.
Qed.

Lemma life_add_ok s pre q : life_ok s pre -> Forall (fun y => x_time y <= x_time q) pre ->
  exists s', life_add s q = Ok s' /\ life_ok s' (pre ++ [q]).
Proof.
  intros [Hn H] Hs. unfold life_add. assert (Hq := H (x_id q)).
  assert (Hl : lf_n s + 1 = Z.of_nat (length (pre ++ [q]))) by (rewrite app_length; cbn; lia).
  destruct (first_last (x_id q) pre) as [[v w]|] eqn:E.
  - destruct (decide (v.2 < 86400)) as [Hd|Hd]; destruct Hq as [-> Hg].
    + rewrite Hg. eexists. split; [done|]. split; [done|]. intros x. cbn. rewrite first_last_snoc.
      destruct (decide (x_id q = x)) as [<-|Hx].
      * rewrite E. cbn. rewrite decide_True by done. rewrite !lookup_insert, Hn. done.
      * rewrite !lookup_insert_ne by done. apply H.
    + rewrite decide_False.
      2: { destruct (first_last_In _ _ _ _ E) as (y & Hy & Ey). rewrite Forall_forall in Hs. specialize (Hs y Hy). lia. }
      eexists. split; [done|]. split; [done|]. intros x. cbn. rewrite first_last_snoc.
      destruct (decide (x_id q = x)) as [<-|Hx]; [|apply H]. assert (Hq := H (x_id q)). rewrite E in Hq |- *. cbn. rewrite decide_False in * by done. done.
  - destruct Hq as [-> Hg]. destruct (decide (x_time q < 86400)) as [Hd|Hd]; eexists; (split; [done|]); (split; [done|]); intros x; cbn; rewrite first_last_snoc;
      destruct (decide (x_id q = x)) as [<-|Hx].
    + rewrite E. cbn. rewrite decide_True by done. rewrite !lookup_insert, Hn. done.
    + rewrite !lookup_insert_ne by done. apply H.
    + assert (Hq := H (x_id q)). rewrite E in Hq |- *. cbn. rewrite decide_False by done. done.
    + apply H.
Qed.

Lemma life_run_ok tr : forall s pre, life_ok s pre -> in_order (pre ++ tr) ->
  exists s', life_run s tr = Ok s' /\ life_ok s' (pre ++ tr).
Proof.
  induction tr as [|q tr IH]; intros s pre H Ho; cbn [life_run].
  - exists s. by rewrite app_nil_r.
  - destruct (life_add_ok s pre q H) as (s1 & E & H1).
    { clear -Ho. induction pre as [|y pre IH]; [done|]. cbn in Ho. inversion Ho as [|? ? Ho' Hf]; subst. constructor; [|by apply IH].
      rewrite Forall_forall in Hf. apply Hf. apply elem_of_app. right. apply elem_of_list_here. }
    rewrite E. cbn [rbind]. destruct (IH s1 (pre ++ [q]) H1) as (s2 & E2 & H2); [by rewrite <- app_assoc|].
    exists s2. split; [done|]. by rewrite <- app_assoc in H2.
Qed.

Lemma hist_count f l b : default 0 (hist f l !! b) = Z.of_nat (length (filter (fun p => f p.2 = b) l)).
Proof.
  unfold hist. induction l as [|p l IH] using rev_ind; [done|]. rewrite foldl_app, filter_app, app_length. cbn [foldl].
  set (m := foldl _ _ l) in *. rewrite filter_cons, filter_nil. destruct (decide (f p.2 = b)) as [Hb|Hb].
  - subst b. cbn [length]. destruct (m !! f p.2) as [k|] eqn:E; rewrite lookup_insert; cbn in *; lia.
  - cbn [length]. rewrite Nat.add_0_r, <- IH. destruct (m !! f p.2); rewrite lookup_insert_ne by done; done.
Qed.
Lemma filter_keys {A} (P : Z * A -> Prop) (Q : Z -> Prop) `{forall p, Decision (P p)} `{forall x, Decision (Q x)} (l : list (Z * A)) :
  (forall p, p ∈ l -> P p <-> Q p.1) -> length (filter P l) = length (filter Q l.*1).
Proof.
  induction l as [|p l IH]; intros H1; [done|]. rewrite fmap_cons, !filter_cons.
  assert (Hp := H1 p (elem_of_list_here _ _)). assert (Hl := IH (fun p' H2 => H1 p' (elem_of_list_further _ _ _ H2))).
  destruct (decide (P p)), (decide (Q p.1)); cbn [length]; tauto || lia.
Qed.

(** The .lifetime file: the number at label [b] (0 if it has no line) is the number of
    objects first requested on the first day that have this label.  The first
    part sorts objects by the seconds from their first to their last request, with a
    label of 60 for every full 10 seconds, the second by the number of requests between
    them, rounded down to hundreds. *)
Theorem C83_lifetime tr : in_order tr -> exists s objs, life_run life0 tr = Ok s /\ NoDup objs /\
  (forall x, x ∈ objs <-> first_day x tr) /\
  forall b, default 0 ((life_dump s).1 !! b) = Z.of_nat (length (filter (fun x => time_alive x tr / 10 * 60 = b) objs)) /\
            default 0 ((life_dump s).2 !! b) = Z.of_nat (length (filter (fun x => reqs_alive x tr / 100 * 100 = b) objs)).
Proof.
  intros Ho. destruct (life_run_ok tr life0 [] ltac:(split; [done|intros x; split; apply lookup_empty]) Ho) as (s & E & Hn & H).
  cbn [app] in H, Hn. exists s, (map_to_list (lf_clock s)).*1. split; [exact E|]. split; [apply NoDup_fst_map_to_list|].
  assert (Hdom : forall x, first_day x tr <-> is_Some (lf_clock s !! x)).
  { intros x. specialize (H x). unfold first_day. split.
    - intros (v & w & Ef & Hd). rewrite Ef, decide_True in H by done. destruct H as [-> _]. eauto.
    - intros [y Hy]. destruct (first_last x tr) as [[v w]|]; [|destruct H; congruence].
      destruct (decide (v.2 < 86400)); [|destruct H; congruence]. eauto. }
  assert (Hmem : forall x, x ∈ (map_to_list (lf_clock s)).*1 <-> first_day x tr).
  { intros x. rewrite Hdom, elem_of_list_fmap. split.
    - intros ([k y] & -> & Hk). apply elem_of_map_to_list in Hk. eauto.
    - intros [y Hy]. exists (x, y). split; [done|]. by apply elem_of_map_to_list. }
  split; [exact Hmem|].
  assert (Hord : forall x v w, first_last x tr = Some (v, w) -> v.1 <= w.1 /\ v.2 <= w.2).
  { clear -Ho. intros x v w Ef. unfold first_last in Ef.
    assert (G : forall tr i, in_order tr -> match visits x i tr with [] => True | v :: vs => Forall (fun w => v.1 <= w.1 /\ v.2 <= w.2) vs end).
    { clear. induction tr as [|q tr IH]; intros i Hs; [done|]. cbn. inversion Hs as [|? ? Hs' Hf]; subst. destruct (decide _); [|by apply IH].
      apply Forall_forall. intros w Hw. destruct (visits_range _ _ _ _ Hw) as [H1 (y & Hy & Ey)]. rewrite Forall_forall in Hf. specialize (Hf y Hy). cbn. lia. }
    specialize (G tr 1 Ho). destruct (visits x 1 tr) as [|v0 vs]; [done|]. injection Ef as <- <-.
    destruct (last vs) as [u|] eqn:El; cbn; [|lia]. apply last_Some_elem_of in El. rewrite Forall_forall in G. by apply G. }
  intros b. cbn [life_dump fst snd]. rewrite !hist_count. split; f_equal.
  - apply filter_keys. intros [x [a c]] Hp. apply elem_of_map_to_list in Hp. cbn. specialize (H x). unfold time_alive.
    destruct (first_last x tr) as [[v w]|] eqn:Ef; [|destruct H; congruence]. destruct (decide (v.2 < 86400)); [|destruct H; congruence].
    destruct H as [H _]. rewrite Hp in H. injection H as -> ->. destruct (Hord _ _ _ Ef) as [_ Hv]. unfold clock_bucket. cbn. rewrite Z.quot_div_nonneg by lia. done.
  - assert (HP : (map_to_list (lf_logic s)).*1 ≡ₚ (map_to_list (lf_clock s)).*1).
    { apply NoDup_Permutation; [apply NoDup_fst_map_to_list|apply NoDup_fst_map_to_list|]. intros x. rewrite Hmem, Hdom, elem_of_list_fmap.
      assert (Hx : is_Some (lf_logic s !! x) <-> is_Some (lf_clock s !! x)).
      { specialize (H x). destruct (first_last x tr) as [[v w]|]; [destruct (decide (v.2 < 86400))|]; destruct H as [-> ->]; split; intros [? ?]; eauto; done. }
      rewrite <- Hx. split.
      + intros ([k y] & -> & Hk). apply elem_of_map_to_list in Hk. eauto.
      + intros [y Hy]. exists (x, y). split; [done|]. by apply elem_of_map_to_list. }
    transitivity (length (filter (fun x => reqs_alive x tr / 100 * 100 = b) (map_to_list (lf_logic s)).*1)).
    + apply filter_keys. intros [x [a c]] Hp. apply elem_of_map_to_list in Hp. cbn. specialize (H x). unfold reqs_alive.
      destruct (first_last x tr) as [[v w]|] eqn:Ef; [|destruct H; congruence]. destruct (decide (v.2 < 86400)); [|destruct H; congruence].
      destruct H as [_ H]. rewrite Hp in H. injection H as -> ->. destruct (Hord _ _ _ Ef) as [Hv _]. unfold logic_bucket. cbn. rewrite Z.quot_div_nonneg by lia. done.
    + by rewrite HP.
Qed.
(** The labels of the first part are not lifetimes: an object requested for ten
    minutes is counted under one hour. *)
Theorem C83_lifetime_refuted : exists tr s, in_order tr /\ life_run life0 tr = Ok s /\
  time_alive 7 tr = 600 /\ map_to_list (life_dump s).1 = [(3600, 1)].
Proof.
  exists [mkX 0 7 2; mkX 600 7 (-1)]. eexists. split; [repeat constructor; cbn; lia|]. split; [vm_compute; reflexivity|].
  split; vm_compute; reflexivity.
Qed.
Example C83_lifetime_ex : exists s, life_run life0 [mkX 0 7 3; mkX 5 8 (-1); mkX 25 7 (-1); mkX 86400 9 5; mkX 86500 9 (-1)] = Ok s /\
  (life_dump s).1 !! 120 = Some 1 /\ (life_dump s).1 !! 0 = Some 1 /\ (life_dump s).2 !! 0 = Some 2.
Proof. eexists. split; [vm_compute; reflexivity|]. vm_compute. done. Qed.

(** * Reuse after creation *)
(** the buckets: one per second up to an hour, one per 5 seconds after it *)
Theorem C83_bucket a : 0 <= a ->
  rtime_from_pos (pos_rt a) = (if decide (a <= 3600) then a else a / 5 * 5) /\
  forall b, 0 <= b -> pos_rt a = pos_rt b <-> (if decide (a <= 3600) then b = a else 3600 < b /\ b / 5 = a / 5).
Proof.
  intros Ha.
  assert (P : forall b, 0 <= b -> pos_rt b = if decide (b <= 3600) then b else b / 5 + 3600).
  { intros b Hb. unfold pos_rt, fine_rtime_upbound, rtime_granularity. rewrite Z.quot_div_nonneg by lia.
    destruct (decide (b > 3600)), (decide (b <= 3600)); lia. }
  split.
  - rewrite P by done. unfold rtime_from_pos, fine_rtime_upbound, rtime_granularity. change (Z.quot 3600 5) with 720.
    destruct (decide (a <= 3600)); [rewrite decide_False by lia; done|].
    assert (720 <= a / 5) by (apply Z.div_le_lower_bound; lia).
    rewrite decide_True by lia. rewrite decide_False by lia. lia.
  - intros b Hb. rewrite (P a), (P b) by done. assert (3600 < a -> 720 <= a / 5) by (intros; apply Z.div_le_lower_bound; lia).
    assert (3600 < b -> 720 <= b / 5) by (intros; apply Z.div_le_lower_bound; lia).
    destruct (decide (a <= 3600)), (decide (b <= 3600)); lia.
Qed.

(** the numbers of one bucket for the counted requests [l] *)
Definition tally (l : list seen) (p : Z) : rinfo :=
  let here b := filter (fun v => pos_rt (sn_age v) = p /\ sn_again v = b) l in
  mkRi (Z.of_nat (length (here true))) (Z.of_nat (length (here false))) 0 (zsum (sn_freq <$> here true)) 0 (zsum (sn_freq <$> here false)).

Record cf_ok (W : Z) (s : cfr) (past : list xreq) (l : list seen) : Prop := mkCfOk {
  co_warm : forall x, x ∈ cf_warm s <-> exists y, y ∈ past /\ x_id y = x /\ x_time y < W;
  co_info : forall x, cf_info s !! x =
    match last (filter (fun y => x_id y = x) past) with
    | Some y => if decide (W <= x_time y <= W + 86400) then
                  Some (mkCi (x_time y) (match filter (fun y => x_id y = x) past with z :: _ :: _ => x_time z | _ => -1 end)
                             (Z.of_nat (length (filter (fun y => x_id y = x) past)) - 1))
                else None
    | None => None
    end;
  co_arr : forall p, cf_arr s p = tally l p }.

Lemma zsum_app l1 l2 : zsum (l1 ++ l2) = zsum l1 + zsum l2.
Proof. unfold zsum. induction l1 as [|x l1 IH]; cbn; [done|]. rewrite IH. lia. Qed.

Lemma tally_snoc l v p :
  tally (l ++ [v]) p =
    let r := tally l p in
    if decide (p = pos_rt (sn_age v)) then
      if sn_again v then mkRi (ri_cnt r + 1) (ri_stop r) 0 (ri_freq r + sn_freq v) 0 (ri_stop_freq r)
      else mkRi (ri_cnt r) (ri_stop r + 1) 0 (ri_freq r) 0 (ri_stop_freq r + sn_freq v)
    else r.
Proof.
  unfold tally. cbn [ri_cnt ri_stop ri_freq ri_stop_freq]. rewrite !filter_app, !filter_cons, !filter_nil.
  destruct (decide (p = pos_rt (sn_age v))) as [->|Hp].
  - destruct (sn_again v).
    + rewrite decide_True by done. rewrite decide_False by (intros [_ ?]; done). rewrite !fmap_app, !app_length, !zsum_app. cbn. f_equal; lia.
    + rewrite decide_False by (intros [_ ?]; done). rewrite decide_True by done. rewrite !fmap_app, !app_length, !zsum_app. cbn. f_equal; lia.
  - rewrite !decide_False by (intros [? _]; congruence). rewrite !app_nil_r. done.
Qed.

Lemma last_earliest (past : list xreq) (y : xreq) (P : xreq -> Prop) `{forall q, Decision (P q)} :
  StronglySorted (fun a b => x_time b <= x_time a) past -> last (filter P past) = Some y ->
  forall z, z ∈ past -> P z -> x_time y <= x_time z.
Proof.
  intros Hs Hl z Hz Pz. induction past as [|q past IH]; [by inversion Hz|]. inversion Hs as [|? ? Hs' Hf]; subst.
  rewrite filter_cons in Hl. apply elem_of_cons in Hz as [->|Hz].
  - rewrite decide_True in Hl by done. destruct (filter P past) as [|u us] eqn:E; [cbn in Hl; injection Hl as <-; lia|].
    assert (Hy : y ∈ filter P past) by (rewrite E; apply last_Some_elem_of; by rewrite last_cons_cons in Hl).
    apply elem_of_list_filter in Hy as [_ Hy]. rewrite Forall_forall in Hf. by apply Hf.
  - apply IH; [done| |done]. destruct (decide (P q)); [|done].
    destruct (filter P past) as [|u us] eqn:E; [|by rewrite last_cons_cons in Hl].
    exfalso. assert (Hu : z ∈ filter P past) by (apply elem_of_list_filter; done). rewrite E in Hu. inversion Hu.
Qed.

Lemma cf_add_ok W s past l q :
  cf_ok W s past l -> StronglySorted (fun a b => x_time b <= x_time a) (q :: past) ->
  Forall (fun y => 0 <= x_time y < 2 ^ 31) (q :: past) -> x_next q <> -2 -> x_time q - born past q < 86400 * 80 ->
  exists s', cf_add W s q = Ok s' /\ cf_ok W s' (q :: past) (l ++ if decide (counted W past q) then [see past q] else []).
Proof.
  intros [Hw Hi Ha] Hs Hb Hn Hage. inversion Hs as [|? ? Hs' Hf]; subst. inversion Hb as [|? ? Hq Hb']; subst.
  set (U := uses_of past q) in *.
  assert (HU : forall y, last U = Some y -> y ∈ past /\ x_id y = x_id q /\ x_time y <= x_time q).
  { intros y Hy. apply last_Some_elem_of in Hy. apply elem_of_list_filter in Hy as [? ?]. rewrite Forall_forall in Hf. auto. }
  assert (HE : forall y, last U = Some y -> forall z, z ∈ past -> x_id z = x_id q -> x_time y <= x_time z).
  { intros y Hy. apply (last_earliest past y (fun y => x_id y = x_id q) Hs' Hy). }
  assert (HN : last U = None -> U = []) by (intros; by apply last_None).
  assert (Hwq : x_id q ∈ cf_warm s <-> exists y, last U = Some y /\ x_time y < W).
  { rewrite Hw. split.
    - intros (z & Hz & Ez & Hlt). destruct (last U) as [y|] eqn:E; [exists y; split; [done|]; specialize (HE y eq_refl z Hz Ez); lia|].
      exfalso. assert (Hu : z ∈ U) by (apply elem_of_list_filter; done). rewrite HN in Hu by done. inversion Hu.
    - intros (y & Hy & Hlt). destruct (HU y Hy) as (? & ? & _). eauto. }
  assert (Hiq := Hi (x_id q)). change (filter (fun y => x_id y = x_id q) past) with U in Hiq.
  assert (Hborn : born past q = x_time (default q (last U))) by done.
  (* what does not change when the entry of the object stays *)
  assert (Hother : forall x, x <> x_id q -> filter (fun y => x_id y = x) (q :: past) = filter (fun y => x_id y = x) past)
    by (intros x Hx; rewrite filter_cons, decide_False by congruence; done).
  assert (Hself : filter (fun y => x_id y = x_id q) (q :: past) = q :: U) by (rewrite filter_cons, decide_True by done; done).
  assert (Hlast : last (q :: U) = Some (default q (last U))) by (destruct U as [|u us] eqn:EU; [done|rewrite last_cons_cons; destruct (last (u :: us)) eqn:E; [done|apply last_None in E; done]]).
  assert (Hskip : ~ counted W past q -> cf_info s !! x_id q = None -> forall x, cf_info s !! x =
    match last (filter (fun y => x_id y = x) (q :: past)) with
    | Some y => if decide (W <= x_time y <= W + 86400) then
                  Some (mkCi (x_time y) (match filter (fun y => x_id y = x) (q :: past) with z :: _ :: _ => x_time z | _ => -1 end)
                             (Z.of_nat (length (filter (fun y => x_id y = x) (q :: past))) - 1))
                else None
    | None => None
    end).
  { intros Hc Hnone x. destruct (decide (x = x_id q)) as [->|Hx]; [|by rewrite Hother, Hi].
    rewrite Hself, Hlast, Hnone. rewrite decide_False; [done|]. unfold counted in Hc. by rewrite Hborn in Hc. }
  assert (Hwkeep : W <= x_time q \/ x_id q ∈ cf_warm s -> forall x, x ∈ cf_warm s <-> exists y, y ∈ q :: past /\ x_id y = x /\ x_time y < W).
  { intros Ho x. rewrite Hw. split.
    - intros (y & Hy & ? & ?). exists y. split; [by apply elem_of_list_further|done].
    - intros (y & Hy & Ey & Hlt). apply elem_of_cons in Hy as [->|Hy]; [|eauto]. destruct Ho as [|Ho]; [lia|]. rewrite <- Ey. by apply Hw. }
  unfold cf_add. destruct (decide (x_time q < W)) as [Hlt|Hlt].
  { eexists. split; [done|].
    assert (Hc : ~ counted W past q).
    { unfold counted. rewrite Hborn. destruct (last U) as [y|] eqn:E; cbn; [destruct (HU y eq_refl) as (_ & _ & ?)|]; lia. }
    rewrite decide_False by done. rewrite app_nil_r. constructor; cbn.
    - intros x. rewrite elem_of_union, elem_of_singleton, Hw. split.
      + intros [->|(y & ? & ? & ?)]; [exists q; split; [apply elem_of_list_here|done]|exists y; split; [by apply elem_of_list_further|done]].
      + intros (y & Hy & Ey & ?). apply elem_of_cons in Hy as [->|Hy]; eauto.
    - apply Hskip; [done|]. rewrite Hiq. unfold counted in Hc. rewrite Hborn in Hc. destruct (last U) as [y|]; [|done]. by rewrite decide_False.
    - done. }
  destruct (decide (x_id q ∈ cf_warm s)) as [Hin|Hin].
  { eexists. split; [done|]. destruct (proj1 Hwq Hin) as (y & Hy & Hyw).
    assert (Hc : ~ counted W past q) by (unfold counted; rewrite Hborn, Hy; cbn; lia).
    rewrite decide_False by done. rewrite app_nil_r. constructor; [apply Hwkeep; by right| |done].
    apply Hskip; [done|]. rewrite Hiq, Hy. rewrite decide_False by lia. done. }
  rewrite decide_False by done.
  assert (Hcount : forall it, counted W past q -> ci_create it = born past q -> (ci_last it = -1 \/ ci_last it = x_time q) ->
    ci_freq it = Z.of_nat (length U) -> ci_last it = (match q :: U with z :: _ :: _ => x_time z | _ => -1 end) ->
    exists s', cf_count s q it = Ok s' /\ cf_ok W s' (q :: past) (l ++ [see past q])).
  { intros it Hc E1 E2 E3 E4. unfold cf_count. rewrite i32_small by lia. rewrite E1.
    assert (Hge : 0 <= x_time q - born past q).
    { rewrite Hborn. destruct (last U) as [y|] eqn:E; cbn; [destruct (HU y eq_refl) as (_ & _ & ?)|]; lia. }
    rewrite decide_False by lia. rewrite decide_False.
    2: { unfold pos_rt, reuse_info_array_size, fine_rtime_upbound, rtime_granularity, max_reuse_rtime. rewrite Z.quot_div_nonneg by lia.
         assert ((x_time q - born past q) / 5 < 86400 * 16) by (apply Z.div_lt_upper_bound; lia).
         change (86400 * 80 / 5) with (86400 * 16). destruct (decide _); lia. }
    assert (E5 : (if decide (ci_last it = -1) then 0 else x_time q - ci_last it) = 0) by (destruct (decide _); lia).
    rewrite E5. eexists. split; [done|]. constructor; cbn [cf_warm cf_info cf_arr].
    - apply Hwkeep. left. lia.
    - intros x. destruct (decide (x = x_id q)) as [->|Hx].
      + rewrite lookup_insert, Hself, Hlast, decide_True by (by unfold counted in Hc; rewrite Hborn in Hc).
        f_equal. destruct it as [ic il ifr]; cbn in *. subst. rewrite Hborn. f_equal. lia.
      + rewrite lookup_insert_ne, Hother, Hi by done. done.
    - intros p. rewrite tally_snoc. cbv zeta. rewrite <- !Ha. unfold see at 1. cbn [sn_age].
      destruct (decide (p = _)) as [->|Hp]; [|done].
      assert (Hz : ri_age (cf_arr s (pos_rt (x_time q - born past q))) = 0 /\ ri_stop_age (cf_arr s (pos_rt (x_time q - born past q))) = 0) by (rewrite Ha; done).
      destruct Hz as [Z1 Z2]. unfold see. cbn [sn_age sn_again sn_freq]. change (uses_of past q) with U. rewrite E3. rewrite Z1, Z2.
      unfold bool_decide. destruct (again_dec q) as [Hg|Hg]; unfold again in Hg; [rewrite decide_True by lia|rewrite decide_False by lia]; cbn; f_equal; lia. }
  destruct (cf_info s !! x_id q) as [it|] eqn:Eit.
  - destruct (last U) as [y|] eqn:E; [|done]. destruct (decide (W <= x_time y <= W + 86400)) as [Hyw|]; [|done]. injection Hiq as ->. cbn [ci_create ci_freq].
    assert (Hc : counted W past q) by (unfold counted; rewrite Hborn; done). rewrite decide_True by done.
    assert (HUne : exists u us, U = u :: us) by (destruct U as [|u us]; [done|eauto]). destruct HUne as (u & us & EU).
    rewrite i32_small by lia. apply Hcount; cbn [ci_create ci_last ci_freq]; [done|done|by right|lia|by rewrite EU].
  - unfold creation_time_window. destruct (last U) as [y|] eqn:E.
    + assert (Hyw : W <= x_time y).
      { destruct (decide (x_time y < W)) as [h|h]; [|lia]. exfalso. apply Hin, Hwq. eauto. }
      destruct (decide (W <= x_time y <= W + 86400)); [done|]. destruct (HU y eq_refl) as (_ & _ & Hle).
      rewrite decide_True by lia. eexists. split; [done|].
      assert (Hc : ~ counted W past q) by (unfold counted; rewrite Hborn; cbn; lia). rewrite decide_False by done. rewrite app_nil_r.
      constructor; [apply Hwkeep; left; lia| |done]. by apply Hskip.
    + rewrite HN in * by done. cbn in Hborn. destruct (decide (x_time q > W + 86400)).
      * eexists. split; [done|]. assert (Hc : ~ counted W past q) by (unfold counted; rewrite Hborn; cbn; lia). rewrite decide_False by done. rewrite app_nil_r.
        constructor; [apply Hwkeep; left; lia| |done]. by apply Hskip.
      * assert (Hc : counted W past q) by (unfold counted; rewrite Hborn; cbn; lia). rewrite decide_True by done.
        rewrite i32_small by lia. apply Hcount; cbn [ci_create ci_last ci_freq]; [done|done|by left|done|done].
Qed.

Lemma cf_run_ok W tr : forall s past l,
  cf_ok W s past l -> StronglySorted (fun a b => x_time b <= x_time a) past -> in_order tr ->
  (forall y q, y ∈ past -> q ∈ tr -> x_time y <= x_time q) ->
  Forall (fun y => 0 <= x_time y < 2 ^ 31) past -> Forall (fun y => 0 <= x_time y < 2 ^ 31) tr ->
  Forall (fun q => x_next q <> -2) tr -> young past tr ->
  exists s', cf_run W s tr = Ok s' /\ forall p, cf_arr s' p = tally (l ++ sights W past tr) p.
Proof.
  induction tr as [|q tr IH]; intros s past l H Hs Ho Hle Hb Hb' Hn Hy; cbn [cf_run sights].
  - exists s. split; [done|]. rewrite app_nil_r. apply H.
  - inversion Ho as [|? ? Ho' Hf]; subst. inversion Hb' as [|? ? Hq Hb'']; subst. inversion Hn; subst. destruct Hy as [Hy Hy'].
    assert (Hs' : StronglySorted (fun a b => x_time b <= x_time a) (q :: past)).
    { constructor; [done|]. apply Forall_forall. intros y Hin. apply Hle; [done|apply elem_of_list_here]. }
    destruct (cf_add_ok W s past l q H Hs' ltac:(by constructor) ltac:(done) Hy) as (s1 & E & H1).
    rewrite E. cbn [rbind]. destruct (IH s1 (q :: past) _ H1) as (s2 & E2 & Hr); try done.
    + intros y z Hin Hz. apply elem_of_cons in Hin as [->|Hin]; [rewrite Forall_forall in Hf; by apply Hf|]. apply Hle; [done|by apply elem_of_list_further].
    + by constructor.
    + exists s2. split; [done|]. intros p. rewrite Hr, <- app_assoc. done.
Qed.

(** The .createFutureReuse file.  For a trace in the order of time that says when
    objects are next requested, with ages below 80 days, nothing aborts, and the
    bucket of the ages [a] with [pos_rt a = p] (C83_bucket says which these are)
    holds how many of the counted requests of such an age come back, how many do
    not, and how often their objects had been requested before. *)
Theorem C83_reuse_partial W tr : in_order tr -> Forall (fun q => 0 <= x_time q < 2 ^ 31) tr ->
  Forall (fun q => x_next q <> -2) tr -> young [] tr ->
  exists s, cf_run W cf0 tr = Ok s /\ forall p,
    let here b := filter (fun v => pos_rt (sn_age v) = p /\ sn_again v = b) (sights W [] tr) in
    ri_cnt (cf_arr s p) = Z.of_nat (length (here true)) /\ ri_stop (cf_arr s p) = Z.of_nat (length (here false)) /\
    ri_freq (cf_arr s p) = zsum (sn_freq <$> here true) /\ ri_stop_freq (cf_arr s p) = zsum (sn_freq <$> here false) /\
    ri_age (cf_arr s p) = 0 /\ ri_stop_age (cf_arr s p) = 0.
Proof.
  intros Ho Hb Hn Hy. destruct (cf_run_ok W tr cf0 [] []) as (s & E & H); try done.
  - constructor; cbn; [|done|done]. intros x. split; [set_solver|]. intros (y & Hin & _). inversion Hin.
  - constructor.
  - intros y q Hin. inversion Hin.
  - exists s. split; [done|]. intros p. cbv zeta. rewrite H. cbn [app]. done.
Qed.
(** What is missing: the file also has a column with the summed times since the
    last request.  It is always 0 (above), as the entry of the object is brought up
    to date before the time is taken.  Here it should be 50. *)
Theorem C83_idle_refuted : exists tr s, in_order tr /\ young [] tr /\ cf_run 0 cf0 tr = Ok s /\
  zsum (sn_idle <$> filter (fun v => pos_rt (sn_age v) = 50 /\ sn_again v = true) (sights 0 [] tr)) = 50 /\
  ri_cnt (cf_arr s 50) = 1 /\ ri_age (cf_arr s 50) = 0.
Proof.
  exists [mkX 0 7 2; mkX 50 7 3; mkX 70 7 (-1)]. eexists. split; [repeat constructor; cbn; lia|].
  split; [vm_compute; repeat split|]. split; [reflexivity|]. vm_compute. done.
Qed.
(** Without the time of the next request (-2: a trace that does not say), the first
    request after the warm-up aborts. *)
Theorem C83_no_oracle_refuted W q : W <= x_time q -> x_next q = -2 -> cf_run W cf0 [q] = Err AssertFail.
Proof.
  intros H E. cbn [cf_run]. unfold cf_add. rewrite decide_False by lia. rewrite decide_False by (cbn; set_solver). rewrite decide_True by done. done.
Qed.
(** An object that is requested over 80 days or more aborts the analysis. *)
Theorem C83_long_refuted x t n1 n2 : 86400 * 80 <= t < 2 ^ 31 -> n1 <> -2 -> n2 <> -2 ->
  cf_run 0 cf0 [mkX 0 x n1; mkX t x n2] = Err AssertFail.
Proof.
  intros Ht H1 H2. cbn [cf_run]. unfold cf_add at 1. cbn [x_time x_id x_next]. rewrite decide_False by lia.
  rewrite decide_False by (cbn; set_solver). rewrite decide_False by done. cbn [cf_info cf0]. rewrite lookup_empty.
  rewrite decide_False by (unfold creation_time_window; lia). unfold cf_count at 1. cbn [ci_create x_time].
  change (i32 0 - i32 0) with 0. rewrite decide_False by lia. rewrite decide_False by (vm_compute; intros h; by apply h).
  cbn [rbind]. unfold cf_add. cbn [x_time x_id x_next cf_warm cf_info cf0]. rewrite decide_False by lia.
  rewrite decide_False by set_solver. rewrite decide_False by done. rewrite lookup_insert. unfold cf_count. cbn [ci_create x_time].
  rewrite i32_small by lia. change (i32 0) with 0. rewrite decide_False by lia. rewrite decide_True; [done|].
  unfold pos_rt, reuse_info_array_size, max_reuse_rtime. change (86400 * 80 / rtime_granularity + fine_rtime_upbound) with (86400 * 16 + 3600). unfold fine_rtime_upbound, rtime_granularity. rewrite Z.quot_div_nonneg by lia.
  assert (86400 * 16 <= (t - 0) / 5) by (apply Z.div_le_lower_bound; lia). rewrite decide_True by lia. lia.
Qed.
Example C83_reuse_ex :
  let tr := [mkX 0 1 4; mkX 10 7 3; mkX 60 7 5; mkX 61 1 9; mkX 61 7 (-1); mkX 5000 8 (-1); mkX 86411 9 8; mkX 86412 9 (-1)] in
  in_order tr /\ Forall (fun q => 0 <= x_time q < 2 ^ 31) tr /\ Forall (fun q => x_next q <> -2) tr /\ young [] tr /\
  sights 10 [] tr = [mkSeen 0 0 0 true; mkSeen 50 1 50 true; mkSeen 51 2 1 false; mkSeen 0 0 0 false].
Proof.
  cbv zeta. split; [repeat constructor; cbn; lia|]. split; [repeat constructor; cbn; lia|]. split; [repeat constructor; cbn; lia|].
  split; [vm_compute; repeat split|]. vm_compute. reflexivity.
Qed.

(** * The matrix of reuse times and ages *)
Lemma prob_count tw W es p :
  default 0 (prob_at_age tw W es !! p) =
    Z.of_nat (length (filter (fun e => W <= e_time e /\ W <= e_create e /\ (Z.quot (e_rt e) tw, Z.quot (e_time e - e_create e) tw) = p) es)).
Proof.
  unfold prob_at_age. induction es as [|e es IH] using rev_ind; [done|]. rewrite foldl_app, filter_app, app_length. cbn [foldl].
  set (m := foldl _ _ es) in *. rewrite filter_cons, filter_nil. unfold pa_add.
  destruct (decide (e_time e < W \/ e_create e < W)) as [Hw|Hw].
  { rewrite decide_False by lia. cbn [length]. rewrite IH. lia. }
  destruct (decide ((Z.quot (e_rt e) tw, Z.quot (e_time e - e_create e) tw) = p)) as [Hp|Hp].
  - rewrite decide_True by (split; [lia|split; [lia|done]]). rewrite Hp, lookup_insert. cbn [length default]. rewrite IH. cbn. lia.
  - rewrite decide_False by tauto. rewrite lookup_insert_ne by done. cbn [length]. rewrite IH. lia.
Qed.
(** The .probAtAge file: the line of windows [i], [j] gives the number of requests
    for objects created after the warm-up whose object was last requested [i] and
    first requested [j] windows of length [tw] before. *)
Theorem C83_prob_partial tw W tr i j : trace_ok tw tr -> 1 < tw -> exists k es,
  analyze tw tr = Ok (k, es) /\ es = meanings tw (start_of tr) [] tr /\
  default 0 (prob_at_age tw W es !! (i, j)) =
    Z.of_nat (length (filter (fun e => W <= e_create e /\ Z.max 0 (e_rt e) / tw = i /\ (e_time e - e_create e) / tw = j) es)).
Proof.
  intros Ht Htw. destruct (trace_ok_run tw tr Ht) as (k & E & _). exists k, (meanings tw (start_of tr) [] tr). split; [done|]. split; [done|].
  rewrite prob_count. f_equal. f_equal.
  assert (G : forall past tr t0, StronglySorted (fun a b => a_time b <= a_time a) past -> StronglySorted (fun a b => a_time a <= a_time b) tr ->
    (forall y q, y ∈ past -> q ∈ tr -> a_time y <= a_time q) ->
    Forall (fun e => e_create e <= e_time e /\ -1 <= e_rt e) (meanings tw t0 past tr)).
  { clear. intros past tr t0. revert past. induction tr as [|q tr IH]; intros past Hs Ho Hle; cbn [meanings]; [constructor|].
    inversion Ho as [|? ? Ho' Hf]; subst. constructor.
    - unfold meaning, created, rel. cbn [e_create e_time e_rt]. split.
      + destruct (last (filter _ past)) as [y|] eqn:El; cbn; [|lia]. apply last_Some_elem_of, elem_of_list_filter in El as [_ El].
        specialize (Hle y q El (elem_of_list_here _ _)). lia.
      + unfold last_use. destruct (list_find _ past) as [[n y]|] eqn:El; [|lia]. apply list_find_Some in El as (El & _).
        apply elem_of_list_lookup_2 in El. specialize (Hle y q El (elem_of_list_here _ _)). lia.
    - apply IH; [|done|].
      + constructor; [done|]. apply Forall_forall. intros y Hy. apply Hle; [done|apply elem_of_list_here].
      + intros y z Hy Hz. apply elem_of_cons in Hy as [->|Hy]; [rewrite Forall_forall in Hf; by apply Hf|]. apply Hle; [done|by apply elem_of_list_further]. }
  assert (Hall : Forall (fun e => e_create e <= e_time e /\ -1 <= e_rt e) (meanings tw (start_of tr) [] tr)).
  { apply G; [constructor| |intros ? ? H; inversion H]. destruct Ht as (_ & q0 & rest & -> & Hs & _). done. }
  clear E. induction Hall as [|e es [H1 H2] _ IH]; [done|]. rewrite !filter_cons, IH.
  assert (Hiff : (W <= e_time e /\ W <= e_create e /\ (Z.quot (e_rt e) tw, Z.quot (e_time e - e_create e) tw) = (i, j)) <->
                 (W <= e_create e /\ Z.max 0 (e_rt e) / tw = i /\ (e_time e - e_create e) / tw = j)).
  { assert (Hq : Z.quot (e_rt e) tw = Z.max 0 (e_rt e) / tw).
    { destruct (decide (e_rt e = -1)) as [->|]; [|rewrite Z.quot_div_nonneg, Z.max_r by lia; done].
      cbn. rewrite Z.div_0_l by lia. change (-1) with (- (1)). rewrite Z.quot_opp_l, Z.quot_small by lia. done. }
    rewrite Hq, Z.quot_div_nonneg by lia. split; [intros (? & ? & [= ? ?])|intros (? & ? & ?)]; repeat split; try lia. by f_equal. }
  destruct (decide (W <= e_time e /\ _)) as [h|h], (decide (W <= e_create e /\ _)) as [h'|h']; tauto || done.
Qed.
(** What is missing: a first request has no reuse time (the analyzer says -1), and
    division rounds it to window 0.  Every first request after the warm-up is
    counted as if the object had just been requested: three objects requested once
    give three reuses in (0, 0). *)
Theorem C83_prob_refuted : exists tr k es, trace_ok 300 tr /\ analyze 300 tr = Ok (k, es) /\ gaps [] tr = [] /\
  prob_at_age 300 0 es !! (0, 0) = Some 3.
Proof.
  exists [mkA 0 1 1 0 0; mkA 400 2 1 0 0; mkA 900 3 1 0 0].
  assert (Ht : trace_ok 300 [mkA 0 1 1 0 0; mkA 400 2 1 0 0; mkA 900 3 1 0 0]).
  { split; [lia|]. eexists _, _. split; [reflexivity|]. split; repeat constructor; cbn; lia. }
  destruct (trace_ok_run _ _ Ht) as (k & E & _). eexists k, _. split; [exact Ht|]. split; [exact E|]. vm_compute. done.
Qed.
