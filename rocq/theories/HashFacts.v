(** The chained hash table represents a finite map. *)
From stdpp Require Import gmap list numbers fin_maps.
From Verif Require Import Base ModelHash.
Open Scope Z_scope.

(** the objects linked from [p] up to the pointer [e] *)
Fixpoint chain (H : gmap Z hobj) (p : option Z) (l : list Z) (e : option Z) : Prop :=
  match l with
  | [] => p = e
  | a :: l => p = Some a /\ exists o, H !! a = Some o /\ chain H (ho_next o) l e
  end.

Lemma chain_app H l1 : forall p l2 e, chain H p (l1 ++ l2) e <-> exists q, chain H p l1 q /\ chain H q l2 e.
Proof.
  induction l1 as [|a l1 IH]; intros p l2 e; cbn [app chain].
  - split; [intros ?; by exists p|]. by intros (q & -> & ?).
  - split.
    + intros (-> & o & Ho & Hc). apply IH in Hc as (q & H1 & H2). exists q. eauto 10.
    + intros (q & (-> & o & Ho & Hc) & H2). split; [done|]. exists o. split; [done|]. apply IH. eauto.
Qed.
Lemma chain_frame H H' p l e : (forall a, a ∈ l -> H' !! a = H !! a) -> chain H p l e -> chain H' p l e.
Proof.
  revert p. induction l as [|a l IH]; intros p Hf; [done|]. intros (-> & o & Ho & Hc). split; [done|].
  exists o. rewrite Hf by (by left). split; [done|]. apply IH; [|done]. intros b Hb. apply Hf. by right.
Qed.
Lemma chain_in H p l e a : chain H p l e -> a ∈ l -> is_Some (H !! a).
Proof.
  revert p. induction l as [|b l IH]; intros p Hc Ha; [by apply elem_of_nil in Ha|].
  destruct Hc as (-> & o & Ho & Hc). apply elem_of_cons in Ha as [->|Ha]; eauto.
Qed.
Lemma chain_size H p l e : chain H p l e -> NoDup l -> (length l <= size H)%nat.
Proof.
  intros Hc Hnd. rewrite <- (size_dom (D := gset Z)). rewrite <- (size_list_to_set (C := gset Z) l) by done.
  apply subseteq_size. intros a Ha. apply elem_of_list_to_set in Ha. apply elem_of_dom. by eapply chain_in.
Qed.
Lemma chain_head_None H l e : chain H None l e -> l = [].
Proof. destruct l; [done|]. by intros [? _]. Qed.

Section tab.
Context (hash : Z -> Z).

Notation bk := (bucket hash).
Lemma bk_range pow id : 0 <= pow -> 0 <= bk pow id < 2 ^ pow.
Proof.
  intros Hp. unfold bucket. replace (2 ^ pow - 1) with (Z.ones pow) by (rewrite Z.ones_equiv; lia).
  rewrite Z.land_ones by done. apply Z.mod_pos_bound. lia.
Qed.

(** The table represents the set [M] of (id, address) pairs. *)
Definition tab_ok (H : gmap Z hobj) (tab : gmap Z Z) (pow : Z) (M : Z -> Z -> Prop) : Prop :=
  0 <= pow /\
  (exists ch : Z -> list Z, forall i, 0 <= i < 2 ^ pow ->
     chain H (tab !! i) (ch i) None /\ NoDup (ch i) /\ forall a, a ∈ ch i <-> exists id, M id a /\ bk pow id = i) /\
  (forall id a, M id a -> exists nx, H !! a = Some (mkHo id nx)) /\
  (forall id a b, M id a -> M id b -> a = b).

Lemma tab_ok_ext H tab pow M M' : (forall id a, M id a <-> M' id a) -> tab_ok H tab pow M -> tab_ok H tab pow M'.
Proof.
  intros He (H0 & (ch & Hch) & H1 & H2). split; [done|]. split; [|split].
  - exists ch. intros i Hi. destruct (Hch i Hi) as (? & ? & Hm). split; [done|]. split; [done|].
    intros a. rewrite Hm. by setoid_rewrite He.
  - intros id a Hm%He. eauto.
  - intros id a b Ha%He Hb%He. eauto.
Qed.

Lemma tab_ok_empty H pow : 0 <= pow -> tab_ok H ∅ pow (fun _ _ => False).
Proof.
  intros Hp. split; [done|]. split; [|done]. exists (fun _ => []). intros i Hi. rewrite lookup_empty.
  split; [done|]. split; [constructor|]. intros a. rewrite elem_of_nil. split; [done|]. by intros (? & ? & _).
Qed.

(** bucket of one id *)
Lemma tab_ok_bucket H tab pow M id : tab_ok H tab pow M -> exists l,
  chain H (tab !! bk pow id) l None /\ NoDup l /\ (length l <= size H)%nat /\
  (forall a, a ∈ l <-> exists id', M id' a /\ bk pow id' = bk pow id) /\
  (forall a, a ∈ l -> exists id' nx, M id' a /\ H !! a = Some (mkHo id' nx)).
Proof.
  intros (H0 & (ch & Hch) & H1 & H2). destruct (Hch (bk pow id) (bk_range pow id H0)) as (Hc & Hnd & Hm).
  exists (ch (bk pow id)). split; [done|]. split; [done|]. split; [by eapply chain_size|]. split; [done|].
  intros a Ha. apply Hm in Ha as (id' & Ha & _). destruct (H1 _ _ Ha) as (nx & Hnx). eauto.
Qed.

Lemma tab_ok_inj H tab pow M id id' a : tab_ok H tab pow M -> M id a -> M id' a -> id = id'.
Proof.
  intros (_ & _ & H1 & _) Ha Hb. destruct (H1 _ _ Ha) as (? & E1). destruct (H1 _ _ Hb) as (? & E2). congruence.
Qed.

(** * find *)
Lemma find_loop_spec H id l : forall p fuel, chain H p l None -> (length l <= fuel)%nat ->
  exists r, ht_find_loop fuel H p id = Ok r /\
    (forall a, r = Some a -> a ∈ l /\ exists nx, H !! a = Some (mkHo id nx)) /\
    (r = None -> forall a nx, a ∈ l -> H !! a <> Some (mkHo id nx)).
Proof.
  induction l as [|a l IH]; intros p fuel Hc Hf.
  - cbn in Hc. subst p. exists None. split; [by destruct fuel|]. split; [done|]. intros _ a nx Ha. by apply elem_of_nil in Ha.
  - destruct Hc as (-> & [id' nx] & Ho & Hc). cbn [length] in Hf. destruct fuel as [|k]; [lia|].
    cbn [ht_find_loop]. unfold rd_obj. rewrite Ho. cbn [rbind ho_id ho_next] in *.
    destruct (decide (id' = id)) as [->|Hne].
    + exists (Some a). split; [done|]. split; [|done]. intros b [= <-]. split; [by left|eauto].
    + destruct (IH nx k Hc ltac:(lia)) as (r & Hr & H1 & H2). exists r. split; [done|]. split.
      * intros b Hb. destruct (H1 b Hb). split; [by right|done].
      * intros Hn b nx' [->|Hb]%elem_of_cons; [congruence|]. by apply H2.
Qed.

Definition tbl_ok (t : htab) (M : Z -> Z -> Prop) : Prop := tab_ok (ht_heap t) (ht_tab t) (ht_pow t) M.

Lemma find_spec t M id : tbl_ok t M -> exists r, ht_find hash t id = Ok r /\ forall a, r = Some a <-> M id a.
Proof.
  intros Hok. destruct (tab_ok_bucket _ _ _ _ id Hok) as (l & Hc & _ & Hl & Hm & Hin).
  destruct (find_loop_spec _ id l _ _ Hc Hl) as (r & Hr & H1 & H2). exists r. split; [exact Hr|].
  pose proof Hok as (_ & _ & Hheap & Hfun). intros a. split.
  - intros Ha. destruct (H1 a Ha) as [Hal (nx & Hnx)]. destruct (Hin a Hal) as (id' & nx' & HM & Hnx').
    assert (id' = id) as -> by congruence. done.
  - intros HM. assert (Hal : a ∈ l) by (apply Hm; eauto). destruct (Hheap _ _ HM) as (nx & Hnx).
    destruct r as [b|]; [|by exfalso; apply (H2 eq_refl a nx)].
    destruct (H1 b eq_refl) as [Hbl (nx' & Hb)]. destruct (Hin b Hbl) as (id' & nx'' & HMb & Hb').
    assert (id' = id) as -> by congruence. f_equal. by eapply Hfun.
Qed.

(** * add_to_bucket *)
Lemma add_spec H tab pow M a id : tab_ok H tab pow M -> H !! a = Some (mkHo id None) ->
  (forall b, ~ M id b) -> (forall id', ~ M id' a) ->
  exists H' tab', add_to_bucket hash H tab pow a = Ok (H', tab') /\
    tab_ok H' tab' pow (fun id' b => M id' b \/ (id' = id /\ b = a)) /\
    (forall b, b <> a -> H' !! b = H !! b) /\ (exists nx, H' !! a = Some (mkHo id nx)).
Proof.
  intros (H0 & (ch & Hch) & H1 & H2) Ha Hid Haddr. unfold add_to_bucket, rd_obj. rewrite Ha. cbn [rbind ho_id].
  assert (Hnot : forall i, 0 <= i < 2 ^ pow -> a ∉ ch i).
  { intros i Hi Hin. apply (Hch i Hi) in Hin as (id' & Hm & _). by apply (Haddr id'). }
  set (hv := bk pow id). pose proof (bk_range pow id H0) as Hr. fold hv in Hr.
  set (H' := match tab !! hv with None => H | Some h => <[a := mkHo id (Some h)]> H end).
  assert (Hother : forall b, b <> a -> H' !! b = H !! b).
  { intros b Hb. unfold H'. destruct (tab !! hv); [by rewrite lookup_insert_ne|done]. }
  assert (Hself : H' !! a = Some (mkHo id (tab !! hv))).
  { unfold H'. destruct (tab !! hv); [by rewrite lookup_insert|done]. }
  exists H', (<[hv := a]> tab). split; [unfold H'; by destruct (tab !! hv)|]. split; [|split; [done|eauto]].
  split; [done|]. split; [|split].
  - exists (fun i => if decide (i = hv) then a :: ch i else ch i). intros i Hi.
    destruct (Hch i Hi) as (Hc & Hnd & Hm).
    assert (Hc' : chain H' (tab !! i) (ch i) None).
    { eapply chain_frame; [|exact Hc]. intros b Hb. apply Hother. intros ->. by apply (Hnot i Hi). }
    destruct (decide (i = hv)) as [->|Hne].
    + rewrite lookup_insert. split; [|split].
      * cbn [chain]. split; [done|]. exists (mkHo id (tab !! hv)). split; [done|]. exact Hc'.
      * constructor; [by apply Hnot|done].
      * intros b. rewrite elem_of_cons, Hm. split.
        -- intros [->|(id' & ? & ?)]; [exists id; split; [by right|done]|exists id'; split; [by left|done]].
        -- intros (id' & [?|[-> ->]] & ?); [right; eauto|by left].
    + rewrite lookup_insert_ne by done. split; [done|]. split; [done|].
      intros b. rewrite Hm. split.
      * intros (id' & ? & ?). exists id'. split; [by left|done].
      * intros (id' & [?|[-> ->]] & ?); [eauto|]. by destruct Hne.
  - intros id' b [Hm|[-> ->]]; [|eauto]. rewrite Hother; [by apply H1|]. intros ->. by apply (Haddr id').
  - intros id' b c [Hb|[-> ->]] [Hc|[Hc ->]]; [by eapply H2| | |done].
    + subst id'. by apply Hid in Hb.
    + by apply Hid in Hc.
Qed.

(** * expansion *)
(** [l] is an old chain still to be moved *)
Lemma relink_spec pow l : forall fuel H tab M p, tab_ok H tab pow M -> chain H p l None -> NoDup l ->
  (length l <= fuel)%nat ->
  (forall a o, a ∈ l -> H !! a = Some o -> (forall b, ~ M (ho_id o) b) /\ (forall id, ~ M id a)) ->
  (forall a b oa ob, a ∈ l -> b ∈ l -> H !! a = Some oa -> H !! b = Some ob -> ho_id oa = ho_id ob -> a = b) ->
  exists H' tab', relink fuel hash H tab pow p = Ok (H', tab') /\
    tab_ok H' tab' pow (fun id a => M id a \/ (a ∈ l /\ exists nx, H !! a = Some (mkHo id nx))) /\
    (forall b, b ∉ l -> H' !! b = H !! b) /\
    (forall b id nx, H !! b = Some (mkHo id nx) -> exists nx', H' !! b = Some (mkHo id nx')) /\
    (forall b, is_Some (H' !! b) <-> is_Some (H !! b)).
Proof.
  induction l as [|a l IH]; intros fuel H tab M p Hok Hc Hnd Hf Hnew Hinj.
  - cbn in Hc. subst p. exists H, tab. split; [by destruct fuel|]. split.
    { eapply tab_ok_ext; [|exact Hok]. intros id a. rewrite elem_of_nil. tauto. }
    split; [done|]. split; [|done]. eauto.
  - destruct Hc as (-> & [id nx] & Ho & Hc). cbn [ho_next] in Hc. cbn [length] in Hf. destruct fuel as [|k]; [lia|].
    cbn [relink]. unfold rd_obj. rewrite Ho. cbn [rbind ho_id ho_next].
    apply NoDup_cons in Hnd as [Hal Hnd].
    destruct (Hnew a _ ltac:(by left) Ho) as [Hnid Hnaddr]. cbn [ho_id] in Hnid.
    set (H1 := <[a := mkHo id None]> H).
    assert (Hok1 : tab_ok H1 tab pow M).
    { destruct Hok as (G0 & (ch & Hch) & G1 & G2). split; [done|]. split; [|split; [|done]].
      - exists ch. intros i Hi. destruct (Hch i Hi) as (Hci & Hndi & Hmi). split; [|done].
        eapply chain_frame; [|exact Hci]. intros b Hb. unfold H1. rewrite lookup_insert_ne; [done|]. intros <-.
        apply Hmi in Hb as (id' & Hb & _). by apply (Hnaddr id').
      - intros id' b Hb. unfold H1. rewrite lookup_insert_ne; [by apply G1|]. intros <-. by apply (Hnaddr id'). }
    destruct (add_spec H1 tab pow M a id Hok1) as (H2 & tab2 & Hadd & Hok2 & Hoth2 & (nx2 & Hself2)); [by apply lookup_insert|done|done|].
    rewrite Hadd. cbn [rbind].
    assert (HH2 : forall b, b <> a -> H2 !! b = H !! b).
    { intros b Hb. rewrite Hoth2 by done. unfold H1. by rewrite lookup_insert_ne. }
    destruct (IH k H2 tab2 _ nx Hok2) as (H3 & tab3 & Hr & Hok3 & Hoth3 & Hid3 & Hdom3).
    + eapply chain_frame; [|exact Hc]. intros b Hb. apply HH2. by intros ->.
    + done.
    + lia.
    + intros b o Hb Hbo. assert (b <> a) by (by intros ->). rewrite HH2 in Hbo by done.
      destruct (Hnew b o ltac:(by right) Hbo) as [N1 N2]. split.
      * intros c [Hc'|[Hidc ->]]; [by apply (N1 c)|]. assert (a = b); [|by subst].
        eapply (Hinj a b _ o); [by left|by right|exact Ho|exact Hbo|done].
      * intros id' [Hc'|[-> ->]]; [by apply (N2 id')|done].
    + intros b c ob oc Hb Hc' Hbo Hco Heq. assert (b <> a) by (by intros ->). assert (c <> a) by (by intros ->).
      rewrite HH2 in Hbo, Hco by done. eapply (Hinj b c); [by right|by right|done|done|done].
    + exists H3, tab3. split; [exact Hr|]. split; [|split; [|split]].
      * eapply tab_ok_ext; [|exact Hok3]. intros id' b. cbn beta. split.
        -- intros [[?|[-> ->]]|[Hb (nx' & Hnx')]]; [by left|right; split; [by left|eauto]|].
           right. split; [by right|]. rewrite HH2 in Hnx' by (by intros ->). eauto.
        -- intros [?|[[->|Hb]%elem_of_cons (nx' & Hnx')]]; [by left; left| |].
           ++ left. right. split; [congruence|done].
           ++ right. split; [done|]. exists nx'. rewrite HH2 by (by intros ->). done.
      * intros b Hb. apply not_elem_of_cons in Hb as [? ?]. rewrite Hoth3 by done. by apply HH2.
      * intros b id' nx' Hb. destruct (decide (b = a)) as [->|Hne].
        -- apply (Hid3 a id' nx2). rewrite Ho in Hb. injection Hb as <- <-. done.
        -- apply (Hid3 b id' nx'). by rewrite HH2.
      * intros b. rewrite Hdom3. destruct (decide (b = a)) as [->|Hne]; [|by rewrite HH2].
        rewrite Hself2, Ho. split; eauto.
Qed.

Lemma relink_all_spec old pow pow0 (M : Z -> Z -> Prop) H0 : tab_ok H0 old pow0 M -> 0 <= pow -> forall n k H tab,
  0 <= k -> k + Z.of_nat n = 2 ^ pow0 ->
  tab_ok H tab pow (fun id a => M id a /\ bk pow0 id < k) ->
  (forall a id nx, M id a -> k <= bk pow0 id -> H0 !! a = Some (mkHo id nx) -> H !! a = Some (mkHo id nx)) ->
  (forall b, is_Some (H !! b) <-> is_Some (H0 !! b)) ->
  (forall b, (forall id, ~ M id b) -> H !! b = H0 !! b) ->
  exists H' tab', relink_all hash (seqZ k (Z.of_nat n)) old H tab pow = Ok (H', tab') /\
    tab_ok H' tab' pow M /\
    (forall b, (forall id, ~ M id b) -> H' !! b = H0 !! b).
Proof.
  intros (P0 & (ch & Hch) & G1 & G2) Hp. induction n as [|n IH]; intros k H tab Hk Hkn Hok Hrest Hdom Hout.
  - exists H, tab. cbn. split; [done|]. split; [|done]. eapply tab_ok_ext; [|exact Hok]. intros id a. cbn beta.
    pose proof (bk_range pow0 id P0). split; [tauto|]. intros ?. split; [done|lia].
  - rewrite seqZ_cons by lia. cbn [relink_all].
    destruct (Hch k ltac:(lia)) as (Hc & Hnd & Hm).
    assert (Hsz : (length (ch k) <= size H)%nat).
    { pose proof (chain_size _ _ _ _ Hc Hnd) as Hs. enough (size H0 <= size H)%nat by lia.
      rewrite <- !(size_dom (D := gset Z)). apply subseteq_size. intros a. rewrite !elem_of_dom. by rewrite Hdom. }
    assert (Hck : forall a, a ∈ ch k -> H !! a = H0 !! a).
    { intros a Ha. apply Hm in Ha as (id & Ha & Hb). destruct (G1 _ _ Ha) as (nx & Hnx). rewrite Hnx.
      apply Hrest; [done|lia|done]. }
    destruct (relink_spec pow (ch k) (size H) H tab _ (old !! k) Hok) as (H' & tab' & Hr & Hok' & Hoth & Hids & Hdom').
    + eapply chain_frame; [|exact Hc]. done.
    + done.
    + done.
    + intros a o Ha Hao. rewrite Hck in Hao by done. pose proof Ha as Ha'. apply Hm in Ha' as (id & HM & Hb).
      destruct (G1 _ _ HM) as (nx & Hnx). assert (o = mkHo id nx) as -> by congruence. cbn [ho_id]. split.
      * intros b [_ ?]. lia.
      * intros id' [HM' Hlt]. destruct (G1 _ _ HM') as (nx' & Hnx'). assert (id' = id) as -> by congruence. lia.
    + intros a b oa ob Ha Hb Hao Hbo Heq. rewrite Hck in Hao, Hbo by done.
      apply Hm in Ha as (ida & HMa & _). apply Hm in Hb as (idb & HMb & _).
      destruct (G1 _ _ HMa) as (? & E1). destruct (G1 _ _ HMb) as (? & E2).
      assert (oa = mkHo ida x) as -> by congruence. assert (ob = mkHo idb x0) as -> by congruence.
      cbn in Heq. subst idb. by eapply G2.
    + rewrite Hr. cbn [rbind]. replace (Z.pred (Z.of_nat (S n))) with (Z.of_nat n) by lia.
      replace (Z.succ k) with (k + 1) by lia. apply IH; [lia|lia| | | |].
      * eapply tab_ok_ext; [|exact Hok']. intros id a. cbn beta. split.
        -- intros [[? ?]|[Ha (nx & Hnx)]]; [split; [done|lia]|].
           rewrite Hck in Hnx by done. apply Hm in Ha as (id' & HM & Hb). destruct (G1 _ _ HM) as (nx' & Hnx').
           assert (id' = id) as -> by congruence. split; [done|lia].
        -- intros [HM Hlt]. destruct (decide (bk pow0 id < k)); [by left|]. right. assert (bk pow0 id = k) by lia.
           assert (Ha : a ∈ ch k) by (apply Hm; eauto). split; [done|]. rewrite Hck by done. by apply G1.
      * intros a id nx HM Hge Hnx. rewrite Hoth; [apply Hrest; [done|lia|done]|].
        intros Ha. apply Hm in Ha as (id' & HM' & Hb). destruct (G1 _ _ HM') as (nx' & Hnx'). assert (id' = id) as -> by congruence. lia.
      * intros b. by rewrite Hdom'.
      * intros b Hb. rewrite Hoth; [by apply Hout|]. intros Hin. apply Hm in Hin as (id & HM & _). by apply (Hb id).
Qed.

Lemma expand_spec t M : tbl_ok t M -> exists t', ht_maybe_expand hash t = Ok t' /\ tbl_ok t' M /\
  ht_n t' = ht_n t /\ ht_ext t' = ht_ext t /\ ht_max t' = ht_max t /\
  ht_pow t' = (if decide (ht_n t > 2 ^ ht_pow t) then ht_pow t + 1 else ht_pow t) /\
  (forall b, (forall id, ~ M id b) -> ht_heap t' !! b = ht_heap t !! b).
Proof.
  intros Hok. unfold ht_maybe_expand. destruct (decide _) as [Hgt|Hngt]; [|by exists t].
  unfold ht_expand. pose proof Hok as (P0 & _).
  destruct (relink_all_spec (ht_tab t) (ht_pow t + 1) (ht_pow t) M (ht_heap t) Hok ltac:(lia)
    (Z.to_nat (2 ^ ht_pow t)) 0 (ht_heap t) ∅) as (H' & tab' & Hr & Hok' & Hout); try done.
  - rewrite Z2Nat.id; [lia|]. apply Z.pow_nonneg. lia.
  - eapply tab_ok_ext; [|apply tab_ok_empty; lia]. intros id a. cbn beta. pose proof (bk_range (ht_pow t) id P0). split; [done|lia].
  - rewrite Z2Nat.id in Hr by (apply Z.pow_nonneg; lia). rewrite Hr. cbn [rbind].
    eexists. split; [reflexivity|]. cbn. split; [exact Hok'|]. split_and!; [done|done|done|done|done].
Qed.

(** * insertion *)
Lemma insert_spec t M a id : tbl_ok t M -> ht_heap t !! a = None -> (forall b, ~ M id b) ->
  exists t', ht_insert hash t a id = Ok t' /\ tbl_ok t' (fun id' b => M id' b \/ (id' = id /\ b = a)) /\
    ht_n t' = ht_n t + 1 /\ ht_ext t' = ht_ext t /\ ht_max t' = ht_max t /\
    ht_pow t' = (if decide (ht_n t > 2 ^ ht_pow t) then ht_pow t + 1 else ht_pow t) /\
    (forall b, (forall id, ~ M id b) -> b <> a -> ht_heap t' !! b = ht_heap t !! b).
Proof.
  intros Hok Ha Hid. unfold ht_insert.
  destruct (expand_spec t M Hok) as (t1 & -> & Hok1 & Hn1 & He1 & Hm1 & Hp1 & Hout). cbn [rbind].
  assert (Hna : forall id', ~ M id' a).
  { intros id' HM. destruct Hok as (_ & _ & G1 & _). destruct (G1 _ _ HM). congruence. }
  assert (Hok2 : tab_ok (<[a := mkHo id None]> (ht_heap t1)) (ht_tab t1) (ht_pow t1) M).
  { destruct Hok1 as (G0 & (ch & Hch) & G1 & G2). split; [done|]. split; [|split; [|done]].
    - exists ch. intros i Hi. destruct (Hch i Hi) as (Hci & Hndi & Hmi). split; [|done].
      eapply chain_frame; [|exact Hci]. intros b Hb. rewrite lookup_insert_ne; [done|]. intros <-.
      apply Hmi in Hb as (id' & Hb & _). by apply (Hna id').
    - intros id' b Hb. rewrite lookup_insert_ne; [by apply G1|]. intros <-. by apply (Hna id'). }
  unfold ht_add. cbn [ht_heap ht_tab ht_pow ht_n ht_ext ht_max].
  destruct (add_spec _ _ _ _ a id Hok2 ltac:(by rewrite lookup_insert) Hid Hna) as (H' & tab' & Hadd & Hok' & Hoth & _).
  rewrite Hadd. cbn [rbind]. eexists. split; [reflexivity|]. split; [exact Hok'|]. cbn. split_and!; [lia|done|done|done|].
  intros b Hb Hne. rewrite Hoth by done. rewrite lookup_insert_ne by done. by apply Hout.
Qed.

Lemma insert_obj_spec t M a id : tbl_ok t M -> ht_heap t !! a = Some (mkHo id None) -> (forall b, ~ M id b) ->
  (forall id', ~ M id' a) ->
  exists t', ht_insert_obj hash t a = Ok t' /\ tbl_ok t' (fun id' b => M id' b \/ (id' = id /\ b = a)) /\
    ht_n t' = ht_n t + 1 /\ ht_ext t' = ht_ext t.
Proof.
  intros Hok Ha Hid Hna. unfold ht_insert_obj.
  destruct (expand_spec t M Hok) as (t1 & -> & Hok1 & Hn1 & He1 & Hm1 & Hp1 & Hout). cbn [rbind].
  unfold ht_add.
  destruct (add_spec _ _ _ _ a id Hok1 ltac:(by rewrite Hout) Hid Hna) as (H' & tab' & Hadd & Hok' & Hoth & _).
  rewrite Hadd. cbn [rbind]. eexists. split; [reflexivity|]. split; [exact Hok'|]. cbn. split; [lia|done].
Qed.

(** * deletion *)
Lemma find_pred_in H a l2 : forall l1 p c fuel len, chain H p (l1 ++ c :: a :: l2) None -> NoDup (l1 ++ c :: a :: l2) ->
  (length l1 <= fuel)%nat -> find_pred fuel H p a len = Ok (Some c, len + Z.of_nat (length l1)).
Proof.
  induction l1 as [|b l1 IH]; intros p c fuel len Hc Hnd Hf.
  - cbn [app chain] in Hc. destruct Hc as (-> & o & Ho & Hc). cbn [chain] in Hc. destruct Hc as (Hn & _).
    destruct fuel; cbn [find_pred]; unfold rd_obj; rewrite Ho; cbn [rbind]; rewrite decide_True by done; cbn; by rewrite Z.add_0_r.
  - cbn [app chain] in Hc. destruct Hc as (-> & o & Ho & Hc). cbn [length] in Hf. destruct fuel as [|k]; [lia|].
    cbn [find_pred]. unfold rd_obj. rewrite Ho. cbn [rbind]. rewrite decide_False.
    + rewrite (IH _ c k (len + 1)); [|done| |lia].
      * cbn [length]. do 2 f_equal. lia.
      * by apply NoDup_cons in Hnd as [_ ?].
    + intros Hn. rewrite Hn in Hc. cbn [app] in Hnd. apply NoDup_cons in Hnd as [_ Hnd].
      destruct l1 as [|b' l1]; cbn [app chain] in Hc; destruct Hc as (Hd & _); injection Hd as Hd; subst.
      * cbn [app] in Hnd. apply NoDup_cons in Hnd as [Hnd _]. apply Hnd. by left.
      * cbn [app] in Hnd. apply NoDup_cons in Hnd as [Hnd _]. apply Hnd. rewrite elem_of_app, !elem_of_cons. tauto.
Qed.
Lemma find_pred_out H a l : forall p fuel len, chain H p l None -> a ∉ l -> (length l <= fuel)%nat ->
  exists len', find_pred fuel H p a len = Ok (None, len').
Proof.
  induction l as [|b l IH]; intros p fuel len Hc Ha Hf.
  - cbn in Hc. subst p. destruct fuel; cbn; eauto.
  - destruct Hc as (-> & o & Ho & Hc). cbn [length] in Hf. destruct fuel as [|k]; [lia|].
    cbn [find_pred]. unfold rd_obj. rewrite Ho. cbn [rbind]. apply not_elem_of_cons in Ha as [Hab Ha].
    rewrite decide_False; [apply IH; [done|done|lia]|].
    intros Hn. rewrite Hn in Hc. destruct l as [|c l]; cbn [chain] in Hc; [done|].
    destruct Hc as (Hd & _). injection Hd as <-. apply Ha. by left.
Qed.

(** unlinking [a] (id [id]) from its chain [l1 ++ a :: l2] *)
Definition unlink (H : gmap Z hobj) (tab : gmap Z Z) (hv : Z) (l1 : list Z) (nx : option Z) : gmap Z hobj * gmap Z Z :=
  match last l1 with
  | None => (H, tab_set tab hv nx)
  | Some c => (match H !! c with Some oc => <[c := mkHo (ho_id oc) nx]> H | None => H end, tab)
  end.

Lemma chain_snoc_set H p l1 c e e' oc : chain H p (l1 ++ [c]) e -> NoDup (l1 ++ [c]) -> H !! c = Some oc ->
  chain (<[c := mkHo (ho_id oc) e']> H) p (l1 ++ [c]) e'.
Proof.
  intros Hc Hnd Hoc. apply chain_app in Hc as (q & Hc1 & Hc2). cbn [chain] in Hc2. destruct Hc2 as (-> & o & Ho & _).
  apply chain_app. exists (Some c). split.
  - eapply chain_frame; [|exact Hc1]. intros b Hb. rewrite lookup_insert_ne; [done|]. intros ->.
    apply NoDup_app in Hnd as (_ & Hd & _). apply (Hd b Hb). by left.
  - cbn [chain]. split; [done|]. eexists. split; [by rewrite lookup_insert|]. done.
Qed.

Lemma unlink_ok (ext : bool) H tab pow M a id nx l1 l2 H' tab' : tab_ok H tab pow M -> M id a -> H !! a = Some (mkHo id nx) ->
  chain H (tab !! bk pow id) (l1 ++ a :: l2) None -> NoDup (l1 ++ a :: l2) ->
  (forall b, b ∈ l1 ++ a :: l2 <-> exists id', M id' b /\ bk pow id' = bk pow id) ->
  unlink H tab (bk pow id) l1 nx = (H', tab') ->
  tab_ok (ht_free ext H' a) tab' pow (fun id' b => M id' b /\ id' <> id) /\
  (forall b, (forall id', ~ M id' b) -> ht_free ext H' a !! b = H !! b).
Proof.
  intros Hok HM Ha Hc Hnd Hmem Hun. pose proof Hok as (P0 & (ch & Hch) & G1 & G2).
  pose proof (bk_range pow id P0) as Hr. set (hv := bk pow id) in *.
  assert (Ha1 : a ∉ l1) by (apply NoDup_app in Hnd as (_ & Hd & _); intros Hx; apply (Hd a Hx); by left).
  assert (Ha2 : a ∉ l2) by (apply NoDup_app in Hnd as (_ & _ & Hd); by apply NoDup_cons in Hd as [? _]).
  assert (Hnd' : NoDup (l1 ++ l2)).
  { apply NoDup_app in Hnd as (H1 & Hd & H2). apply NoDup_cons in H2 as [_ H2]. apply NoDup_app. split_and!; [done| |done].
    intros x Hx Hx2. apply (Hd x Hx). by right. }
  apply chain_app in Hc as (q & Hc1 & Hc2). cbn [chain] in Hc2. destruct Hc2 as (-> & o & Ho & Hc2).
  assert (o = mkHo id nx) as -> by congruence. cbn [ho_next] in Hc2.
  (* ids and addresses elsewhere *)
  assert (Hids : forall id' b, M id' b -> id' <> id -> b <> a).
  { intros id' b Hb Hne ->. destruct (G1 _ _ Hb). congruence. }
  assert (Hids' : forall id' b, M id' b -> b <> a -> id' <> id).
  { intros id' b Hb Hne ->. apply Hne. by eapply G2. }
  assert (HH' : forall b, b ∉ l1 -> H' !! b = H !! b).
  { intros b Hb. unfold unlink in Hun. destruct (last l1) as [c|] eqn:El; injection Hun as <- <-; [|done].
    destruct (H !! c); [|done]. rewrite lookup_insert_ne; [done|]. intros ->. apply last_Some_elem_of in El. done. }
  assert (HHid : forall b id' nx', H !! b = Some (mkHo id' nx') -> exists nx'', H' !! b = Some (mkHo id' nx'')).
  { intros b id' nx' Hb. unfold unlink in Hun. destruct (last l1) as [c|] eqn:El; injection Hun as <- <-; [|eauto].
    destruct (H !! c) as [oc|] eqn:Eoc; [|eauto]. destruct (decide (b = c)) as [->|Hne].
    - rewrite lookup_insert. rewrite Hb in Eoc. injection Eoc as <-. eauto.
    - rewrite lookup_insert_ne by done. eauto. }
  assert (Hfree : forall b, b <> a -> ht_free ext H' a !! b = H' !! b).
  { intros b Hb. unfold ht_free. destruct ext; [done|]. by rewrite lookup_delete_ne. }
  assert (Htab' : forall i, i <> hv -> tab' !! i = tab !! i).
  { intros i Hi. unfold unlink in Hun. destruct (last l1) as [c|] eqn:El; injection Hun as <- <-; [done|].
    unfold tab_set. by rewrite lookup_partial_alter_ne. }
  assert (Hchain : chain (ht_free ext H' a) (tab' !! hv) (l1 ++ l2) None).
  { apply (chain_frame H').
    { intros b Hb. apply Hfree. intros ->. apply elem_of_app in Hb. tauto. }
    apply chain_app. exists nx. split; [|].
    - unfold unlink in Hun. destruct l1 as [|c l1' _] using rev_ind.
      + cbn in Hun. injection Hun as <- <-. cbn [chain]. unfold tab_set. by rewrite lookup_partial_alter.
      + rewrite last_snoc in Hun. destruct (H !! c) as [oc|] eqn:Eoc; [|].
        * injection Hun as <- <-. eapply chain_snoc_set; [exact Hc1| |done]. by apply NoDup_app in Hnd as (? & _).
        * exfalso. assert (Hs : is_Some (H !! c)) by (eapply chain_in; [exact Hc1|rewrite elem_of_app; right; by left]).
          rewrite Eoc in Hs. by destruct Hs.
    - eapply chain_frame; [|exact Hc2]. intros b Hb. apply HH'. intros Hb1.
      apply NoDup_app in Hnd' as (_ & Hd & _). by apply (Hd b). }
  split.
  - split; [done|]. split; [|split].
    + exists (fun i => if decide (i = hv) then l1 ++ l2 else ch i). intros i Hi.
      destruct (decide (i = hv)) as [->|Hne].
      * split; [exact Hchain|]. split; [done|]. intros b. split.
        -- intros Hb. assert (Hb' : b ∈ l1 ++ a :: l2) by (rewrite elem_of_app, elem_of_cons; apply elem_of_app in Hb; tauto).
           apply Hmem in Hb' as (id' & Hb' & Hbk). exists id'. split; [|done]. split; [done|]. eapply Hids'; [exact Hb'|].
           intros ->. apply elem_of_app in Hb. tauto.
        -- intros (id' & [Hb Hne] & Hbk). assert (Hb' : b ∈ l1 ++ a :: l2) by (apply Hmem; eauto).
           rewrite elem_of_app, elem_of_cons in Hb'. apply elem_of_app.
           destruct Hb' as [?|[->|?]]; [by left| |by right]. by apply Hids in Hb.
      * destruct (Hch i Hi) as (Hci & Hndi & Hmi). rewrite Htab' by done. split_and!; [|done|].
        -- apply (chain_frame H); [|done]. intros b Hb. apply Hmi in Hb as (id' & Hb & Hbi).
           assert (Hbn : b ∉ l1 ++ a :: l2).
           { intros Hin. apply Hmem in Hin as (id2 & Hb2 & Hbi2). assert (id' = id2) as -> by (eapply tab_ok_inj; eauto). congruence. }
           apply not_elem_of_app in Hbn as [? Hbn]. apply not_elem_of_cons in Hbn as [? _].
           rewrite Hfree by done. by apply HH'.
        -- intros b. rewrite Hmi. split.
           ++ intros (id' & Hb & Hbi). exists id'. split; [|done]. split; [done|]. intros ->. by apply Hne.
           ++ intros (id' & [Hb _] & Hbi). eauto.
    + intros id' b [Hb Hne]. destruct (G1 _ _ Hb) as (nx' & Hnx'). rewrite Hfree by (by eapply Hids). by eapply HHid.
    + intros id' b c [Hb _] [Hc' _]. by eapply G2.
  - intros b Hb. assert (Hba : b <> a) by (intros ->; by apply (Hb id)). rewrite Hfree by done. apply HH'.
    intros Hb1. assert (Hin : b ∈ l1 ++ a :: l2) by (rewrite elem_of_app; by left).
    apply Hmem in Hin as (id' & Hin & _). by apply (Hb id').
Qed.

(** a table member and its chain *)
Lemma member_chain t M id a : tbl_ok t M -> M id a -> exists l1 l2 nx,
  chain (ht_heap t) (ht_tab t !! bk (ht_pow t) id) (l1 ++ a :: l2) None /\ NoDup (l1 ++ a :: l2) /\
  (length (l1 ++ a :: l2) <= size (ht_heap t))%nat /\
  ht_heap t !! a = Some (mkHo id nx) /\
  (forall b, b ∈ l1 ++ a :: l2 <-> exists id', M id' b /\ bk (ht_pow t) id' = bk (ht_pow t) id).
Proof.
  intros Hok HM. destruct (tab_ok_bucket _ _ _ _ id Hok) as (l & Hc & Hnd & Hl & Hm & Hin).
  assert (Ha : a ∈ l) by (apply Hm; eauto). destruct (elem_of_list_split l a Ha) as (l1 & l2 & ->).
  pose proof Hok as (_ & _ & G1 & _). destruct (G1 _ _ HM) as (nx & Hnx). exists l1, l2, nx. done.
Qed.

(** the walk of print_hashbucket_item_distribution *)
Lemma count_bucket_spec H l : forall p fuel seen, chain H p l None -> NoDup l -> (length l <= fuel)%nat ->
  (forall a b oa ob, a ∈ l -> b ∈ l -> H !! a = Some oa -> H !! b = Some ob -> ho_id oa = ho_id ob -> a = b) ->
  (forall a o, a ∈ l -> H !! a = Some o -> ho_id o ∉ seen) -> (length seen <= 64)%nat ->
  count_bucket fuel H p seen = if decide (length seen + length l <= 64)%nat then Ok tt else Err OutOfBounds.
Proof.
  induction l as [|a l IH]; intros p fuel seen Hc Hnd Hf Hinj Hseen Hls.
  - cbn in Hc. subst p. cbn [length]. rewrite decide_True by lia. by destruct fuel.
  - destruct Hc as (-> & o & Ho & Hc). cbn [length] in Hf |- *. destruct fuel as [|k]; [lia|].
    cbn [count_bucket]. unfold rd_obj. rewrite Ho. cbn [rbind].
    destruct (decide (64 <= Z.of_nat (length seen))) as [Hge|Hlt].
    + rewrite decide_False by lia. done.
    + rewrite decide_False by (by apply (Hseen a); [left|]).
      apply NoDup_cons in Hnd as [Hal Hnd].
      rewrite (IH _ k (ho_id o :: seen)); [|done|done|lia| | |].
      * cbn [length]. destruct (decide _), (decide _); try done; lia.
      * intros b c ob oc Hb Hc' ? ? ?. eapply (Hinj b c); [by right|by right|done|done|done].
      * intros b ob Hb Hbo. apply not_elem_of_cons. split.
        -- intros Heq. apply Hal. assert (a = b) as ->; [|done]. eapply (Hinj a b); [by left|by right|exact Ho|exact Hbo|done].
        -- apply (Hseen b); [by right|done].
      * cbn [length]. lia.
Qed.

(** number of members per bucket *)
Definition bucket_long (pow : Z) (M : Z -> Z -> Prop) : Prop :=
  exists i l, NoDup l /\ (forall a, a ∈ l -> exists id, M id a /\ bk pow id = i) /\ (64 < length l)%nat.

Lemma count_buckets_spec t M is : tbl_ok t M -> (forall i, i ∈ is -> 0 <= i < 2 ^ ht_pow t) ->
  count_buckets is (ht_heap t) (ht_tab t) = Ok tt \/
  (count_buckets is (ht_heap t) (ht_tab t) = Err OutOfBounds /\ bucket_long (ht_pow t) M).
Proof.
  intros (P0 & (ch & Hch) & G1 & G2). induction is as [|i is IH]; intros His; [by left|].
  cbn [count_buckets]. destruct (Hch i (His i ltac:(by left))) as (Hc & Hnd & Hm).
  rewrite (count_bucket_spec _ (ch i)); [|done|done|by eapply chain_size| | |cbn; lia].
  - cbn [length]. destruct (decide _) as [Hle|Hgt]; cbn [rbind].
    + apply IH. intros j Hj. apply His. by right.
    + right. split; [done|]. exists i, (ch i). split; [done|]. split; [|lia]. intros a Ha. by apply Hm.
  - intros a b oa ob Ha Hb Hao Hbo Heq. apply Hm in Ha as (ida & HMa & _). apply Hm in Hb as (idb & HMb & _).
    destruct (G1 _ _ HMa) as (? & E1). destruct (G1 _ _ HMb) as (? & E2).
    assert (oa = mkHo ida x) as -> by congruence. assert (ob = mkHo idb x0) as -> by congruence.
    cbn in Heq. subst idb. by eapply G2.
  - intros a o _ _. apply not_elem_of_nil.
Qed.

Definition removed (M : Z -> Z -> Prop) (id : Z) : Z -> Z -> Prop := fun id' b => M id' b /\ id' <> id.

(** the state after the object [a] is unlinked *)
Definition gone (t t' : htab) (M : Z -> Z -> Prop) (id a : Z) : Prop :=
  tbl_ok t' (removed M id) /\ ht_n t' = ht_n t - 1 /\ ht_ext t' = ht_ext t /\ ht_pow t' = ht_pow t /\
  (forall b, (forall id', ~ M id' b) -> ht_heap t' !! b = ht_heap t !! b) /\
  (ht_ext t = false -> ht_heap t' !! a = None).

Lemma gone_head t M id a nx l2 mx : tbl_ok t M -> M id a -> ht_heap t !! a = Some (mkHo id nx) ->
  chain (ht_heap t) (ht_tab t !! bk (ht_pow t) id) (a :: l2) None -> NoDup (a :: l2) ->
  (forall b, b ∈ a :: l2 <-> exists id', M id' b /\ bk (ht_pow t) id' = bk (ht_pow t) id) ->
  gone t (mkHt (ht_free (ht_ext t) (ht_heap t) a) (tab_set (ht_tab t) (bk (ht_pow t) id) nx) (ht_pow t)
            (ht_n t - 1) (ht_ext t) mx) M id a.
Proof.
  intros Hok HM Ha Hc Hnd Hmem.
  destruct (unlink_ok (ht_ext t) (ht_heap t) (ht_tab t) (ht_pow t) M a id nx [] l2 _ _ Hok HM Ha Hc Hnd Hmem eq_refl) as [Hok' Hout].
  split; [exact Hok'|]. cbn. split_and!; [done|done|done|done|]. intros ->. cbn. by rewrite lookup_delete.
Qed.
Lemma gone_mid t M id a nx l1 c oc l2 mx : tbl_ok t M -> M id a -> ht_heap t !! a = Some (mkHo id nx) ->
  chain (ht_heap t) (ht_tab t !! bk (ht_pow t) id) ((l1 ++ [c]) ++ a :: l2) None -> NoDup ((l1 ++ [c]) ++ a :: l2) ->
  (forall b, b ∈ (l1 ++ [c]) ++ a :: l2 <-> exists id', M id' b /\ bk (ht_pow t) id' = bk (ht_pow t) id) ->
  ht_heap t !! c = Some oc ->
  gone t (mkHt (ht_free (ht_ext t) (<[c := mkHo (ho_id oc) nx]> (ht_heap t)) a) (ht_tab t) (ht_pow t)
            (ht_n t - 1) (ht_ext t) mx) M id a.
Proof.
  intros Hok HM Ha Hc Hnd Hmem Hoc.
  destruct (unlink_ok (ht_ext t) (ht_heap t) (ht_tab t) (ht_pow t) M a id nx (l1 ++ [c]) l2
    (<[c := mkHo (ho_id oc) nx]> (ht_heap t)) (ht_tab t) Hok HM Ha Hc Hnd Hmem) as [Hok' Hout].
  { unfold unlink. by rewrite last_snoc, Hoc. }
  split; [exact Hok'|]. cbn. split_and!; [done|done|done|done|]. intros ->. cbn. by rewrite lookup_delete.
Qed.

Lemma chain_not_head t M id (a : Z) l1 (c : Z) l2 : chain (ht_heap t) (ht_tab t !! bk (ht_pow t) id) ((l1 ++ [c]) ++ a :: l2) None ->
  NoDup ((l1 ++ [c]) ++ a :: l2) -> tbl_ok t M -> ht_tab t !! bk (ht_pow t) id <> Some a.
Proof.
  intros Hc Hnd _ Heq. rewrite Heq in Hc. destruct l1 as [|b l1]; cbn [app chain] in Hc; destruct Hc as (Hd & _); injection Hd as <-.
  - cbn [app] in Hnd. apply NoDup_cons in Hnd as [Hnd _]. apply Hnd. by left.
  - cbn [app] in Hnd. apply NoDup_cons in Hnd as [Hnd _]. apply Hnd. apply elem_of_app; right; left.
Qed.

Lemma delete_spec t M id a : tbl_ok t M -> M id a ->
  (exists t', ht_delete hash t a = Ok t' /\ gone t t' M id a) \/
  (ht_delete hash t a = Err OutOfBounds /\ bucket_long (ht_pow t) M).
Proof.
  intros Hok HM. destruct (member_chain t M id a Hok HM) as (l1 & l2 & nx & Hc & Hnd & Hl & Ha & Hmem).
  unfold ht_delete, rd_obj. rewrite Ha. cbn [rbind ho_id ho_next]. pose proof Hok as (P0 & _).
  destruct l1 as [|c l1 _] using rev_ind.
  - pose proof Hc as (Hhd & _). cbn [app] in *. rewrite decide_True by done. left.
    eexists. split; [reflexivity|]. by eapply gone_head.
  - rewrite decide_False by (by eapply chain_not_head).
    rewrite (find_pred_in (ht_heap t) a l2 l1 _ c).
    2: { by rewrite <- app_assoc in Hc. } 2: { by rewrite <- app_assoc in Hnd. }
    2: { rewrite !app_length in Hl. lia. }
    cbn [rbind].
    assert (Hcs : is_Some (ht_heap t !! c)).
    { eapply chain_in; [exact Hc|]. rewrite !elem_of_app, elem_of_list_singleton. tauto. }
    destruct Hcs as [oc Hoc]. rewrite Hoc.
    destruct (decide _) as [Hlong|_].
    + destruct (count_buckets_spec t M (seqZ 0 (2 ^ ht_pow t)) Hok) as [Hcb|[Hcb Hlb]].
      * intros i Hi. apply elem_of_seqZ in Hi. lia.
      * rewrite Hcb. cbn [rbind]. left. eexists. split; [reflexivity|]. by eapply gone_mid.
      * rewrite Hcb. cbn [rbind]. by right.
    + cbn [rbind]. left. eexists. split; [reflexivity|]. by eapply gone_mid.
Qed.

(** short chains are never counted *)
Lemma delete_short t M id a : tbl_ok t M -> M id a -> ~ bucket_long (ht_pow t) M ->
  exists t', ht_delete hash t a = Ok t' /\ gone t t' M id a.
Proof. intros Hok HM Hs. by destruct (delete_spec t M id a Hok HM) as [?|[_ ?]]. Qed.

Lemma try_delete_spec t M id a : tbl_ok t M -> M id a ->
  exists t', ht_try_delete hash t a = Ok (t', true) /\ gone t t' M id a.
Proof.
  intros Hok HM. destruct (member_chain t M id a Hok HM) as (l1 & l2 & nx & Hc & Hnd & Hl & Ha & Hmem).
  unfold ht_try_delete, rd_obj. rewrite Ha. cbn [rbind ho_id ho_next].
  destruct l1 as [|c l1 _] using rev_ind.
  - pose proof Hc as (Hhd & _). cbn [app] in *. rewrite decide_True by done.
    eexists. split; [reflexivity|]. by eapply gone_head.
  - rewrite decide_False by (by eapply chain_not_head).
    rewrite (find_pred_in (ht_heap t) a l2 l1 _ c).
    2: { by rewrite <- app_assoc in Hc. } 2: { by rewrite <- app_assoc in Hnd. }
    2: { rewrite !app_length in Hl. lia. }
    cbn [rbind].
    assert (Hcs : is_Some (ht_heap t !! c)).
    { eapply chain_in; [exact Hc|]. rewrite !elem_of_app, elem_of_list_singleton. tauto. }
    destruct Hcs as [oc Hoc]. rewrite Hoc. cbn [rbind].
    eexists. split; [reflexivity|]. by eapply gone_mid.
Qed.
Lemma try_delete_absent t M a o : tbl_ok t M -> (forall id, ~ M id a) -> ht_heap t !! a = Some o ->
  ht_try_delete hash t a = Ok (t, false).
Proof.
  intros Hok HM Ha. unfold ht_try_delete, rd_obj. rewrite Ha. cbn [rbind].
  destruct (tab_ok_bucket _ _ _ _ (ho_id o) Hok) as (l & Hc & Hnd & Hl & Hm & _).
  assert (Hal : a ∉ l). { intros Hin. apply Hm in Hin as (id' & Hin & _). by apply (HM id'). }
  rewrite decide_False.
  - destruct (find_pred_out _ a l _ _ 1 Hc Hal Hl) as (len & ->). done.
  - intros Heq. rewrite Heq in Hc. destruct l as [|b l]; cbn [chain] in Hc; [done|].
    destruct Hc as (Hd & _). injection Hd as <-. apply Hal. by left.
Qed.

Lemma find_id_in H id a nx l2 : forall l1 p prev fuel, chain H p (l1 ++ a :: l2) None ->
  (length l1 <= fuel)%nat -> H !! a = Some (mkHo id nx) ->
  (forall b o, b ∈ l1 -> H !! b = Some o -> ho_id o <> id) ->
  find_id fuel H prev p id = Ok (Some (default prev (last l1), a)).
Proof.
  induction l1 as [|b l1 IH]; intros p prev fuel Hc Hf Ha Hne.
  - cbn [app chain] in Hc. destruct Hc as (-> & _).
    destruct fuel; cbn [find_id]; unfold rd_obj; rewrite Ha; cbn [rbind ho_id]; by rewrite decide_True by done.
  - cbn [app chain] in Hc. destruct Hc as (-> & o & Ho & Hc). cbn [length] in Hf. destruct fuel as [|k]; [lia|].
    cbn [find_id]. unfold rd_obj. rewrite Ho. cbn [rbind]. rewrite decide_False by (by apply (Hne b); [left|]).
    rewrite (IH _ b k Hc ltac:(lia) Ha).
    + do 3 f_equal. rewrite last_cons. by destruct (last l1).
    + intros c oc Hc' Hoc. apply (Hne c); [by right|done].
Qed.
Lemma find_id_out H id l : forall p prev fuel, chain H p l None -> (length l <= fuel)%nat ->
  (forall b o, b ∈ l -> H !! b = Some o -> ho_id o <> id) -> find_id fuel H prev p id = Ok None.
Proof.
  induction l as [|b l IH]; intros p prev fuel Hc Hf Hne.
  - cbn in Hc. subst p. by destruct fuel.
  - destruct Hc as (-> & o & Ho & Hc). cbn [length] in Hf. destruct fuel as [|k]; [lia|].
    cbn [find_id]. unfold rd_obj. rewrite Ho. cbn [rbind]. rewrite decide_False by (by apply (Hne b); [left|]).
    apply IH; [done|lia|]. intros c oc Hc' Hoc. apply (Hne c); [by right|done].
Qed.

Lemma delete_id_spec t M id a : tbl_ok t M -> M id a ->
  exists t', ht_delete_id hash t id = Ok (t', true) /\ gone t t' M id a.
Proof.
  intros Hok HM. destruct (member_chain t M id a Hok HM) as (l1 & l2 & nx & Hc & Hnd & Hl & Ha & Hmem).
  pose proof Hok as (_ & _ & G1 & G2).
  assert (Hne : forall b o, b ∈ l1 -> ht_heap t !! b = Some o -> ho_id o <> id).
  { intros b o Hb Hbo Heq. assert (Hin : b ∈ l1 ++ a :: l2) by (rewrite elem_of_app; by left).
    apply Hmem in Hin as (id' & HMb & _). destruct (G1 _ _ HMb) as (nx' & Hnx').
    assert (o = mkHo id' nx') as -> by congruence. cbn in Heq. subst id'.
    assert (b = a) as -> by (by eapply G2). apply NoDup_app in Hnd as (_ & Hd & _). apply (Hd a Hb). by left. }
  unfold ht_delete_id, rd_obj. destruct l1 as [|h l1].
  - cbn [app] in *. pose proof Hc as (Hhd & _). rewrite Hhd, Ha. cbn [rbind ho_id]. rewrite decide_True by done.
    eexists. split; [reflexivity|]. by eapply gone_head.
  - pose proof Hc as (Hhd & oh & Hoh & Hc'). rewrite Hhd, Hoh. cbn [rbind].
    rewrite decide_False by (by apply (Hne h); [left|]).
    rewrite (find_id_in _ id a nx l2 l1 _ h _ Hc'); [| |done|].
    + cbn [rbind].
      assert (exists l1' c, h :: l1 = l1' ++ [c] /\ default h (last l1) = c) as (l1' & c & Hl1 & Hdef).
      { destruct l1 as [|c l1' _] using rev_ind; [by exists [], h|]. exists (h :: l1'), c. split; [done|]. by rewrite last_snoc. }
      rewrite Hl1 in *. rewrite Hdef.
      assert (Hcs : is_Some (ht_heap t !! c)).
      { eapply chain_in; [exact Hc|]. rewrite !elem_of_app, elem_of_list_singleton. tauto. }
      destruct Hcs as [oc Hoc]. rewrite Hoc. cbn [rbind]. rewrite Ha. cbn [rbind ho_next].
      eexists. split; [reflexivity|]. by eapply gone_mid.
    + rewrite app_length in Hl. cbn in Hl. lia.
    + intros b o Hb. apply Hne. by right.
Qed.
Lemma delete_id_absent t M id : tbl_ok t M -> (forall a, ~ M id a) -> ht_delete_id hash t id = Ok (t, false).
Proof.
  intros Hok HM. destruct (tab_ok_bucket _ _ _ _ id Hok) as (l & Hc & Hnd & Hl & Hm & Hin).
  assert (Hne : forall b o, b ∈ l -> ht_heap t !! b = Some o -> ho_id o <> id).
  { intros b o Hb Hbo Heq. destruct (Hin b Hb) as (id' & nx & HMb & Hnx). assert (o = mkHo id' nx) as -> by congruence.
    cbn in Heq. subst id'. by apply (HM b). }
  unfold ht_delete_id, rd_obj. destruct l as [|h l].
  - cbn in Hc. by rewrite Hc.
  - pose proof Hc as (Hhd & oh & Hoh & Hc'). rewrite Hhd, Hoh. cbn [rbind].
    rewrite decide_False by (by apply (Hne h); [left|]).
    rewrite (find_id_out _ id l _ h _ Hc'); [done| |].
    + cbn in Hl. lia.
    + intros b o Hb. apply Hne. by right.
Qed.

(** * iteration *)
Lemma walk_spec H l : forall p fuel, chain H p l None -> (length l <= fuel)%nat -> walk fuel H p = Ok l.
Proof.
  induction l as [|a l IH]; intros p fuel Hc Hf.
  - cbn in Hc. subst p. by destruct fuel.
  - destruct Hc as (-> & o & Ho & Hc). cbn [length] in Hf. destruct fuel as [|k]; [lia|].
    cbn [walk]. unfold rd_obj. rewrite Ho. cbn [rbind]. rewrite (IH _ k Hc) by lia. done.
Qed.
Lemma foreach_spec t M : tbl_ok t M -> exists l, ht_foreach t = Ok l /\ NoDup l /\ forall a, a ∈ l <-> exists id, M id a.
Proof.
  intros Hok. pose proof Hok as (P0 & (ch & Hch) & G1 & G2). unfold ht_foreach.
  enough (forall is, NoDup is -> (forall i, i ∈ is -> 0 <= i < 2 ^ ht_pow t) ->
    exists l, walk_all is (ht_heap t) (ht_tab t) = Ok l /\ NoDup l /\
      forall a, a ∈ l <-> exists id, M id a /\ bk (ht_pow t) id ∈ is) as Hall.
  { destruct (Hall (seqZ 0 (2 ^ ht_pow t))) as (l & Hl & Hnd & Hm).
    - apply NoDup_seqZ.
    - intros i Hi. apply elem_of_seqZ in Hi. lia.
    - exists l. split; [done|]. split; [done|]. intros a. rewrite Hm. split.
      + intros (id & ? & _). eauto.
      + intros (id & HM). exists id. split; [done|]. apply elem_of_seqZ. pose proof (bk_range (ht_pow t) id P0). lia. }
  induction is as [|i is IH]; intros Hnd His.
  - exists []. split; [done|]. split; [constructor|]. intros a. split; [by intros ?%elem_of_nil|].
    intros (? & _ & ?%elem_of_nil). done.
  - apply NoDup_cons in Hnd as [Hi Hnd]. destruct IH as (l & Hl & Hndl & Hm); [done|intros j Hj; apply His; by right|].
    destruct (Hch i (His i ltac:(by left))) as (Hc & Hndc & Hmc).
    exists (ch i ++ l). cbn [walk_all].
    rewrite (walk_spec _ (ch i) _ _ Hc) by (by eapply chain_size). cbn [rbind]. rewrite Hl. split; [done|]. split.
    + apply NoDup_app. split_and!; [done| |done]. intros a Ha1 Ha2. apply Hmc in Ha1 as (id1 & HM1 & Hb1).
      apply Hm in Ha2 as (id2 & HM2 & Hb2). assert (id1 = id2) as -> by (eapply tab_ok_inj; eauto). by subst i.
    + intros a. rewrite elem_of_app, Hmc, Hm. split.
      * intros [(id & ? & ?)|(id & ? & ?)]; exists id; (split; [done|]); apply elem_of_cons; auto.
      * intros (id & ? & [?|?]%elem_of_cons); eauto.
Qed.

(** a random bucket's object is in the table *)
Lemma rand_obj_spec t M fuel : forall seed a seed', tbl_ok t M -> ht_rand_obj fuel t seed = Ok (a, seed') -> exists id, M id a.
Proof.
  induction fuel as [|k IH]; intros seed a seed' Hok; [done|]. cbn [ht_rand_obj].
  destruct (_ !! _) as [b|] eqn:E; [|by apply IH]. intros [= <- _].
  pose proof Hok as (P0 & (ch & Hch) & _).
  set (i := Z.land (next_rand seed) (2 ^ ht_pow t - 1)) in *.
  assert (Hi : 0 <= i < 2 ^ ht_pow t).
  { unfold i. replace (2 ^ ht_pow t - 1) with (Z.ones (ht_pow t)) by (rewrite Z.ones_equiv; lia).
    rewrite Z.land_ones by done. apply Z.mod_pos_bound. lia. }
  destruct (Hch i Hi) as (Hc & _ & Hm). rewrite E in Hc. destruct (ch i) as [|c l] eqn:El; cbn [chain] in Hc; [done|].
  destruct Hc as (Hd & _). injection Hd as <-. assert (Hb : b ∈ b :: l) by (by left). apply Hm in Hb as (id & ? & _). eauto.
Qed.
End tab.
