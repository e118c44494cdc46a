(** LHD: the vector of tags, the index and the size map stay consistent. *)
From stdpp Require Import gmap list numbers fin_maps.
From Verif Require Import Base Driver Abs AbsFacts ModelLHD.
Open Scope Z_scope.

(** The bytes of a size map, [md] more for each object. *)
Definition zsum (md : Z) (m : gmap Z Z) : Z := map_fold (fun _ z acc => z + md + acc) 0 m.

Lemma zsum_empty md : zsum md ∅ = 0.
Proof. done. Qed.
Lemma zsum_insert md m id z : m !! id = None -> zsum md (<[id := z]> m) = z + md + zsum md m.
Proof. intros H. unfold zsum. rewrite map_fold_insert_L; [done| |done]. intros. lia. Qed.
Lemma zsum_delete md m id z : m !! id = Some z -> zsum md m = z + md + zsum md (delete id m).
Proof. intros H. rewrite <- (insert_delete m id z) at 1 by done. by rewrite zsum_insert by apply lookup_delete. Qed.
Lemma zsum_update md m id z z' : m !! id = Some z -> zsum md (<[id := z']> m) = zsum md m - z + z'.
Proof.
  intros H. rewrite <- insert_delete_insert, zsum_insert by apply lookup_delete. rewrite (zsum_delete md m id z H). lia.
Qed.
Lemma zsum_nonneg md m : 0 <= md -> (forall id z, m !! id = Some z -> 0 <= z) -> 0 <= zsum md m.
Proof.
  intros Hmd. induction m as [|i x m Hi IH] using map_ind; [done|]. intros H. rewrite zsum_insert by done.
  assert (0 <= x) by (apply (H i); apply lookup_insert).
  assert (0 <= zsum md m); [|lia]. apply IH. intros j z Hj. apply (H j). rewrite lookup_insert_ne; [done|congruence].
Qed.
Lemma zsum_msum md (m : gmap Z entry) : zsum md (e_size <$> m) = msum md m.
Proof.
  induction m as [|i x m Hi IH] using map_ind; [by rewrite fmap_empty|].
  rewrite fmap_insert, zsum_insert, msum_insert; [lia|done|]. by rewrite lookup_fmap, Hi.
Qed.

Lemma hit_age_loop_bound n : forall a l, l <= hit_age_loop n a l <= l + Z.of_nat n.
Proof.
  induction n as [|n IH]; intros a l; cbn [hit_age_loop]; [lia|].
  destruct (decide _); [|lia]. specialize (IH (a * 2) (l + 1)). lia.
Qed.
Lemma class_of_ok t : t_app t = 1 -> exists c, class_of t = Ok c.
Proof.
  intros H. unfold class_of, hit_age_class. rewrite H.
  set (x := if decide (t_last t + t_prev t = 0) then _ else _).
  assert (0 <= x <= 15) as Hx.
  { unfold x. destruct (decide _); [done|]. pose proof (hit_age_loop_bound 15 (t_last t + t_prev t) 0). lia. }
  rewrite decide_True by (unfold HIT_AGE_CLASSES, NUM_CLASSES; lia). eauto.
Qed.

(** The index has the positions of the ids in the vector. *)
Definition indexed (l : list tag) (ix : gmap Z nat) : Prop :=
  forall id i, ix !! id = Some i <-> exists t, l !! i = Some t /\ t_id t = id.

Definition tag_size (l : list tag) (ix : gmap Z nat) (id : Z) : option Z :=
  ix !! id ≫= (fun i => t_size <$> l !! i).

Lemma indexed_inj l ix i j t u : indexed l ix -> l !! i = Some t -> l !! j = Some u -> t_id t = t_id u -> i = j.
Proof.
  intros H Hi Hj E. assert (ix !! t_id t = Some i) by (apply H; eauto).
  assert (ix !! t_id u = Some j) by (apply H; eauto). congruence.
Qed.

Lemma indexed_size l ix id i t : indexed l ix -> l !! i = Some t -> t_id t = id -> tag_size l ix id = Some (t_size t).
Proof.
  intros H Hi E. assert (ix !! id = Some i) as Hx by (apply H; eauto). unfold tag_size. rewrite Hx. cbn. by rewrite Hi.
Qed.

Lemma tag_size_Some l ix id : indexed l ix -> is_Some (tag_size l ix id) <-> is_Some (ix !! id).
Proof.
  intros H. unfold tag_size. destruct (ix !! id) as [i|] eqn:E; cbn; [|split; by intros []].
  apply H in E as (t & -> & _). cbn. split; eauto.
Qed.

(** A tag is overwritten in place. *)
Lemma indexed_set l ix i t u : indexed l ix -> l !! i = Some t -> t_id u = t_id t ->
  indexed (<[i := u]> l) ix /\
  forall id, tag_size (<[i := u]> l) ix id = if decide (id = t_id u) then Some (t_size u) else tag_size l ix id.
Proof.
  intros H Hi E. assert (Hlen : (i < length l)%nat) by (by eapply lookup_lt_Some).
  assert (H' : indexed (<[i := u]> l) ix).
  { intros id j. rewrite (H id j : _ <-> _). split.
    - intros (x & Hx & Hid). destruct (decide (i = j)) as [<-|Hne].
      + exists u. rewrite list_lookup_insert by done. split; [done|]. congruence.
      + exists x. by rewrite list_lookup_insert_ne.
    - intros (x & Hx & Hid). destruct (decide (i = j)) as [<-|Hne].
      + rewrite list_lookup_insert in Hx by done. injection Hx as <-. exists t. split; [done|congruence].
      + rewrite list_lookup_insert_ne in Hx by done. eauto. }
  split; [done|]. intros id. destruct (decide (id = t_id u)) as [->|Hne].
  - eapply indexed_size; [done| |done]. by apply list_lookup_insert.
  - unfold tag_size. destruct (ix !! id) as [j|] eqn:Ej; [|done]. cbn.
    destruct (decide (i = j)) as [<-|Hij]; [|by rewrite list_lookup_insert_ne].
    exfalso. apply H in Ej as (x & Hx & Hid). apply Hne. congruence.
Qed.

Lemma indexed_push l ix u : indexed l ix -> ix !! t_id u = None ->
  indexed (l ++ [u]) (<[t_id u := length l]> ix) /\
  forall id, tag_size (l ++ [u]) (<[t_id u := length l]> ix) id = if decide (id = t_id u) then Some (t_size u) else tag_size l ix id.
Proof.
  intros H Hn.
  assert (H' : indexed (l ++ [u]) (<[t_id u := length l]> ix)).
  { intros id j. split.
    - intros [[<- <-]|[Hne Hj]]%lookup_insert_Some.
      + exists u. by rewrite list_lookup_middle.
      + apply H in Hj as (x & Hx & Hid). exists x. split; [|done]. by apply lookup_app_l_Some.
    - intros (x & Hx & Hid). apply lookup_app_Some in Hx as [Hx|[Hge Hx]].
      + assert (Hj : ix !! id = Some j) by (apply H; eauto). rewrite lookup_insert_ne; [done|]. intros E. congruence.
      + apply list_lookup_singleton_Some in Hx as [Hz <-]. subst id. replace j with (length l) by lia. apply lookup_insert. }
  split; [done|]. intros id. destruct (decide (id = t_id u)) as [->|Hne].
  - eapply indexed_size; [done| |done]. by rewrite list_lookup_middle.
  - unfold tag_size. rewrite lookup_insert_ne by done. destruct (ix !! id) as [j|] eqn:Ej; [|done]. cbn.
    apply H in Ej as (x & Hx & Hid). rewrite Hx. by rewrite (lookup_app_l_Some _ _ _ _ Hx).
Qed.

(** The last tag takes the place of the dropped one. *)
Lemma removelast_lookup {A} (l : list A) j : removelast l !! j = if decide (S j < length l)%nat then l !! j else None.
Proof.
  rewrite removelast_firstn_len. destruct (decide _) as [Hd|Hd].
  - rewrite lookup_take; [done|lia].
  - apply lookup_take_ge. lia.
Qed.

Lemma indexed_drop l ix id i : indexed l ix -> ix !! id = Some i ->
  exists l', swap_pop l i = Ok l' /\ (forall j t, l' !! j = Some t -> exists k, l !! k = Some t) /\
    let ix' := match l' !! i with Some t => <[t_id t := i]> (delete id ix) | None => delete id ix end in
    indexed l' ix' /\ forall j, tag_size l' ix' j = if decide (j = id) then None else tag_size l ix j.
Proof.
  intros H Hid. destruct (proj1 (H _ _) Hid) as (t & Ht & Hti).
  pose proof (lookup_lt_Some _ _ _ Ht) as Hlt.
  unfold swap_pop. destruct (last l) as [t0|] eqn:Hl; [|apply last_None in Hl as ->; cbn in Hlt; lia].
  rewrite decide_True by done. eexists. split; [done|].
  rewrite last_lookup in Hl. set (n := pred (length l)) in *.
  set (l' := removelast (<[i := t0]> l)).
  assert (HL : forall j, l' !! j = if decide (j < n)%nat then (if decide (j = i) then Some t0 else l !! j) else None).
  { intros j. unfold l'. rewrite removelast_lookup, insert_length.
    destruct (decide (j < n)%nat) as [Hj|Hj]; [rewrite decide_True by lia|by rewrite decide_False by lia].
    destruct (decide (j = i)) as [->|]; [by apply list_lookup_insert|by apply list_lookup_insert_ne]. }
  split.
  { intros j x. rewrite HL. destruct (decide _); [|done]. destruct (decide _); [intros [= <-]|]; eauto. }
  assert (Hback : forall j x k, l !! k = Some x -> t_id x = j -> j <> id -> (k < n)%nat \/ k = n).
  { intros j x k Hk _ _. apply lookup_lt_Some in Hk. lia. }
  cbv zeta. set (ix' := match l' !! i with Some t => <[t_id t := i]> (delete id ix) | None => delete id ix end).
  assert (HI : indexed l' ix').
  { destruct (decide (i = n)) as [->|Hin].
    - assert (ix' = delete id ix) as -> by (unfold ix'; by rewrite HL, decide_False by lia).
      intros j k. rewrite lookup_delete_Some, (H j k : _ <-> _). split.
      + intros (Hne & x & Hx & Hxj). exists x. split; [|done]. rewrite HL.
        assert (k <> n) by (intros ->; congruence). pose proof (lookup_lt_Some _ _ _ Hx).
        rewrite decide_True by lia. by rewrite decide_False by lia.
      + intros (x & Hx & Hxj). rewrite HL in Hx. destruct (decide (k < n)%nat); [|done].
        rewrite decide_False in Hx by lia. split; [|eauto]. intros <-.
        assert (k = n); [|lia]. eapply (indexed_inj l ix); eauto. congruence.
    - assert (Hi' : (i < n)%nat) by lia.
      assert (ix' = <[t_id t0 := i]> (delete id ix)) as -> by (unfold ix'; by rewrite HL, decide_True, decide_True by lia).
      assert (Hid0 : t_id t0 <> id). { intros E. apply Hin. eapply (indexed_inj l ix); eauto. congruence. }
      intros j k. rewrite lookup_insert_Some, lookup_delete_Some, (H j k : _ <-> _). split.
      + intros [[<- <-]|(Hj0 & Hj & x & Hx & Hxj)].
        * exists t0. by rewrite HL, decide_True, decide_True by lia.
        * exists x. split; [|done]. rewrite HL. pose proof (lookup_lt_Some _ _ _ Hx).
          assert (k <> n) by (intros ->; congruence). assert (k <> i) by (intros ->; congruence).
          rewrite decide_True by lia. by rewrite decide_False by done.
      + intros (x & Hx & Hxj). rewrite HL in Hx. destruct (decide (k < n)%nat); [|done].
        destruct (decide (k = i)) as [->|Hki]; [injection Hx as <-; by left|right].
        split; [|split; [|eauto]].
        * intros E. assert (k = n); [|lia]. eapply (indexed_inj l ix); eauto. congruence.
        * intros ->. apply Hki. eapply (indexed_inj l ix); eauto. congruence. }
  split; [done|]. intros j. destruct (decide (j = id)) as [->|Hj].
  - unfold tag_size. destruct (ix' !! id) as [k|] eqn:E; [|done]. exfalso.
    apply HI in E as (x & Hx & Hxi). rewrite HL in Hx. destruct (decide (k < n)%nat); [|done].
    destruct (decide (k = i)) as [->|Hki].
    + injection Hx as ->. assert (i = n); [|lia]. eapply (indexed_inj l ix); eauto. congruence.
    + apply Hki. eapply (indexed_inj l ix); eauto. congruence.
  - destruct (ix !! j) as [k|] eqn:E.
    + pose proof E as E'. apply H in E as (x & Hx & Hxj).
      rewrite (indexed_size l ix j k x H Hx Hxj).
      assert (exists k', l' !! k' = Some x) as [k' Hk'].
      { pose proof (lookup_lt_Some _ _ _ Hx). assert (k <> i) by (intros ->; congruence).
        destruct (decide (k = n)) as [->|Hkn].
        - exists i. rewrite HL, decide_True, decide_True by lia. congruence.
        - exists k. rewrite HL, decide_True by lia. by rewrite decide_False. }
      by eapply indexed_size.
    + assert (tag_size l ix j = None) as -> by (unfold tag_size; by rewrite E).
      unfold tag_size. destruct (ix' !! j) as [k|] eqn:E'; [|done]. exfalso.
      apply HI in E' as (x & Hx & Hxj). rewrite HL in Hx. destruct (decide (k < n)%nat); [|done].
      assert (exists k', l !! k' = Some x) as [k' Hk'] by (destruct (decide (k = i)); [injection Hx as <-|]; eauto).
      assert (ix !! j = Some k') by (apply H; eauto). congruence.
Qed.

Section LHD.
  Context {W F : Type}.
  Context (flt : F -> F -> bool) (fmax flow : F) (coarse : W -> Z) (density : W -> Z -> Z -> Z -> bool -> F)
          (below : F -> W -> bool) (saw_victim : F -> W -> W) (saw_hit saw_evict : Z -> Z -> W -> W)
          (relearn : Z -> Z -> W -> W) (rand : W -> Z * W).
  Context (Hflow : flt flow fmax = true).
  Context (Hden : forall w c a z e, 1 <= z -> flt (density w c a z e) fmax = true).
  Context (cap md : Z) (Hmd : 0 <= md).

  Notation upd := (lhd_update (F := F) flow coarse density below saw_hit relearn rand).
  Notation OO := (lhd_ops flt fmax flow coarse density below saw_victim saw_hit saw_evict relearn rand).

  Definition vok (s : @lhd W) : Prop :=
    indexed (h_tags s) (h_ix s) /\ (forall i t, h_tags s !! i = Some t -> t_app t = 1) /\ length (h_adm s) = 8%nat.
  Definition tsz (s : @lhd W) (id : Z) : option Z := tag_size (h_tags s) (h_ix s) id.

  Lemma density_ok (s : @lhd W) t : t_app t = 1 ->
    exists x, hit_density flow coarse density s t = Ok x /\ (1 <= t_size t -> flt x fmax = true).
  Proof using Hflow Hden.
    intros Ha. unfold hit_density. destruct (decide _); [eauto|].
    destruct (class_of_ok t Ha) as [c ->]. cbn [rbind]. eauto.
  Qed.

  Lemma touch_ok (s : @lhd W) id : vok s ->
    exists s' i t ins, touch_tag coarse saw_hit s id = Ok (s', i, t, ins) /\
      h_c s' = h_c s /\ h_sz s' = h_sz s /\ h_cand s' = h_cand s /\ h_gen s' = h_gen s /\ h_adm s' = h_adm s /\
      (forall u, t_id u = id -> t_app u = 1 ->
        indexed (<[i := u]> (h_tags s')) (h_ix s') /\
        (forall k x, <[i := u]> (h_tags s') !! k = Some x -> t_app x = 1) /\
        forall j, tag_size (<[i := u]> (h_tags s')) (h_ix s') j = if decide (j = id) then Some (t_size u) else tsz s j).
  Proof using.
    intros (HI & HT & HA). unfold touch_tag. destruct (h_ix s !! id) as [i|] eqn:E.
    - destruct (proj1 (HI _ _) E) as (t & Ht & Hid). rewrite Ht, decide_True by done.
      destruct (class_of_ok t (HT _ _ Ht)) as [c ->]. cbn [rbind].
      eexists _, i, _, false. split; [done|]. destruct (t_exp t); cbn; split_and!; try done;
      intros u Hu Hua; (destruct (indexed_set _ _ i t u HI Ht) as [H1 H2]; [congruence|]);
      (split; [done|]); (split; [|by rewrite Hu in H2]);
      intros k x Hx; (destruct (decide (i = k)) as [<-|Hne];
        [rewrite list_lookup_insert in Hx by (by eapply lookup_lt_Some); by injection Hx as <-
        |rewrite list_lookup_insert_ne in Hx by done; eauto]).
    - eexists _, _, _, true. split; [done|]. cbn. split_and!; try done. intros u Hu Hua.
      assert (HE : <[length (h_tags s) := u]> (h_tags s ++ [mkTag 0 0 MAX_AGE 0 id 0 false]) = h_tags s ++ [u]).
      { rewrite insert_app_r_alt by lia. by rewrite Nat.sub_diag. }
      rewrite HE. subst id. destruct (indexed_push _ _ u HI E) as [H1 H2].
      split; [done|]. split; [|done]. intros k x [Hx|[_ Hx]]%lookup_app_Some; [eauto|].
      by apply list_lookup_singleton_Some in Hx as [_ <-].
  Qed.

  Lemma update_ok s id r : vok s -> exists s', upd s id r = Ok s' /\
    h_c s' = h_c s /\ h_sz s' = h_sz s /\ h_cand s' = h_cand s /\ h_gen s' = h_gen s /\
    vok s' /\ forall j, tsz s' j = if decide (j = id) then Some (r_size r) else tsz s j.
  Proof using Hflow Hden.
    intros HV. destruct (touch_ok s id HV) as (s1 & i & t & ins & Ht & Hc & Hs & Hca & Hg & Had & HU).
    unfold lhd_update. rewrite Ht. cbn [rbind].
    destruct (rand (h_w s1)) as [x w].
    set (exp := (bool_decide (x mod 32 = 0) && _)%bool).
    set (u := mkTag _ _ _ 1 id (r_size r) exp).
    set (s2 := if exp then _ else _).
    assert (h_tags s2 = h_tags s1 /\ h_ix s2 = h_ix s1 /\ h_c s2 = h_c s1 /\ h_sz s2 = h_sz s1 /\
      h_cand s2 = h_cand s1 /\ h_gen s2 = h_gen s1 /\ h_adm s2 = h_adm s1) as (E1 & E2 & E3 & E4 & E5 & E6 & E7)
      by (unfold s2; destruct exp; done).
    clearbody s2.
    destruct (density_ok (h_set_vec s2 (<[i:=u]> (h_tags s2)) (h_ix s2)) u eq_refl) as (d & -> & _). cbn [rbind].
    destruct (HU u eq_refl eq_refl) as (U1 & U2 & U3).
    destruct HV as (HI & HT & HA). cbn.
    assert (HL : length (h_adm s2) = 8%nat) by congruence.
    lazymatch goal with |- context [if ?b then (if decide _ then Ok _ else Err OutOfBounds) else Ok _] => destruct b end.
    - rewrite decide_True.
      2:{ rewrite HL. pose proof (Z.mod_pos_bound (h_head s2) 8 ltac:(lia)). lia. }
      cbn. eexists. split; [done|]. cbn. rewrite E1, E2, E3, E4, E5, E6.
      split_and!; try done. split_and!; cbn; [done|done|]. by rewrite insert_length.
    - cbn. eexists. split; [done|]. cbn. rewrite E1, E2, E3, E4, E5, E6.
      split_and!; try done. 
  Qed.

  (** The choice of a victim. *)
  Definition same (s s' : @lhd W) : Prop := exists w, s' = h_set_w s w.
  Lemma same_set s s' w : same s s' -> same s (h_set_w s' w).
  Proof using. intros [w' ->]. by exists w. Qed.

  Definition best_ok (n : nat) (b : option nat * F) : Prop := exists i, fst b = Some i /\ (i < n)%nat.

  Lemma better_ok (s : @lhd W) b i : (forall i t, h_tags s !! i = Some t -> t_app t = 1 /\ 1 <= t_size t) ->
    (i < length (h_tags s))%nat -> best_ok (length (h_tags s)) b \/ b = (None, fmax) ->
    exists b', better flt flow coarse density s b i = Ok b' /\ best_ok (length (h_tags s)) b'.
  Proof using Hflow Hden.
    intros HT Hi Hb. unfold better. destruct (lookup_lt_is_Some_2 _ _ Hi) as [t Ht]. rewrite Ht.
    destruct (HT _ _ Ht) as [Ha Hz].
    destruct (density_ok s t Ha) as (x & -> & Hx). cbn [rbind]. eexists. split; [done|].
    destruct Hb as [Hb| ->]; [|cbn; rewrite (Hx Hz); by exists i].
    destruct (flt x (snd b)); [by exists i|done].
  Qed.

  Lemma sample_ok n : forall (s : @lhd W) b, (forall i t, h_tags s !! i = Some t -> t_app t = 1 /\ 1 <= t_size t) ->
    (0 < length (h_tags s))%nat -> best_ok (length (h_tags s)) b \/ b = (None, fmax) /\ (0 < n)%nat ->
    exists s' b', sample flt flow coarse density rand n s b = Ok (s', b') /\ same s s' /\ best_ok (length (h_tags s)) b'.
  Proof using Hflow Hden.
    induction n as [|n IH]; intros s b HT Hl Hb; cbn [sample].
    - destruct Hb as [Hb|[_ Hb]]; [|lia]. exists s, b. split_and!; try done. exists (h_w s). by destruct s.
    - destruct (rand (h_w s)) as [x w]. cbn. rewrite decide_False by lia.
      pose proof (Z.mod_pos_bound x (Z.of_nat (length (h_tags s))) ltac:(lia)).
      destruct (better_ok (h_set_w s w) b (Z.to_nat (x mod Z.of_nat (length (h_tags s))))) as (b1 & -> & Hb1);
        [done|cbn; lia|cbn; destruct Hb as [Hb|[Hb _]]; auto|]. cbn.
      destruct (IH (h_set_w s w) b1) as (s' & b' & Hs & [w' ->] & Hb'); [done|done|by left|].
      exists (h_set_w s w'), b'. split_and!; [exact Hs|by exists w'|done].
  Qed.

  Lemma admitted_ok l : forall (s : @lhd W) b, (forall i t, h_tags s !! i = Some t -> t_app t = 1 /\ 1 <= t_size t) ->
    indexed (h_tags s) (h_ix s) -> best_ok (length (h_tags s)) b ->
    exists b', admitted flt flow coarse density l s b = Ok b' /\ best_ok (length (h_tags s)) b'.
  Proof using Hflow Hden.
    induction l as [|a l IH]; intros s b HT HI Hb; cbn [admitted]; [eauto|].
    destruct a as [id|]; cbn [mbind option_bind]; [|by apply IH].
    destruct (h_ix s !! id) as [i|] eqn:E; [|by apply IH].
    destruct (proj1 (HI _ _) E) as (t & Ht & Hid). rewrite Ht. cbn. rewrite decide_True by congruence.
    destruct (better_ok s b i HT) as (b1 & -> & Hb1); [by eapply lookup_lt_Some|by left|]. cbn. by apply IH.
  Qed.

  Lemma rank_ok (s : @lhd W) : (forall i t, h_tags s !! i = Some t -> t_app t = 1 /\ 1 <= t_size t) ->
    indexed (h_tags s) (h_ix s) -> h_tags s <> [] ->
    exists s' v, lhd_rank flt fmax flow coarse density saw_victim rand s = Ok (s', v) /\ same s s' /\ is_Some (h_ix s !! v).
  Proof using Hflow Hden.
    intros HT HI Hne. unfold lhd_rank.
    assert (0 < length (h_tags s))%nat by (destruct (h_tags s); cbn; [done|lia]).
    destruct (sample_ok (if decide (h_nrec s > 50) then 32%nat else 8%nat) s (None, fmax))
      as (s1 & b1 & -> & [w ->] & Hb1); [done|done|right; split; [done|destruct (decide _); lia]|]. cbn.
    destruct (admitted_ok (h_adm s) (h_set_w s w) b1) as (b2 & -> & (i & Hi & Hlt)); [done|done|done|]. cbn.
    rewrite Hi. cbn in Hlt. destruct (lookup_lt_is_Some_2 _ _ Hlt) as [t Ht]. rewrite Ht.
    eexists _, _. split; [done|]. split; [by eexists|]. exists i. apply HI. eauto.
  Qed.

  Lemma drop_ok (s : @lhd W) id i : vok s -> h_ix s !! id = Some i ->
    exists s', drop_tag s id i = Ok s' /\ h_c s' = h_c s /\ h_sz s' = h_sz s /\ h_cand s' = h_cand s /\ h_gen s' = h_gen s /\
      vok s' /\ forall j, tsz s' j = if decide (j = id) then None else tsz s j.
  Proof using.
    intros (HI & HT & HA) Hi. unfold drop_tag.
    destruct (indexed_drop _ _ _ _ HI Hi) as (l' & -> & Hsub & HI' & Hsz). cbn [rbind].
    eexists. split; [done|]. cbn. split_and!; try done. split_and!; cbn; [done| |done].
    intros k t Hk. destruct (Hsub _ _ Hk) as [k' Hk']. eauto.
  Qed.

  Lemma replaced_ok (s : @lhd W) id : vok s -> is_Some (h_ix s !! id) ->
    exists s', lhd_replaced coarse saw_evict s id = Ok s' /\ h_c s' = h_c s /\ h_sz s' = h_sz s /\
      h_cand s' = h_cand s /\ h_gen s' = h_gen s /\
      vok s' /\ forall j, tsz s' j = if decide (j = id) then None else tsz s j.
  Proof using.
    intros HV [i Hi]. unfold lhd_replaced. rewrite Hi. pose proof HV as (HI & HT & HA).
    destruct (proj1 (HI _ _) Hi) as (t & Ht & Hid). rewrite Ht, decide_True by done.
    destruct (class_of_ok t (HT _ _ Ht)) as [c ->]. cbn [rbind].
    destruct (t_exp t).
    - destruct (drop_ok (h_set_bud (h_set_w s (saw_evict c (age_of coarse s t) (h_w s)))
        (h_bud (h_set_w s (saw_evict c (age_of coarse s t) (h_w s))) + t_size t)) id i HV Hi) as (s' & Hs & H); eauto.
    - destruct (drop_ok (h_set_w s (saw_evict c (age_of coarse s t) (h_w s))) id i HV Hi) as (s' & Hs & H); eauto.
  Qed.

  (** The invariant. *)
  Record hok (s : @lhd W) : Prop := {
    k_v : vok s;
    k_sz : forall id, tsz s id = h_sz s !! id;
    k_pos : forall id z, h_sz s !! id = Some z -> 1 <= z /\ z + md < 2 ^ 32;
    k_occ : c_occ (h_c s) = zsum md (h_sz s);
    k_nobj : c_nobj (h_c s) = Z.of_nat (size (h_sz s));
    k_nreq : 0 <= c_nreq (h_c s);
    k_gen : h_gen s <= c_nreq (h_c s);
    k_size : c_size (h_c s) = cap;
    k_md : c_md (h_c s) = md
  }.
  Definition cand_ok (s : @lhd W) : Prop :=
    h_gen s = c_nreq (h_c s) -> exists v, h_cand s = Some v /\ is_Some (h_sz s !! v).
  (** the size can be asked for *)
  Definition sz_ok (r : req) : Prop := 1 <= r_size r /\ r_size r + md < 2 ^ 32.

  Lemma k_tags s : hok s -> forall i t, h_tags s !! i = Some t -> t_app t = 1 /\ 1 <= t_size t.
  Proof using.
    intros H i t Ht. pose proof (k_v s H) as (HI & HT & HA). split; [eauto|].
    pose proof (indexed_size _ _ _ i t HI Ht eq_refl) as E. fold (tsz s (t_id t)) in E.
    rewrite (k_sz s H) in E. by apply (k_pos s H) in E as [? _].
  Qed.
  Lemma k_resident s v : hok s -> is_Some (h_ix s !! v) <-> is_Some (h_sz s !! v).
  Proof using.
    intros H. rewrite <- (k_sz s H). unfold tsz. pose proof (k_v s H) as (HI & _). symmetry. by apply tag_size_Some.
  Qed.
  Lemma k_nonempty s : hok s -> h_sz s <> ∅ -> h_tags s <> [].
  Proof using.
    intros H Hne E. apply map_choose in Hne as (i & z & Hi).
    assert (is_Some (h_ix s !! i)) as [k Hk] by (apply k_resident; eauto).
    pose proof (k_v s H) as (HI & _). apply HI in Hk as (t & Ht & _). by rewrite E in Ht.
  Qed.

  Lemma tick_hok s : hok s -> hok (op_tick OO s) /\ cand_ok (op_tick OO s).
  Proof using.
    intros [K1 K2 K3 K4 K5 K6 K7 K8 K9]. split; [split; cbn; try done; lia|]. unfold cand_ok. cbn. lia.
  Qed.

  Lemma find_false s r : op_find OO s r false = Ok (s, bool_decide (is_Some (h_sz s !! r_id r))).
  Proof using. cbn. unfold lhd_find. by destruct (h_sz s !! r_id r). Qed.
  Lemma find_miss s r u : h_sz s !! r_id r = None -> op_find OO s r u = Ok (s, false).
  Proof using. intros E. cbn. unfold lhd_find. by rewrite E. Qed.

  Lemma find_hit s r z : hok s -> cand_ok s -> sz_ok r -> h_sz s !! r_id r = Some z ->
    exists s', op_find OO s r true = Ok (s', true) /\ hok s' /\ cand_ok s' /\
      h_sz s' = <[r_id r := r_size r]> (h_sz s) /\ c_nreq (h_c s') = c_nreq (h_c s) /\
      c_adm (h_c s') = c_adm (h_c s) /\ h_gen s' = h_gen s /\ h_cand s' = h_cand s.
  Proof using Hflow Hden Hmd.
    intros H HC [Hr1 Hr2] Hz. cbn. unfold lhd_find. rewrite Hz.
    assert (Hu : u32 (r_size r) = r_size r) by (apply Z.mod_small; lia). rewrite Hu.
    set (s1 := if decide _ then _ else _).
    assert (HS : h_sz s1 = <[r_id r := r_size r]> (h_sz s)).
    { unfold s1. destruct (decide (z <> r_size r)) as [|E]; [done|]. apply dec_stable in E as <-. by rewrite insert_id. }
    assert (HO : c_occ (h_c s1) = c_occ (h_c s) - z + r_size r).
    { unfold s1. destruct (decide (z <> r_size r)) as [|E]; [done|]. apply dec_stable in E as <-. lia. }
    assert (vok s1 /\ (forall j, tsz s1 j = tsz s j) /\ c_nobj (h_c s1) = c_nobj (h_c s) /\ c_nreq (h_c s1) = c_nreq (h_c s) /\
      c_adm (h_c s1) = c_adm (h_c s) /\ c_size (h_c s1) = c_size (h_c s) /\ c_md (h_c s1) = c_md (h_c s) /\
      h_gen s1 = h_gen s /\ h_cand s1 = h_cand s) as (V1 & E2 & E3 & E4 & E5 & E6 & E7 & E8 & E9).
    { pose proof (k_v s H) as HV. unfold s1. destruct (decide _); cbn; done. }
    clearbody s1.
    destruct (update_ok s1 (r_id r) r V1) as (s' & -> & F1 & F2 & F3 & F4 & V' & F5). cbn [rbind].
    assert (HP : forall id x, h_sz s' !! id = Some x -> 1 <= x /\ x + md < 2 ^ 32).
    { intros id x. rewrite F2, HS. intros [[_ <-]|[_ Hx]]%lookup_insert_Some; [done|by eapply k_pos]. }
    exists s'. split; [done|]. split_and!.
    - split.
      + done.
      + intros id. rewrite F5, F2, HS, E2, (k_sz s H). destruct (decide (id = r_id r)) as [->|Hne].
        * by rewrite lookup_insert. * by rewrite lookup_insert_ne.
      + done.
      + rewrite F1, F2, HS, HO, (k_occ s H), (zsum_update md _ _ z) by done. lia.
      + rewrite F1, F2, HS, E3, (k_nobj s H), map_size_insert_Some by eauto. done.
      + rewrite F1, E4. apply H.
      + rewrite F1, F4, E4, E8. apply H.
      + rewrite F1, E6. apply H.
      + rewrite F1, E7. apply H.
    - unfold cand_ok. rewrite F1, F2, F3, F4, HS, E4, E8, E9. intros Hg. destruct (HC Hg) as (v & -> & Hv).
      exists v. split; [done|]. destruct (decide (v = r_id r)) as [->|]; [rewrite lookup_insert; eauto|by rewrite lookup_insert_ne].
    - by rewrite F2.
    - by rewrite F1.
    - by rewrite F1.
    - by rewrite F4.
    - by rewrite F3.
  Qed.

  Lemma insert_ok s r : hok s -> cand_ok s -> sz_ok r -> h_sz s !! r_id r = None ->
    exists s', op_insert OO s r = Ok s' /\ hok s' /\ cand_ok s' /\
      h_sz s' = <[r_id r := r_size r]> (h_sz s) /\ c_nreq (h_c s') = c_nreq (h_c s) /\
      c_adm (h_c s') = c_adm (h_c s) /\ h_gen s' = h_gen s /\ h_cand s' = h_cand s.
  Proof using Hflow Hden Hmd.
    intros H HC [Hr1 Hr2] Hz. cbn. unfold lhd_insert.
    assert (Hu : u32 (r_size r) = r_size r) by (apply Z.mod_small; lia). rewrite Hu.
    destruct (update_ok (h_set_sz s (<[r_id r := r_size r]> (h_sz s))) (r_id r) r (k_v s H))
      as (s' & -> & F1 & F2 & F3 & F4 & V' & F5). cbn [rbind]. cbn in F1, F2, F3, F4, F5.
    eexists. split; [done|]. cbn. rewrite F1, F2, F3, F4. split_and!; try done.
    - split; cbn; rewrite ?F1, ?F2, ?F4; try apply H.
      + exact V'.
      + intros id. specialize (F5 id). unfold tsz in F5 |- *. cbn in F5 |- *. rewrite F5.
        pose proof (k_sz s H id) as E. unfold tsz in E.
        destruct (decide (id = r_id r)) as [->|Hne]; [by rewrite lookup_insert|]. by rewrite lookup_insert_ne.
      + intros id x [[_ <-]|[_ Hx]]%lookup_insert_Some; [done|by eapply k_pos].
      + rewrite zsum_insert by done. rewrite (k_occ s H), (k_md s H). lia.
      + rewrite map_size_insert_None by done. rewrite (k_nobj s H). lia.
    - unfold cand_ok. cbn. rewrite F1, F2, F3, F4. intros Hg. destruct (HC Hg) as (v & -> & Hv).
      exists v. split; [done|]. rewrite lookup_insert_ne; [done|]. intros <-. rewrite Hz in Hv. by destruct Hv.
  Qed.

  Lemma rank_s s : hok s -> h_sz s <> ∅ ->
    exists w v, lhd_rank flt fmax flow coarse density saw_victim rand s = Ok (h_set_w s w, v) /\ is_Some (h_sz s !! v).
  Proof using Hflow Hden.
    intros H Hne. destruct (rank_ok s) as (s' & v & E & [w ->] & Hv).
    - by apply k_tags. - apply H. - by apply k_nonempty.
    - exists w, v. split; [done|]. by apply k_resident.
  Qed.
  Lemma hok_w s w : hok s -> hok (h_set_w s w).
  Proof using. intros []. by split. Qed.
  Lemma hok_cand s v g : hok s -> g <= c_nreq (h_c s) -> hok (h_set_cand s v g).
  Proof using. intros [] ?. by split. Qed.

  (** What is common to evict and remove. *)
  Lemma hok_drop s v z s' : hok s -> h_sz s !! v = Some z ->
    h_c s' = h_c (h_count s (c_occ (h_c s) - u32 (z + c_md (h_c s))) (c_nobj (h_c s) - 1)) ->
    h_sz s' = delete v (h_sz s) -> h_gen s' = h_gen s -> vok s' ->
    (forall j, tsz s' j = if decide (j = v) then None else tsz s j) -> hok s'.
  Proof using Hmd.
    intros H Hz Ec Es Eg HV HT. destruct (k_pos s H _ _ Hz) as [Hz1 Hz2].
    assert (Hu : u32 (z + md) = z + md) by (apply Z.mod_small; lia).
    split.
    - done.
    - intros id. rewrite HT, Es, (k_sz s H). destruct (decide (id = v)) as [->|]; [by rewrite lookup_delete|by rewrite lookup_delete_ne].
    - intros id x. rewrite Es. intros [_ Hx]%lookup_delete_Some. by eapply k_pos.
    - rewrite Ec, Es. cbn. rewrite (k_md s H), Hu, (k_occ s H), (zsum_delete md _ v z Hz). lia.
    - rewrite Ec, Es. cbn. rewrite (k_nobj s H).
      rewrite map_size_delete_Some by eauto. assert (0 < size (h_sz s))%nat; [|lia].
      destruct (size (h_sz s)) eqn:E; [|lia]. apply map_size_empty_inv in E. by rewrite E in Hz.
    - rewrite Ec. apply H.
    - rewrite Ec, Eg. apply H.
    - rewrite Ec. apply H.
    - rewrite Ec. apply H.
  Qed.

  Lemma to_evict_ok s r : hok s -> h_sz s <> ∅ ->
    exists v s', op_to_evict OO s r = Ok (s', Some v) /\ is_Some (h_sz s !! v) /\ hok s' /\ cand_ok s' /\
      h_sz s' = h_sz s /\ h_c s' = h_c s /\ h_cand s' = Some v /\ h_gen s' = c_nreq (h_c s).
  Proof using Hflow Hden.
    intros H Hne. cbn. unfold lhd_to_evict. destruct (rank_s s H Hne) as (w & v & -> & Hv). cbn.
    destruct Hv as [z Hz]. rewrite Hz. exists v. eexists. split; [done|]. split; [done|].
    split; [apply hok_cand; [by apply hok_w|done]|]. split_and!; try done. unfold cand_ok. cbn. eauto.
  Qed.

  Lemma evict_ok s r : hok s -> cand_ok s -> h_sz s <> ∅ ->
    exists v s', op_evict OO s r = Ok s' /\ is_Some (h_sz s !! v) /\ hok s' /\ cand_ok s' /\
      h_sz s' = delete v (h_sz s) /\ c_nreq (h_c s') = c_nreq (h_c s) /\ c_adm (h_c s') = c_adm (h_c s) /\
      (h_gen s = c_nreq (h_c s) -> h_cand s = Some v) /\ (h_gen s' = -1 \/ h_gen s' = h_gen s) /\ h_gen s' <> c_nreq (h_c s').
  Proof using Hflow Hden Hmd.
    intros H HC Hne. cbn. unfold lhd_evict.
    assert (exists s1 v, (if decide (h_gen s = c_nreq (h_c s)) then Ok (h_set_cand s (h_cand s) (-1), h_cand s)
       else let! (s, v) := lhd_rank flt fmax flow coarse density saw_victim rand s in Ok (s, Some v)) = Ok (s1, Some v) /\
       is_Some (h_sz s !! v) /\ hok s1 /\ h_c s1 = h_c s /\ h_sz s1 = h_sz s /\ (forall j, tsz s1 j = tsz s j) /\
       (h_gen s = c_nreq (h_c s) -> h_cand s = Some v) /\ (h_gen s1 = -1 \/ h_gen s1 = h_gen s) /\
       h_gen s1 <> c_nreq (h_c s1)) as (s1 & v & E & Hv & H1 & Ec & Es & Et & Hcd & Hg & Hg').
    { pose proof (k_nreq s H). destruct (decide _) as [Hg|Hg].
      - destruct (HC Hg) as (v & Hv & Hs). rewrite Hv. eexists _, v. split; [done|]. split_and!; try done.
        + apply hok_cand; [done|lia]. + by left. + cbn. lia.
      - destruct (rank_s s H Hne) as (w & v & -> & Hv). cbn. eexists _, v. split; [done|]. split_and!; try done.
        + by apply hok_w. + by right. }
    lazymatch goal with |- context [rbind ?b _] => replace b with (Ok (s1, Some v)) by (symmetry; exact E) end. cbn [rbind].
    rewrite Es. destruct Hv as [z Hz]. rewrite Hz.
    set (s2 := h_count _ _ _). rewrite <- Es in Hz.
    assert (V2 : vok s2) by (apply (k_v s1 H1)).
    destruct (replaced_ok s2 v V2) as (s3 & -> & F1 & F2 & F3 & F4 & V3 & F5).
    { cbn. apply k_resident; eauto. }
    cbn [rbind]. exists v. eexists. split; [done|]. split; [rewrite <- Es; eauto|].
    assert (HK : hok (h_set_sz s3 (delete v (h_sz s3)))).
    { apply (hok_drop s1 v z); try done. - by rewrite F2. }
    split; [done|]. split_and!; try done.
    - unfold cand_ok. cbn. rewrite F1, F4. cbn. intros. exfalso. by apply Hg'.
    - cbn. rewrite F2. cbn. by rewrite Es.
    - cbn. rewrite F1. cbn. by rewrite Ec.
    - cbn. rewrite F1. cbn. by rewrite Ec.
    - cbn. by rewrite F4.
    - cbn. rewrite F1, F4. done.
  Qed.

  Lemma remove_ok s id : hok s -> 
    exists s', op_remove OO s id = Ok (s', bool_decide (is_Some (h_sz s !! id))) /\ hok s' /\
      h_sz s' = delete id (h_sz s) /\ c_nreq (h_c s') = c_nreq (h_c s) /\ c_adm (h_c s') = c_adm (h_c s) /\
      h_gen s' = h_gen s /\ h_cand s' = h_cand s.
  Proof using Hmd.
    intros H. cbn. unfold lhd_remove. destruct (h_sz s !! id) as [z|] eqn:Hz.
    - set (s1 := h_set_sz _ _).
      assert (is_Some (h_ix s !! id)) as [i Hi] by (apply k_resident; eauto).
      replace (default 0%nat (h_ix s1 !! id)) with i by (cbn; by rewrite Hi).
      destruct (drop_ok s1 id i (k_v s H) Hi) as (s' & -> & F1 & F2 & F3 & F4 & V & F5). cbn [rbind].
      rewrite bool_decide_true by eauto. exists s'. split; [done|].
      assert (hok s') by (by apply (hok_drop s id z)).
      split_and!; try done; by rewrite F1.
    - exists s. rewrite delete_notin by done. rewrite bool_decide_false by (by intros []). done.
  Qed.

  Lemma can_ok s r : hok s -> exists s', op_can_insert OO s r =
      Ok (s', (admit (c_adm (h_c s)) r).2 && bool_decide (r_size r + md <= cap)) /\
      (cand_ok s -> cand_ok s') /\ hok s' /\ h_sz s' = h_sz s /\ c_nreq (h_c s') = c_nreq (h_c s) /\
      c_adm (h_c s') = (admit (c_adm (h_c s)) r).1 /\ h_gen s' = h_gen s /\ h_cand s' = h_cand s.
  Proof using.
    intros H. cbn. unfold lhd_can_insert, cache_can_insert_default.
    pose proof (k_size s H) as E1. pose proof (k_md s H) as E2.
    destruct (admit (c_adm (h_c s)) r) as [ad b]. cbn. 
    assert (hok (h_set_c s (c_set_adm (h_c s) ad))) by (destruct H; by split).
    destruct b; cbn; [|eexists; split; [done|]; split_and!; done].
    rewrite E1, E2. destruct (decide _); [rewrite bool_decide_false by lia|rewrite bool_decide_true by lia];
      (eexists; split; [done|]; split_and!; done).
  Qed.

  (** ** The victim has the lowest density of the candidates. *)
  Context (Hirr : forall x, flt x x = false).
  Context (Hneg : forall x y z, flt x y = true -> flt z y = false -> flt z x = false).
  (* drawing does not change what was learned *)
  Context (Hrd : forall w c a z e, density (rand w).2 c a z e = density w c a z e).
  Context (Hrc : forall w, coarse (rand w).2 = coarse w).

  Notation D := (hit_density flow coarse density).

  Fixpoint draws (n : nat) (w : W) : list Z :=
    match n with 0%nat => [] | S n => (rand w).1 :: draws n (rand w).2 end.

  Definition least (s : @lhd W) (ps : list nat) (best : option nat * F) : Prop :=
    exists p t, fst best = Some p /\ p ∈ ps /\ h_tags s !! p = Some t /\ D s t = Ok (snd best) /\
      forall q t' x, q ∈ ps -> h_tags s !! q = Some t' -> D s t' = Ok x -> flt x (snd best) = false.

  Lemma better_least (s : @lhd W) ps b i : (forall i t, h_tags s !! i = Some t -> t_app t = 1 /\ 1 <= t_size t) ->
    (i < length (h_tags s))%nat -> least s ps b \/ ps = [] /\ b = (None, fmax) ->
    exists b', better flt flow coarse density s b i = Ok b' /\ least s (ps ++ [i]) b'.
  Proof using Hflow Hden Hirr Hneg.
    intros HT Hi Hb. unfold better. destruct (lookup_lt_is_Some_2 _ _ Hi) as [t Ht]. rewrite Ht.
    destruct (HT _ _ Ht) as [Ha Hz].
    destruct (density_ok s t Ha) as (x & Ex & Hx). rewrite Ex. cbn [rbind]. eexists. split; [done|].
    destruct Hb as [(p & tp & H1 & H2 & H3 & H4 & H5)|[-> ->]].
    - destruct (flt x (snd b)) eqn:E.
      + exists i, t. cbn. split_and!; try done; [apply elem_of_app; right; by left|]. intros q t' x' Hq Hq' Hx'.
        apply elem_of_app in Hq as [Hq|Hq]; [eauto|]. apply elem_of_list_singleton in Hq as ->.
        rewrite Ht in Hq'. injection Hq' as <-. rewrite Ex in Hx'. by injection Hx' as <-.
      + exists p, tp. split_and!; try done; [apply elem_of_app; by left|]. intros q t' x' Hq Hq' Hx'.
        apply elem_of_app in Hq as [Hq|Hq]; [eauto|]. apply elem_of_list_singleton in Hq as ->.
        rewrite Ht in Hq'. injection Hq' as <-. rewrite Ex in Hx'. by injection Hx' as <-.
    - cbn. rewrite (Hx Hz). exists i, t. cbn. split_and!; try done; [by left|]. intros q t' x' Hq Hq' Hx'.
      apply elem_of_list_singleton in Hq as ->. rewrite Ht in Hq'. injection Hq' as <-. rewrite Ex in Hx'. by injection Hx' as <-.
  Qed.

  Lemma density_rand (s : @lhd W) t : D (h_set_w s (rand (h_w s)).2) t = D s t.
  Proof using Hrd Hrc.
    unfold hit_density, age_of. cbn. rewrite Hrc. destruct (decide _); [done|]. destruct (class_of t); [|done]. cbn. by rewrite Hrd.
  Qed.
  Lemma least_rand (s : @lhd W) ps b : least (h_set_w s (rand (h_w s)).2) ps b <-> least s ps b.
  Proof using Hrd Hrc.
    unfold least. split; intros (p & t & H1 & H2 & H3 & H4 & H5); exists p, t; (split_and!; try done).
    - by rewrite density_rand in H4.
    - intros q t' x Hq Ht Hx. eapply H5; [done|done|by rewrite density_rand].
    - by rewrite density_rand.
    - intros q t' x Hq Ht Hx. eapply H5; [done|done|]. by rewrite density_rand in Hx.
  Qed.

  Definition spots (l : list tag) (xs : list Z) : list nat := map (fun x => Z.to_nat (x mod Z.of_nat (length l))) xs.

  Lemma sample_least n : forall (s : @lhd W) ps b, (forall i t, h_tags s !! i = Some t -> t_app t = 1 /\ 1 <= t_size t) ->
    (0 < length (h_tags s))%nat -> least s ps b \/ ps = [] /\ b = (None, fmax) /\ (0 < n)%nat ->
    exists s' b', sample flt flow coarse density rand n s b = Ok (s', b') /\ same s s' /\
      (forall ps b, least s' ps b <-> least s ps b) /\
      least s (ps ++ spots (h_tags s) (draws n (h_w s))) b'.
  Proof using Hflow Hden Hirr Hneg Hrd Hrc.
    induction n as [|n IH]; intros s ps b HT Hl Hb; cbn [sample draws].
    - destruct Hb as [Hb|(_ & _ & Hb)]; [|lia]. exists s, b. cbn. rewrite app_nil_r. split_and!; try done. exists (h_w s). by destruct s.
    - rewrite (surjective_pairing (rand (h_w s))). cbn [fst snd].
      set (s1 := h_set_w s (rand (h_w s)).2).
      change (h_tags s1) with (h_tags s). destruct (decide (length (h_tags s) = 0%nat)) as [|_]; [lia|].
      set (p := Z.to_nat ((rand (h_w s)).1 mod Z.of_nat (length (h_tags s)))).
      assert (Hp : (p < length (h_tags s))%nat).
      { pose proof (Z.mod_pos_bound (rand (h_w s)).1 (Z.of_nat (length (h_tags s))) ltac:(lia)). unfold p. lia. }
      destruct (better_least s1 ps b p) as (b1 & -> & Hb1).
      { exact HT. } { exact Hp. }
      { destruct Hb as [Hb|(-> & -> & _)]; [left; by apply least_rand|by right]. }
      cbn [rbind].
      destruct (IH s1 (ps ++ [p]) b1 HT Hl) as (s' & b' & Hs & [w' ->] & HE & Hb'); [by left|].
      exists (h_set_w s1 w'), b'. split_and!; [exact Hs|by exists w'| |].
      + intros ps' b0. rewrite HE. apply least_rand.
      + apply (proj1 (least_rand s _ _)) in Hb'. rewrite <- app_assoc in Hb'. exact Hb'.
  Qed.

  Lemma admitted_least l : forall (s : @lhd W) ps b, (forall i t, h_tags s !! i = Some t -> t_app t = 1 /\ 1 <= t_size t) ->
    indexed (h_tags s) (h_ix s) -> least s ps b ->
    exists b', admitted flt flow coarse density l s b = Ok b' /\
      least s (ps ++ omap (fun a => a ≫= (fun id => h_ix s !! id)) l) b'.
  Proof using Hflow Hden Hirr Hneg.
    induction l as [|a l IH]; intros s ps b HT HI Hb; cbn [admitted]; [exists b; cbn; by rewrite app_nil_r|].
    destruct a as [id|]; cbn [mbind option_bind omap list_omap]; [|by apply IH].
    destruct (h_ix s !! id) as [i|] eqn:E; [|by apply IH].
    destruct (proj1 (HI _ _) E) as (t & Ht & Hid). rewrite Ht. cbn. rewrite decide_True by congruence.
    destruct (better_least s ps b i HT) as (b1 & -> & Hb1); [by eapply lookup_lt_Some|by left|]. cbn.
    destruct (IH s (ps ++ [i]) b1 HT HI Hb1) as (b' & Hr & Hl). exists b'. split; [done|].
    by rewrite <- app_assoc in Hl.
  Qed.

  (** The positions looked at. *)
  Definition looked_at (s : @lhd W) : list nat :=
    spots (h_tags s) (draws (if decide (h_nrec s > 50) then 32%nat else 8%nat) (h_w s)) ++
    omap (fun a => a ≫= (fun id => h_ix s !! id)) (h_adm s).

  Lemma rank_least (s : @lhd W) : (forall i t, h_tags s !! i = Some t -> t_app t = 1 /\ 1 <= t_size t) ->
    indexed (h_tags s) (h_ix s) -> h_tags s <> [] ->
    exists s' p t x, lhd_rank flt fmax flow coarse density saw_victim rand s = Ok (s', t_id t) /\
      p ∈ looked_at s /\ h_tags s !! p = Some t /\ D s t = Ok x /\
      forall q t' y, q ∈ looked_at s -> h_tags s !! q = Some t' -> D s t' = Ok y -> flt y x = false.
  Proof using Hflow Hden Hirr Hneg Hrd Hrc.
    intros HT HI Hne. unfold lhd_rank, looked_at.
    assert (0 < length (h_tags s))%nat by (destruct (h_tags s); cbn; [done|lia]).
    set (n := if decide (h_nrec s > 50) then 32%nat else 8%nat).
    destruct (sample_least n s [] (None, fmax)) as (s1 & b1 & -> & [w ->] & HE & Hb1).
    { done. } { done. } { right. split_and!; [done|done|]. unfold n. destruct (decide _); lia. }
    cbn [rbind]. cbn [app] in Hb1. apply HE in Hb1.
    destruct (admitted_least (h_adm s) (h_set_w s w) _ b1 HT HI Hb1) as (b2 & Ha & Hl).
    change (h_adm (h_set_w s w)) with (h_adm s). rewrite Ha. cbn [rbind].
    apply HE in Hl as (p & t & H1 & H2 & H3 & H4 & H5).
    rewrite H1. change (h_tags (h_set_w s w)) with (h_tags s). rewrite H3.
    eexists _, p, t, (snd b2). split; [done|]. done.
  Qed.
End LHD.
