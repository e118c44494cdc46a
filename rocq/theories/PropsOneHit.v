(** C86: the ratios of objects requested once. *)
From stdpp Require Import gmap list numbers fin_maps fin_sets fin_map_dom.
From Verif Require Import Base ModelOneHit SpecOneHit.
Open Scope Z_scope.

Lemma times_snoc y pre x : times y (pre ++ [x]) = (times y pre + if decide (x = y) then 1 else 0)%nat.
Proof. unfold times. rewrite filter_app, app_length, filter_cons, filter_nil. by destruct (decide (x = y)). Qed.
Lemma times_In x pre : (0 < times x pre)%nat <-> x ∈ pre.
Proof.
  unfold times. split.
  - intros H. destruct (filter _ pre) as [|y l] eqn:E; [cbn in H; lia|].
    assert (Hy : y ∈ filter (fun y => y = x) pre) by (rewrite E; apply elem_of_list_here). apply elem_of_list_filter in Hy as [-> ?]. done.
  - intros H. assert (Hx : x ∈ filter (fun y => y = x) pre) by (by apply elem_of_list_filter).
    destruct (filter _ pre); [inversion Hx|cbn; lia].
Qed.
Lemma elem_once x pre : x ∈ once pre <-> times x pre = 1%nat.
Proof.
  unfold once, objs. rewrite elem_of_filter, elem_of_list_to_set. split; [by intros [? _]|]. intros H. split; [done|]. apply times_In. lia.
Qed.

Record oh_ok (pre : list Z) (s : onehit) : Prop := mkOhOk {
  oo_freq : forall x, oh_freq s !! x = if decide (x ∈ pre) then Some (Z.of_nat (times x pre)) else None;
  oo_n : oh_n s = Z.of_nat (size (once pre));
  oo_len : Z.of_nat (length (oh_vec s)) = Z.of_nat (size (objs pre)) / 100;
  oo_last : oh_last s = 100 * Z.of_nat (length (oh_vec s));
  oo_vec : forall k p, oh_vec s !! k = Some p -> exists p1 x p2, pre = p1 ++ x :: p2 /\ x ∉ p1 /\
    p = (Z.of_nat (size (once (p1 ++ [x]))), Z.of_nat (size (objs (p1 ++ [x])))) /\ p.2 = 100 * (Z.of_nat k + 1) }.

Lemma size_freq pre s : (forall x, oh_freq s !! x = if decide (x ∈ pre) then Some (Z.of_nat (times x pre)) else None) -> size (oh_freq s) = size (objs pre).
Proof.
  intros H. rewrite <- (size_dom (oh_freq s)). f_equal. apply set_eq. intros x. rewrite elem_of_dom, H. unfold objs. rewrite elem_of_list_to_set.
  destruct (decide (x ∈ pre)); (split; [intros [? ?]; done|intros; done || eauto]).
Qed.

Lemma oh_add_ok pre s x : oh_ok pre s -> Z.of_nat (length pre) < 2 ^ 32 - 1 -> exists s', oh_add s x = Ok s' /\ oh_ok (pre ++ [x]) s'.
Proof.
  intros [Hf Hn Hl Ha Hv] Hlen.
  assert (Htl : forall y, (times y pre <= length pre)%nat) by (intros y; unfold times; apply filter_length).
  assert (Hobj : size (objs (pre ++ [x])) = (size (objs pre) + if decide (x ∈ pre) then 0 else 1)%nat).
  { unfold objs. rewrite list_to_set_app, list_to_set_singleton. destruct (decide (x ∈ pre)) as [Hx|Hx].
    - rewrite Nat.add_0_r. f_equal. apply set_eq. intros y. rewrite elem_of_union, elem_of_singleton, elem_of_list_to_set. split; [intros [?| ->]; done|by left].
    - rewrite size_union by (apply disjoint_singleton_r; by rewrite elem_of_list_to_set). by rewrite size_singleton. }
  assert (Hc : (forall y, oh_freq (oh_count s x) !! y = if decide (y ∈ pre ++ [x]) then Some (Z.of_nat (times y (pre ++ [x]))) else None) /\
    oh_n (oh_count s x) = Z.of_nat (size (once (pre ++ [x]))) /\ oh_vec (oh_count s x) = oh_vec s /\ oh_last (oh_count s x) = oh_last s).
  { unfold oh_count. rewrite Hf. destruct (decide (x ∈ pre)) as [Hx|Hx].
    - assert (Hp := proj2 (times_In x pre) Hx). assert (Hu : u32 (Z.of_nat (times x pre) + 1) = Z.of_nat (times x pre) + 1) by (unfold u32; apply Z.mod_small; specialize (Htl x); lia).
      rewrite Hu. cbn [oh_freq oh_n oh_vec oh_last]. split; [|split; [|done]].
      + intros y. rewrite times_snoc. destruct (decide (x = y)) as [<-|Hy].
        * rewrite lookup_insert, decide_True by (apply elem_of_app; by left). f_equal. lia.
        * rewrite lookup_insert_ne, Hf, Nat.add_0_r by done. destruct (decide (y ∈ pre)), (decide (y ∈ pre ++ [x])) as [ee|ee]; try done; rewrite elem_of_app, elem_of_list_singleton in ee; naive_solver.
      + destruct (decide (Z.of_nat (times x pre) + 1 = 2)) as [H1|H1].
        * assert (Ho : once (pre ++ [x]) = once pre ∖ {[x]}).
          { apply set_eq. intros y. rewrite elem_of_difference, elem_of_singleton, !elem_once, times_snoc. destruct (decide (x = y)) as [<-|]; [lia|]. rewrite Nat.add_0_r. split; [intros; split; [done|congruence]|tauto]. }
          rewrite Ho, size_difference by (apply singleton_subseteq_l, elem_once; lia). rewrite size_singleton, Hn.
          assert (0 < size (once pre))%nat; [|lia]. destruct (decide (size (once pre) = 0%nat)) as [e|]; [|lia]. apply size_empty_inv in e. exfalso. assert (x ∈ once pre) by (apply elem_once; lia). set_solver.
        * rewrite Hn. do 2 f_equal. apply set_eq. intros y. rewrite !elem_once, times_snoc. destruct (decide (x = y)) as [<-|]; lia.
    - assert (Ht0 : times x pre = 0%nat) by (destruct (decide (times x pre = 0%nat)); [done|]; exfalso; apply Hx, times_In; lia).
      cbn [oh_freq oh_n oh_vec oh_last]. split; [|split; [|done]].
      + intros y. rewrite times_snoc. destruct (decide (x = y)) as [<-|Hy].
        * rewrite lookup_insert, decide_True by (apply elem_of_app; right; apply elem_of_list_here). f_equal. lia.
        * rewrite lookup_insert_ne, Hf, Nat.add_0_r by done. destruct (decide (y ∈ pre)), (decide (y ∈ pre ++ [x])) as [ee|ee]; try done; rewrite elem_of_app, elem_of_list_singleton in ee; naive_solver.
      + assert (Ho : once (pre ++ [x]) = once pre ∪ {[x]}).
        { apply set_eq. intros y. rewrite elem_of_union, elem_of_singleton, !elem_once, times_snoc. destruct (decide (x = y)) as [<-|]; [split; [by right|lia]|]. rewrite Nat.add_0_r. split; [by left|]. intros [?|]; congruence. }
        rewrite Ho, size_union, size_singleton by (apply disjoint_singleton_r; rewrite elem_once; lia). lia. }
  destruct Hc as (Hf' & Hn' & Hvec & Hlast). unfold oh_add. rewrite (size_freq _ _ Hf'), Hvec, Hlast, Ha, Hl.
  set (m := Z.of_nat (size (objs pre))) in *. set (m' := Z.of_nat (size (objs (pre ++ [x])))) in *.
  assert (Hm : m' = m \/ (m' = m + 1 /\ x ∉ pre)) by (unfold m', m; rewrite Hobj; destruct (decide (x ∈ pre)); [left|right]; split || idtac; try done; lia).
  assert (Hvext : forall k p, oh_vec s !! k = Some p -> exists p1 y p2, pre ++ [x] = p1 ++ y :: p2 /\ y ∉ p1 /\
    p = (Z.of_nat (size (once (p1 ++ [y]))), Z.of_nat (size (objs (p1 ++ [y])))) /\ p.2 = 100 * (Z.of_nat k + 1)).
  { intros k p Hk. destruct (Hv k p Hk) as (p1 & y & p2 & -> & H2 & H3). exists p1, y, (p2 ++ [x]). split; [by rewrite <- app_assoc|done]. }
  assert (Hdm := Z.div_mod m 100 ltac:(lia)). assert (Hdm' := Z.div_mod m' 100 ltac:(lia)).
  assert (Hb := Z.mod_pos_bound m 100 ltac:(lia)). assert (Hb' := Z.mod_pos_bound m' 100 ltac:(lia)).
  destruct (decide (m' mod 100 = 0 /\ m' <> 100 * (m / 100))) as [[Hz Hne]|Hno].
  - rewrite app_length. cbn [length]. rewrite decide_False by lia. eexists. split; [done|]. constructor; cbn [oh_freq oh_n oh_vec oh_last].
    + done.
    + done.
    + rewrite app_length. cbn [length]. fold m'. lia.
    + rewrite app_length. cbn [length]. lia.
    + intros k p Hk. apply lookup_app_Some in Hk as [Hk|[Hge Hk]]; [by apply Hvext|]. apply list_lookup_singleton_Some in Hk as [Hk <-].
      exists pre, x, []. split; [done|]. split; [destruct Hm as [Hm|[_ ?]]; [lia|done]|]. rewrite Hn'. split; [done|]. cbn. lia.
  - eexists. split; [done|]. constructor; [done|done| |by rewrite Hlast, Hvec|by rewrite Hvec]. rewrite Hvec. fold m'. rewrite Hl.
    destruct (decide (m' mod 100 = 0)); [|lia]. assert (m' = 100 * (m / 100)) by (destruct (decide (m' = 100 * (m / 100))); [done|tauto]). lia.
Qed.

Lemma oh_run_ok tr : forall pre s, oh_ok pre s -> Z.of_nat (length pre + length tr) < 2 ^ 32 -> exists s', oh_run s tr = Ok s' /\ oh_ok (pre ++ tr) s'.
Proof.
  induction tr as [|x tr IH]; intros pre s H Hl; cbn [oh_run]; [exists s; by rewrite app_nil_r|]. cbn [length] in Hl.
  destruct (oh_add_ok pre s x H) as (s1 & E & H1); [lia|]. rewrite E. cbn [rbind].
  destruct (IH (pre ++ [x]) s1 H1) as (s2 & E2 & H2); [rewrite app_length; cbn; lia|]. exists s2. split; [done|]. by rewrite <- app_assoc in H2.
Qed.
Lemma oh0_ok : oh_ok [] oh0.
Proof. constructor; cbn; try done. Qed.

(** For every trace of at least 100 objects (and fewer than 2^32 requests): there is
    one ratio for every full 100 objects; the k-th is that of the objects requested
    once to all objects, at the request that brings the 100 k-th object. *)
Theorem C86_ratios_partial T : Z.of_nat (length T) < 2 ^ 32 -> (100 <= size (objs T))%nat -> exists vec a b,
  cal_one_hit T = Ok (vec, a, b) /\ Z.of_nat (length vec) = Z.of_nat (size (objs T)) / 100 /\
  head vec = Some a /\ last vec = Some b /\
  forall k p, vec !! k = Some p -> exists p1 x p2, T = p1 ++ x :: p2 /\ x ∉ p1 /\
    p = (Z.of_nat (size (once (p1 ++ [x]))), Z.of_nat (size (objs (p1 ++ [x])))) /\ p.2 = 100 * (Z.of_nat k + 1).
Proof.
  intros Hl Hs. destruct (oh_run_ok T [] oh0 oh0_ok Hl) as (s & E & H). cbn [app] in H. unfold cal_one_hit. rewrite E. cbn [rbind].
  assert (Hlen := oo_len _ _ H). assert (1 <= Z.of_nat (size (objs T)) / 100) by (apply Z.div_le_lower_bound; lia).
  destruct (oh_vec s) as [|a vec] eqn:Ev; [cbn in Hlen; lia|]. cbn [head hd_error].
  destruct (last (a :: vec)) as [b|] eqn:El; [|apply last_None in El; done].
  exists (a :: vec), a, b. split; [done|]. split; [done|]. split; [done|]. split; [done|]. intros k p Hk. apply (oo_vec _ _ H). by rewrite Ev.
Qed.
(** With fewer than 100 objects the program reads the first element of an empty
    vector. *)
Theorem C86_short_refuted T : Z.of_nat (length T) < 2 ^ 32 -> (size (objs T) < 100)%nat -> cal_one_hit T = Err OutOfBounds.
Proof.
  intros Hl Hs. destruct (oh_run_ok T [] oh0 oh0_ok Hl) as (s & E & H). cbn [app] in H. unfold cal_one_hit. rewrite E. cbn [rbind].
  assert (Hlen := oo_len _ _ H). rewrite Z.div_small in Hlen by lia. destruct (oh_vec s); [done|cbn in Hlen; lia].
Qed.
Example C86_ex : let T := [1; 2; 1] ++ seqZ 3 200 ++ [2] in size (objs T) = 202%nat /\
  cal_one_hit T = Ok ([(99, 100); (199, 200)], (99, 100), (199, 200)).
Proof. split; vm_compute; reflexivity. Qed.
