(** C62: LIRS.  What its stack and queue do, and where it fails. *)
From stdpp Require Import gmap list numbers fin_maps.
From Verif Require Import Base Driver ModelQueue ModelTwoQ ModelSLRU QList ModelLIRS SpecLIRS LIRSFacts LIRSSim.
Open Scope Z_scope.

(** What a state shows: the order of S, the status of each object of S, Q, the
    non-resident list, and the counters. *)
Definition status_in (s : lirs) (x : Z) : option stat := status <$> c_tbl (q_c (li_s s)) !! x.

Record shows (sz : Z -> Z) (s : lirs) (a : ispec) : Prop := {
  sh_s : q_q (li_s s) = (is_s a).*1;
  sh_st : forall x, status_in s x = stat_of (is_s a) x;
  sh_q : q_q (li_q s) = is_q a;
  sh_nh : q_q (li_nh s) = is_nh a;
  sh_hc : li_hc s = hir_bytes sz a;
  sh_lc : li_lc s = lir_bytes sz a;
  sh_occ : c_occ (li_c s) = lir_bytes sz a + hir_bytes sz a;
  sh_nobj : c_nobj (li_c s) = Z.of_nat (length (lirs_of (is_s a)) + length (is_q a)) }.

Lemma lrel_shows sz cap h s a : iinv sz cap h None a -> lrel sz cap h s a -> shows sz s a.
Proof.
  intros H HR. pose proof HR as (ls & lq & ln & R). pose proof (ii_s _ _ _ _ _ H) as Hnd. split; try apply R.
  - rewrite (qok_q _ _ _ _ (lr_s _ _ _ _ _ _ _ _ R)), <- view_ids. f_equal. apply R.
  - intros x. unfold status_in. destruct (stat_of (is_s a) x) as [t|] eqn:E.
    + apply stat_elem in E; [|done]. destruct (s_some sz cap h s a x t HR Hnd E) as (o & -> & <- & _). done.
    + apply stat_none in E. by rewrite (s_none sz cap h s a x HR E).
  - rewrite (qok_q _ _ _ _ (lr_q _ _ _ _ _ _ _ _ R)). apply R.
  - rewrite (qok_q _ _ _ _ (lr_n _ _ _ _ _ _ _ _ R)). apply R.
Qed.

Section Facts.
  Context (sz : Z -> Z) (cap h : Z).
  Context (Hh0 : 0 <= h) (Hh : 2 * h <= cap) (Hr : roomy sz h).
  Notation iinv := (iinv sz cap h).

  Lemma trim_keep n : forall a, iinv None a ->
    is_q (trim sz cap n a) = is_q a /\
    (forall x t, t <> NR -> (x, t) ∈ is_s (trim sz cap n a) <-> (x, t) ∈ is_s a) /\
    (forall x t, (x, t) ∈ is_s (trim sz cap n a) -> (x, t) ∈ is_s a).
  Proof.
    induction n as [|n IH]; intros a H; cbn [trim]; destruct (decide _); try done.
    destruct (last (is_nh a)) as [v|] eqn:El; [|done].
    apply last_Some in El as [nh El]. rewrite El, removelast_last.
    assert (Hv : (v, NR) ∈ is_s a) by (apply (ii_nr _ _ _ _ _ H); rewrite El; apply elem_of_app; right; by left).
    assert (HvQ : v ∉ is_q a) by (intros C; by apply (ii_stat _ _ _ _ _ H v NR) in C).
    assert (E : i_drop v (is_nh a) = nh).
    { rewrite El. pose proof (ii_nh _ _ _ _ _ H) as Hnd. rewrite El in Hnd. apply NoDup_app in Hnd as (_ & Hn & _).
      unfold i_drop. rewrite filter_app. change (filter (fun y => y <> v) nh) with (i_drop v nh). rewrite i_drop_absent.
      - rewrite filter_cons_False by tauto. change (filter (fun y => y <> v) []) with (@nil Z). apply app_nil_r.
      - intros C. apply (Hn v C). by left. }
    pose proof (drop_inv sz cap h v a H HvQ) as H1. rewrite E in H1.
    destruct (IH _ H1) as (K1 & K2 & K3). cbn [is_s is_q] in *. split; [done|]. split.
    - intros x t Ht. rewrite (K2 x t Ht), s_drop_elem. cbn [fst]. split; [tauto|]. intros Hx. split; [done|]. intros ->. apply Ht.
      apply (nd_fun _ v _ _ (ii_s _ _ _ _ _ H) Hx Hv).
    - intros x t Hx. apply K3, s_drop_elem in Hx. tauto.
  Qed.

  Lemma sum_sub l : forall l', NoDup l -> (forall x, x ∈ l -> x ∈ l') -> Forall (good sz h) l' -> sum sz l <= sum sz l'.
  Proof.
    induction l as [|x l IH]; intros l' Hnd Hs G.
    - by apply (sum_nonneg sz h).
    - apply NoDup_cons in Hnd as [Hx Hnd]. destruct (elem_of_list_split l' x (Hs x (elem_of_list_here _ _))) as (l1 & l2 & ->).
      rewrite (sum_app sz), !sum_cons. specialize (IH (l1 ++ l2)). rewrite (sum_app sz) in IH.
      assert (Q : sum sz l <= sum sz l1 + sum sz l2); [|lia]. apply IH; [done| |].
      + intros y Hy. pose proof (Hs y (elem_of_list_further _ _ _ Hy)) as Q. rewrite elem_of_app, elem_of_cons in Q.
        rewrite elem_of_app. destruct Q as [|[->|]]; tauto.
      + rewrite Forall_app, Forall_cons in G. rewrite Forall_app. tauto.
  Qed.

  Lemma trim_bound n : forall a, iinv None a -> (length (is_nh a) <= n)%nat -> sum sz (is_s (trim sz cap n a)).*1 <= 2 * cap.
  Proof using Hh0 Hh.
    induction n as [|n IH]; intros a H Hn; cbn [trim]; destruct (decide _) as [Hgt|]; try lia.
    all: destruct (last (is_nh a)) as [v|] eqn:El.
    1,2,4: assert (EN : is_nh a = []) by (first [by apply last_None|destruct (is_nh a); [done|cbn in Hn; lia]]);
      assert (Q : sum sz (is_s a).*1 <= sum sz (lirs_of (is_s a) ++ is_q a));
      [apply sum_sub; [apply H| |]|rewrite (sum_app sz) in Q;
        pose proof (ii_lb _ _ _ _ _ H) as L1; pose proof (ii_hb _ _ _ _ _ H) as L2; unfold lir_bytes, hir_bytes in *; lia];
      [intros x [[] Hx]%fst_elem; apply elem_of_app; [left; by apply lirs_elem|right; by destruct (ii_hir _ _ _ _ _ H x Hx)|];
        apply (ii_nr _ _ _ _ _ H) in Hx; rewrite EN in Hx; by apply elem_of_nil in Hx|];
      pose proof (ii_good _ _ _ _ _ H) as G; rewrite Forall_app in *; destruct G as [G1 G2]; split; [|done];
      rewrite Forall_forall in *; intros x Hx; apply G1; by apply lirs_sub.
    apply last_Some in El as [nh El]. rewrite El, removelast_last.
    assert (Hv : (v, NR) ∈ is_s a) by (apply (ii_nr _ _ _ _ _ H); rewrite El; apply elem_of_app; right; by left).
    assert (HvQ : v ∉ is_q a) by (intros C; by apply (ii_stat _ _ _ _ _ H v NR) in C).
    assert (E : i_drop v (is_nh a) = nh).
    { rewrite El. pose proof (ii_nh _ _ _ _ _ H) as Hnd. rewrite El in Hnd. apply NoDup_app in Hnd as (_ & Hnn & _).
      unfold i_drop. rewrite filter_app. change (filter (fun y => y <> v) nh) with (i_drop v nh). rewrite i_drop_absent.
      - rewrite filter_cons_False by tauto. change (filter (fun y => y <> v) []) with (@nil Z). apply app_nil_r.
      - intros C. apply (Hnn v C). by left. }
    pose proof (drop_inv sz cap h v a H HvQ) as H1. rewrite E in H1. apply IH; [done|]. cbn [is_nh]. rewrite El, app_length in Hn. cbn in Hn. lia.
  Qed.

  Lemma access_top a x : iinv None a -> bottom a -> (x, HIR) ∈ is_s a ->
    iinv (Some (x, HIR)) (mkIS ((x, HIR) :: s_drop x (is_s a)) (i_drop x (is_q a)) (is_nh a) (is_adm a)) /\
    bottom (mkIS ((x, HIR) :: s_drop x (is_s a)) (i_drop x (is_q a)) (is_nh a) (is_adm a)) /\ good sz h x.
  Proof using Hh0 Hh Hr.
    intros H B Es. pose proof (bump_inv sz cap h x HIR a H Es) as H1.
    assert (Gx : good sz h x) by (by apply (good_s sz cap h None a x HIR)).
    split; [|split; [apply bump_bottom; [done|done|apply H|done]|done]].
    destruct H1 as [Hs Hq Hnh Hhir He Hst Hnr Hg Hlb Hhb]. cbn [is_s is_q is_nh] in *.
    split; cbn [is_s is_q is_nh]; try done.
    - by apply i_drop_nd.
    - intros y Hy. destruct (decide (y = x)) as [->|]; [by right|]. left. apply i_drop_elem. by destruct (Hhir y Hy).
    - intros y u [= <- <-]. split; [done|]. split; [|eauto]. rewrite i_drop_elem. tauto.
    - intros y u [Hy _]%i_drop_elem. by apply Hst.
    - rewrite Forall_app in *. destruct Hg as [G1 G2]. split; [done|]. rewrite Forall_forall in *. intros y [Hy _]%i_drop_elem. by apply G2.
    - unfold hir_bytes in *. cbn [is_q] in *. destruct (Hhir x (elem_of_list_here _ _)) as [Hi|]; [|done].
      rewrite sum_drop by done. destruct Gx. lia.
  Qed.

  (** The state of the accessed object after an access. *)
  Lemma access_outcome a x a' b : iinv None a -> bottom a -> i_access sz cap h a x = (a', b) ->
    (b = true <-> resident a x) /\
    (stat_of (is_s a) x = Some LIR -> (x, LIR) ∈ is_s a') /\
    (stat_of (is_s a) x = Some HIR -> (x, LIR) ∈ is_s a') /\
    (stat_of (is_s a) x = None -> x ∈ is_q a -> (x, HIR) ∈ is_s a' /\ x ∈ is_q a') /\
    (stat_of (is_s a) x = Some NR -> (x, NR) ∈ is_s a') /\
    (unknown a x -> a' = a) /\
    (b = false -> lir_bytes sz a' = lir_bytes sz a /\ is_q a' = is_q a).
  Proof using Hh0 Hh Hr.
    intros H B Ea. pose proof (access_inv sz cap h Hh Hr a x a' b H B Ea) as (H' & _ & _ & Hm). revert Ea Hm.
    unfold i_access, resident, unknown. destruct (stat_of (is_s a) x) as [[]|] eqn:Es.
    - intros [= <- <-] _. repeat split; try done; try tauto; [|by intros [? _]]. intros _. unfold i_prune. cbn [is_s].
      apply lirs_elem. rewrite pruned_lirs. apply lirs_elem. by left.
    - apply stat_elem in Es; [|apply H]. intros Ea _.
      assert (Hx : x ∈ is_q a) by (by destruct (ii_hir _ _ _ _ _ H x Es)).
      assert (b = true) as -> by (by injection Ea).
      assert ((x, LIR) ∈ is_s a'); [|naive_solver].
      assert (E : exists S, is_s a' = s_mark x LIR S /\ x ∈ S.*1).
      { injection Ea as <-. eexists. split; [done|].
        set (a1 := mkIS ((x, HIR) :: s_drop x (is_s a)) (i_drop x (is_q a)) (is_nh a) (is_adm a)).
        destruct (access_top a x H B Es) as (H1 & B1 & Gx). fold a1 in H1, B1.
        destruct (room_l_inv sz cap h Hh Hr _ x (length (is_s a1)) a1 H1 B1 Gx) as (H2 & _).
        destruct (ii_e _ _ _ _ _ H2 x HIR eq_refl) as (_ & _ & S & ES). unfold room_for. rewrite ES. by left. }
      destruct E as (S & -> & HS). apply s_mark_elem. by left.
    - intros [= <- <-] _. assert (x ∉ is_q a). { apply stat_elem in Es; [|apply H]. intros C. by apply (ii_stat _ _ _ _ _ H x NR) in C. }
      repeat split; try done; try tauto; [naive_solver|by left|by intros [? _]|].
      unfold lir_bytes. cbn [is_s]. rewrite lirs_cons_other, lirs_drop; try done.
      intros C. apply stat_elem in C; [|apply H]. congruence.
    - destruct (decide (x ∈ is_q a)) as [Hx|Hx].
      + intros [= <- <-] _.
        split; [naive_solver|]. split; [done|]. split; [done|]. split; [|split; [done|split; [tauto|done]]].
        intros _ _. split; [by left|]. cbn [is_q].
        set (a1 := mkIS (is_s a) (x :: i_drop x (is_q a)) (is_nh a) (is_adm a)).
        pose proof (ii_hir _ _ _ _ _ H' x) as Q. cbn [is_s is_q] in Q. destruct (Q (elem_of_list_here _ _)); done.
      + intros [= <- <-] Hm. repeat split; try done; naive_solver.
  Qed.

  Lemma add_outcome x a : iinv None a -> bottom a -> good sz h x -> x ∉ is_q a ->
    (stat_of (is_s a) x = None \/ exists S, is_s a = (x, NR) :: S) ->
    (stat_of (is_s a) x = Some NR -> (x, LIR) ∈ is_s (i_add sz cap h a x)) /\
    (stat_of (is_s a) x = None -> lir_bytes sz a + sz x <= cap - h -> (x, LIR) ∈ is_s (i_add sz cap h a x)) /\
    (stat_of (is_s a) x = None -> lir_bytes sz a + sz x > cap - h -> (x, HIR) ∈ is_s (i_add sz cap h a x) /\ x ∈ is_q (i_add sz cap h a x)).
  Proof using Hh0 Hh Hr.
    intros H B Gx HxQ HS. unfold i_add. destruct HS as [En|[S ES]].
    - rewrite En. split; [done|]. split; intros _ Hd; [rewrite decide_True by done; by left|].
      rewrite decide_False by lia. split; by left.
    - assert (Es : (x, NR) ∈ is_s a) by (rewrite ES; by left).
      rewrite (proj2 (stat_elem (is_s a) x NR (ii_s _ _ _ _ _ H)) Es). split; [intros _|done].
      cbn [is_s]. apply s_mark_elem. left. split; [done|]. split; [done|].
      assert (H1 : iinv (Some (x, NR)) a) by (apply nr_top; eauto).
      destruct (room_l_inv sz cap h Hh Hr _ x (length (is_s a)) a H1 B Gx) as (H2 & _).
      destruct (ii_e _ _ _ _ _ H2 x NR eq_refl) as (_ & _ & S' & ES'). unfold room_for. rewrite ES'. by left.
  Qed.
End Facts.

(** The limits of a run: [h] is the byte limit of Q.  LIRS_init takes
    max(1, cache_size / 100) for it. *)
Definition lirs_ok (sz : Z -> Z) (cap h : Z) : Prop := 0 <= h /\ 2 * h <= cap /\ cap < 2 ^ 63 /\ roomy sz h.

Definition rq (x n : Z) : req := mkReq x n 0 0 0.
Definition g (x : Z) : call := CGet (rq x 1).

(** One size [w] with room for two objects in Q, or three times any cacheable
    size within the limit of Q: the condition holds. *)
Theorem C62_roomy_one_size h w : 0 <= w -> 2 * w <= h -> roomy (fun _ => w) h.
Proof.
  intros Hw Hh x y l _ _ _ Hl.
  assert (l = []) as ->; [|cbn; lia]. destruct l as [|z l]; [done|exfalso]. unfold sum in Hl. cbn in Hl.
  assert (0 <= foldr (fun _ acc : Z => w + acc) 0 l) by (clear Hl; induction l; cbn; lia). lia.
Qed.
Theorem C62_roomy_small sz h : (forall x, 0 <= sz x <= h -> 3 * sz x <= h + 1) -> roomy sz h.
Proof. intros H x y l Hx Hy _ Hl. pose proof (H x Hx). pose proof (H y Hy). lia. Qed.

Definition st {A} (r : res (lirs * A)) : lirs := match r with Ok (s, _) => s | Err _ => li_init 0 0 0 AdmNone end.
Definition ob {A} (d : A) (r : res (lirs * A)) : A := match r with Ok (_, o) => o | Err _ => d end.
Definition run4 (cs : list call) := li_run true 0 (li_init 4 1 0 AdmNone) cs.
Definition run6 (cs : list call) := li_run true 0 (li_init 6 2 0 AdmNone) cs.
Ltac vmr := vm_compute; reflexivity.
Ltac vmb := match goal with |- ?P => refine (bool_decide_eq_true_1 P _); vm_compute; reflexivity end.
Definition w1 (_ : Z) : Z := 1.
Lemma ok_6_2 : lirs_ok w1 6 2.
Proof. split; [lia|]. split; [lia|]. split; [lia|]. apply (C62_roomy_one_size 2 1); lia. Qed.

Section Run.
  Context (sz : Z -> Z) (cap h : Z) (adm : admissioner) (cs : list call).
  Context (Hl : lirs_ok sz cap h) (Hcs : i_oks sz cap h (ispec0 adm) cs).

  Lemma run_facts fuel : exists s, li_run true fuel (li_init cap h 0 adm) cs = Ok (s, (i_run sz cap h (ispec0 adm) cs).2) /\
    lrel sz cap h s (i_run sz cap h (ispec0 adm) cs).1 /\
    iinv sz cap h None (i_run sz cap h (ispec0 adm) cs).1 /\ bottom (i_run sz cap h (ispec0 adm) cs).1.
  Proof using Hl Hcs.
    destruct Hl as (H0 & H1 & H2 & H3). destruct (inv0 sz cap h H1 adm H0) as [I0 B0].
    destruct (run_ok sz cap h H0 H1 H2 H3 fuel cs _ _ (init_ok sz cap h H0 H1 H2 adm) I0 B0 Hcs) as (s & E & R).
    exists s. split; [exact E|]. split; [exact R|]. by apply run_inv.
  Qed.
End Run.

(** Every allowed program runs without a fault, for any fuel, and the answers,
    the lists and the counters are the specification's.  Missing for the full
    claim (any calls on any cache): see the refutations below. *)
Theorem C62_lists_partial sz cap h adm fuel cs : lirs_ok sz cap h -> i_oks sz cap h (ispec0 adm) cs ->
  exists s, li_run true fuel (li_init cap h 0 adm) cs = Ok (s, (i_run sz cap h (ispec0 adm) cs).2) /\
    shows sz s (i_run sz cap h (ispec0 adm) cs).1.
Proof.
  intros Hl Hcs. destruct (run_facts sz cap h adm cs Hl Hcs fuel) as (s & E & R & I & _). exists s. split; [done|].
  by apply (lrel_shows sz cap h).
Qed.

Lemma g_oks cap h xs : forall a, i_oks w1 cap h a (map g xs).
Proof. induction xs as [|x xs IH]; intros a; [done|]. split; [done|apply IH]. Qed.
Lemma i_oks_app sz cap h cs1 : forall a cs2, i_oks sz cap h a cs1 -> i_oks sz cap h (i_run sz cap h a cs1).1 cs2 ->
  i_oks sz cap h a (cs1 ++ cs2).
Proof.
  induction cs1 as [|c cs1 IH]; intros a cs2; [done|]. cbn [app i_oks i_run]. intros [H1 H2]. split; [done|]. apply IH; [done|].
  destruct (i_call sz cap h a c) as [a1 o]. cbn [fst] in *. by destruct (i_run sz cap h a1 cs1).
Qed.

(** A trace of gets is allowed. *)
Theorem C62_gets_partial sz cap h adm fuel rs : lirs_ok sz cap h -> Forall (i_req sz) rs ->
  exists s, li_run true fuel (li_init cap h 0 adm) (CGet <$> rs) = Ok (s, (i_run sz cap h (ispec0 adm) (CGet <$> rs)).2) /\
    shows sz s (i_run sz cap h (ispec0 adm) (CGet <$> rs)).1.
Proof.
  intros Hl Hrs. apply C62_lists_partial; [done|]. generalize (ispec0 adm). induction Hrs as [|r rs Hr _ IH]; intros a; [done|].
  cbn [fmap list_fmap i_oks]. split; [done|apply IH].
Qed.
Example C62_gets_ex : Forall (i_req w1) ((fun x => rq x 1) <$> [1; 2; 3; 4; 5; 6; 6; 5; 1]) /\
  (i_run w1 6 2 (ispec0 AdmNone) (CGet <$> ((fun x => rq x 1) <$> [1; 2; 3; 4; 5; 6; 6; 5; 1]))).1 =
    mkIS [(1, HIR); (5, LIR); (6, LIR); (4, LIR)] [3; 1] [] AdmNone.
Proof. split; [repeat constructor; done|vm_compute; reflexivity]. Qed.

(** At all times LIR objects take at most the LIR limit, Q at most its own, the
    cache at most its size; an object is once in S, in Q and in the list; the
    HIR objects of S are in Q, no other object is in both; the list has exactly
    the non-resident objects of S; the lowest object of S is LIR. *)
Theorem C62_invariants_partial sz cap h adm fuel cs s os : lirs_ok sz cap h -> i_oks sz cap h (ispec0 adm) cs ->
  li_run true fuel (li_init cap h 0 adm) cs = Ok (s, os) ->
  0 <= li_lc s <= cap - h /\ 0 <= li_hc s <= h /\ c_occ (li_c s) = li_lc s + li_hc s /\ 0 <= c_occ (li_c s) <= cap /\
  li_hc s = sum sz (q_q (li_q s)) /\
  NoDup (q_q (li_s s)) /\ NoDup (q_q (li_q s)) /\ NoDup (q_q (li_nh s)) /\
  (forall x, status_in s x <> None <-> x ∈ q_q (li_s s)) /\
  (forall x, status_in s x = Some HIR <-> x ∈ q_q (li_s s) /\ x ∈ q_q (li_q s)) /\
  (forall x, status_in s x = Some NR <-> x ∈ q_q (li_nh s)) /\
  (q_q (li_s s) = [] -> q_q (li_q s) = []) /\
  (forall y, last (q_q (li_s s)) = Some y -> status_in s y = Some LIR).
Proof.
  intros Hl Hcs E. destruct (run_facts sz cap h adm cs Hl Hcs fuel) as (s1 & E1 & R & I & B). rewrite E in E1. injection E1 as <- ->.
  pose proof (lrel_shows _ _ _ _ _ I R) as SH. destruct Hl as (H0 & H1 & H2 & H3).
  pose proof (lb_nn _ _ _ _ _ I) as L1. pose proof (hb_nn _ _ _ _ _ I) as L2.
  rewrite (sh_lc _ _ _ SH), (sh_hc _ _ _ SH), (sh_occ _ _ _ SH), (sh_s _ _ _ SH), (sh_q _ _ _ SH), (sh_nh _ _ _ SH).
  split; [lia|]. split; [lia|]. split; [lia|]. split; [lia|]. split; [done|]. split; [apply I|]. split; [apply I|]. split; [apply I|].
  set (a := (i_run sz cap h (ispec0 adm) cs).1) in *. pose proof (ii_s _ _ _ _ _ I) as Hnd.
  split; [|split; [|split; [|split]]].
  - intros x. rewrite (sh_st _ _ _ SH), stat_none. destruct (decide (x ∈ (is_s a).*1)); tauto.
  - intros x. rewrite (sh_st _ _ _ SH), stat_elem by done. split.
    + intros Hx. split; [by apply elem_fst in Hx|]. by destruct (ii_hir _ _ _ _ _ I x Hx).
    + intros [[t Hx]%fst_elem HQ]. by rewrite <- (ii_stat _ _ _ _ _ I x t HQ Hx).
  - intros x. rewrite (sh_st _ _ _ SH), stat_elem by done. symmetry. apply I.
  - intros E0. destruct B as [[_ ?]|(S & y & ES)]; [done|]. rewrite ES, fmap_app in E0. by destruct (S.*1).
  - intros y Hy. rewrite (sh_st _ _ _ SH), stat_elem by done. destruct B as [[E0 _]|(S & z & ES)]; [by rewrite E0 in Hy|].
    rewrite ES, fmap_app in Hy. cbn [fmap list_fmap fst] in Hy. rewrite last_snoc in Hy. injection Hy as ->. rewrite ES. apply elem_of_app. right. by left.
Qed.
Example C62_invariants_ex : exists s os,
  i_oks w1 6 2 (ispec0 AdmNone) (map g [1; 2; 3; 4; 5; 6; 7]) /\
  li_run true 0 (li_init 6 2 0 AdmNone) (map g [1; 2; 3; 4; 5; 6; 7]) = Ok (s, os) /\
  q_q (li_s s) = [7; 6; 5; 4; 3; 2; 1] /\ q_q (li_q s) = [7; 6] /\ q_q (li_nh s) = [5] /\
  status_in s 5 = Some NR /\ status_in s 6 = Some HIR /\ status_in s 1 = Some LIR /\ li_lc s = 4 /\ li_hc s = 2.
Proof.
  exists (st (run6 (map g [1; 2; 3; 4; 5; 6; 7]))), (replicate 7 (OBool false)). split; [apply g_oks|].
  do 8 (split; [vmr|]). vmr.
Qed.

(** What a get does: it hits exactly the LIR objects and the objects of Q.  A
    LIR object stays LIR.  A resident object of S that is not LIR becomes LIR,
    and so does a non-resident one of S when it may enter.  An object only in
    Q stays in Q and enters S.  An unknown object becomes LIR if there is room
    for it as LIR, and otherwise enters S and Q.  Afterwards S holds at most
    twice the cache size. *)
Theorem C62_get_partial sz cap h adm fuel cs s os r adm' ok : lirs_ok sz cap h -> i_oks sz cap h (ispec0 adm) cs ->
  li_run true fuel (li_init cap h 0 adm) cs = Ok (s, os) -> i_req sz r ->
  admit (c_adm (li_c s)) r = (adm', ok) ->
  exists s' hit, li_get true fuel s r = Ok (s', hit) /\
    let x := r_id r in
    let enters := ok = true /\ r_size r <= h in
    (hit = true <-> status_in s x = Some LIR \/ x ∈ q_q (li_q s)) /\
    (status_in s x = Some LIR \/ status_in s x = Some HIR -> status_in s' x = Some LIR) /\
    (status_in s x = None -> x ∈ q_q (li_q s) -> status_in s' x = Some HIR /\ x ∈ q_q (li_q s')) /\
    (status_in s x = Some NR -> enters -> status_in s' x = Some LIR) /\
    (status_in s x = None -> x ∉ q_q (li_q s) -> enters ->
       (li_lc s + r_size r <= cap - h -> status_in s' x = Some LIR) /\
       (li_lc s + r_size r > cap - h -> status_in s' x = Some HIR /\ x ∈ q_q (li_q s'))) /\
    (hit = false -> ~ enters -> status_in s' x <> Some LIR /\ x ∉ q_q (li_q s')) /\
    sum sz (q_q (li_s s')) <= 2 * cap.
Proof.
  intros Hl Hcs E Hreq Ha. destruct (run_facts sz cap h adm cs Hl Hcs fuel) as (s1 & E1 & R & I & B). rewrite E in E1. injection E1 as <- ->.
  pose proof (lrel_shows _ _ _ _ _ I R) as SH. destruct Hl as (H0 & H1 & H2 & H3).
  set (a := (i_run sz cap h (ispec0 adm) cs).1) in *. clearbody a.
  destruct (get_ok sz cap h H0 H1 H2 H3 s a r fuel R I B Hreq) as (s' & Eg & R').
  destruct (i_get sz cap h a r) as [a' hit] eqn:Ea'. cbn [fst snd] in *.
  destruct (get_inv sz cap h H1 H3 a r a' hit I B Hreq Ea') as [I' _].
  pose proof (lrel_shows _ _ _ _ _ I' R') as SH'. exists s', hit. split; [done|]. cbn zeta.
  rewrite !(sh_st _ _ _ SH), !(sh_st _ _ _ SH'), (sh_q _ _ _ SH), (sh_q _ _ _ SH'), (sh_lc _ _ _ SH), (sh_s _ _ _ SH').
  assert (Ea : is_adm a = c_adm (li_c s)) by (destruct R as (? & ? & ? & R); symmetry; apply R). rewrite <- Ea in Ha.
  pose proof (ii_s _ _ _ _ _ I') as Hnd'. rewrite !(stat_elem (is_s a')) by done.
  clear R R' Eg SH SH' E Ea s s'. revert Ea'. unfold i_get. set (x := r_id r) in *.
  destruct (i_access sz cap h a x) as [a1 b] eqn:Eac.
  destruct (access_inv sz cap h H1 H3 a x a1 b I B Eac) as (I1 & B1 & A1 & Hm).
  destruct (access_outcome sz cap h H0 H1 H3 a x a1 b I B Eac) as (O1 & O2 & O3 & O4 & O5 & O6 & O7).
  destruct b.
  - intros [= <- <-]. destruct (trim_keep sz cap h (length (is_nh a1)) a1 I1) as (K1 & K2 & K3). rewrite K1.
    split; [exact O1|]. split; [intros [?|?]; apply K2; auto|]. split; [intros Q1 Q2; rewrite K2 by done; auto|].
    assert (Hres : resident a x) by tauto. unfold resident in Hres.
    split; [intros Q1; exfalso; destruct Hres as [Q2|Q2]; [congruence|apply stat_elem in Q1; [|apply I]; by apply (ii_stat _ _ _ _ _ I x NR) in Q2]|].
    split; [intros Q1 Q2; exfalso; destruct Hres; congruence|]. split; [done|].
    apply (trim_bound sz cap h H0 H1); done.
  - rewrite A1, Ha. destruct (Hm eq_refl) as [Hq1 Hs1]. destruct (O7 eq_refl) as [L1 Q1].
    assert (Hnres : ~ resident a x) by (intros C; apply O1 in C; done). unfold resident in Hnres.
    set (a2 := mkIS (is_s a1) (is_q a1) (is_nh a1) adm').
    assert (I2 : iinv sz cap h None a2) by (by destruct I1).
    assert (B2 : bottom a2) by done.
    assert (Hs2 : stat_of (is_s a1) x = stat_of (is_s a) x).
    { destruct (stat_of (is_s a) x) as [[]|] eqn:Es; [tauto| | |].
      - exfalso. apply Hnres. right. apply stat_elem in Es; [|apply I]. by destruct (ii_hir _ _ _ _ _ I x Es).
      - apply stat_elem; [apply I1|]. by apply O5.
      - rewrite O6; [done|]. split; [done|tauto]. }
    destruct Hreq as [Ez Hz]. fold x in Ez, Hz.
    destruct (ok && bool_decide (r_size r <= h))%bool eqn:Eo; intros [= <- <-].
    + apply andb_true_iff in Eo as [-> Ho%bool_decide_eq_true]. assert (Gx : good sz h x) by (unfold good; lia).
      destruct (add_inv sz cap h H1 H3 x a2 I2 B2 Gx Hq1 Hs1) as (I3 & _).
      destruct (add_outcome sz cap h H0 H1 H3 x a2 I2 B2 Gx Hq1 Hs1) as (P1 & P2 & P3).
      set (a3 := i_add sz cap h a2 x) in *.
      destruct (trim_keep sz cap h (length (is_nh a3)) a3 I3) as (K1 & K2 & K3). rewrite K1, !K2 by done.
      change (stat_of (is_s a2) x) with (stat_of (is_s a1) x) in *. rewrite Hs2 in *. change (lir_bytes sz a2) with (lir_bytes sz a1) in *. rewrite L1 in *.
      split; [split; [done|intros C; tauto]|].
      split; [intros [C|C]; [tauto|exfalso; apply Hnres; right; apply stat_elem in C; [|apply I]; by destruct (ii_hir _ _ _ _ _ I x C)]|].
      split; [tauto|]. split; [auto|]. rewrite Ez. split; [auto|]. split; [intros _ C; exfalso; apply C; split; [done|lia]|].
      apply (trim_bound sz cap h H0 H1); done.
    + assert (Hne : ~ (ok = true /\ r_size r <= h)).
      { intros [-> C]. rewrite bool_decide_eq_true_2 in Eo by done. done. }
      destruct (trim_keep sz cap h (length (is_nh a1)) a2 I2) as (K1 & K2 & K3). rewrite K1, !K2 by done.
      split; [split; [done|intros C; tauto]|].
      split; [intros [C|C]; [tauto|exfalso; apply Hnres; right; apply stat_elem in C; [|apply I]; by destruct (ii_hir _ _ _ _ _ I x C)]|].
      split; [tauto|]. split; [tauto|]. split; [tauto|]. split.
      * intros _ _. split; [|exact Hq1]. intros C. apply stat_elem in C; [|apply I1]. change (stat_of (is_s a1) x = Some LIR) in C. rewrite Hs2 in C. tauto.
      * apply (trim_bound sz cap h H0 H1); done.
Qed.

Example C62_get_ex : exists s os s',
  i_oks w1 6 2 (ispec0 AdmNone) (map g [1; 2; 3; 4; 5; 6; 7]) /\
  li_run true 0 (li_init 6 2 0 AdmNone) (map g [1; 2; 3; 4; 5; 6; 7]) = Ok (s, os) /\
  li_get true 0 s (rq 5 1) = Ok (s', false) /\
  status_in s 5 = Some NR /\ status_in s' 5 = Some LIR /\
  q_q (li_s s') = [5; 7; 6; 4; 3; 2] /\ q_q (li_q s') = [1; 7] /\ q_q (li_nh s') = [6].
Proof.
  exists (st (run6 (map g [1; 2; 3; 4; 5; 6; 7]))), (replicate 7 (OBool false)), (st (run6 (map g [1; 2; 3; 4; 5; 6; 7; 5]))).
  split; [apply g_oks|]. do 6 (split; [vmr|]). vmr.
Qed.

(** A find without update of a LIR object or of an object that is not
    resident changes nothing and answers whether the object is resident. *)
Theorem C62_find_pure_partial sz cap h adm fuel cs s os r : lirs_ok sz cap h -> i_oks sz cap h (ispec0 adm) cs ->
  li_run true fuel (li_init cap h 0 adm) cs = Ok (s, os) ->
  (status_in s (r_id r) = Some LIR \/ r_id r ∉ q_q (li_q s)) ->
  li_find true s r false = Ok (s, bool_decide (status_in s (r_id r) = Some LIR)).
Proof.
  intros Hl Hcs E Hx. destruct (run_facts sz cap h adm cs Hl Hcs fuel) as (s1 & E1 & R & I & B). rewrite E in E1. injection E1 as <- ->.
  pose proof (lrel_shows _ _ _ _ _ I R) as SH. destruct Hl as (H0 & H1 & H2 & H3).
  rewrite (sh_st _ _ _ SH), (sh_q _ _ _ SH) in *. apply (find_false sz cap h H0 H1 H2 s _ r R I B).
  destruct Hx as [|Hx]; [by left|]. destruct (decide (stat_of (is_s (i_run sz cap h (ispec0 adm) cs).1) (r_id r) = Some LIR)); [by left|right].
  by intros [|].
Qed.
Example C62_find_pure_ex : exists s os,
  li_run true 0 (li_init 6 2 0 AdmNone) (map g [1; 2; 3; 4; 5; 6; 7]) = Ok (s, os) /\
  status_in s 1 = Some LIR /\ status_in s 5 = Some NR /\ 5 ∉ q_q (li_q s).
Proof.
  exists (st (run6 (map g [1; 2; 3; 4; 5; 6; 7]))), (replicate 7 (OBool false)). do 3 (split; [vmr|]). vmb.
Qed.

(** Refuted: the code reads an object just after freeing it.  A get of a
    resident object of S that is not LIR does (line 540), and so does every
    remove of an object of S or Q (412-435). *)
Theorem C62_hit_use_after_free_refuted :
  li_run false 0 (li_init 6 2 0 AdmNone) (map g [1; 2; 3; 4; 5; 6; 6]) = Err UseAfterFree.
Proof. vm_compute. reflexivity. Qed.
Theorem C62_remove_use_after_free_refuted s x :
  (exists o, c_tbl (q_c (li_s s)) !! x = Some o) \/ (exists o, c_tbl (q_c (li_q s)) !! x = Some o) ->
  forall s' b, li_remove false s x <> Ok (s', b).
Proof.
  intros H s' b. unfold li_remove. destruct (c_tbl (q_c (li_s s)) !! x) as [o|] eqn:Es.
  - destruct (q_remove (li_s s) x) as [[q c]|e]; cbn; done.
  - destruct H as [[o Ho]|[o Ho]]; [done|]. rewrite Ho. destruct (q_remove (li_q s) x) as [[q c]|e]; cbn; done.
Qed.
Example C62_remove_use_after_free_ex : exists s os o,
  li_run false 0 (li_init 6 2 0 AdmNone) [g 1] = Ok (s, os) /\ c_tbl (q_c (li_s s)) !! 1 = Some o.
Proof. exists (st (run6 [g 1])), [OBool false], (flags 1 1 (obj_of_req (rq 1 1))). split; vmr. Qed.

(** Refuted, even if freed memory kept its contents: on a cache of 4 objects
    (so Q holds one), a hit on an object that is only in Q demotes a LIR object
    into Q, which pushes out the object that was hit; the loop then reads it
    (575). *)
Theorem C62_small_queue_refuted :
  li_run true 0 (li_init 4 1 0 AdmNone) (map g [1; 2; 3; 4; 5; 4; 1]) = Err UseAfterFree.
Proof. vm_compute. reflexivity. Qed.

(** Refuted: a hit may evict.  Object 1 is only in Q; its hit demotes 2 and
    pushes out 7, and nothing enters: the cache is left with 5 of 6 bytes. *)
Theorem C62_hit_evicts_refuted : exists s s' os,
  li_run true 0 (li_init 6 2 0 AdmNone) (map g [1; 2; 3; 4; 5; 6; 7; 5]) = Ok (s, os) /\
  li_get true 0 s (rq 1 1) = Ok (s', true) /\
  7 ∈ q_q (li_q s) /\ c_occ (li_c s) = 6 /\ 7 ∉ q_q (li_q s') /\ status_in s' 7 = Some NR /\ c_occ (li_c s') = 5.
Proof.
  exists (st (run6 (map g [1; 2; 3; 4; 5; 6; 7; 5]))), (st (run6 (map g [1; 2; 3; 4; 5; 6; 7; 5; 1]))), (replicate 8 (OBool false)).
  split; [vmr|]. split; [vmr|]. split; [vmb|]. split; [vmr|]. split; [vmb|]. split; vmr.
Qed.

(** Refuted: a find without update of a resident object that is not LIR
    changes the cache (it makes it LIR and demotes another), and can fail. *)
Theorem C62_find_changes_refuted :
  (exists s s' os, li_run true 0 (li_init 6 2 0 AdmNone) (map g [1; 2; 3; 4; 5; 6]) = Ok (s, os) /\
     li_find true s (rq 5 1) false = Ok (s', true) /\
     status_in s 5 = Some HIR /\ status_in s' 5 = Some LIR /\ status_in s 1 = Some LIR /\ status_in s' 1 = None) /\
  (exists s os, li_run true 0 (li_init 4 1 0 AdmNone) (map g [1; 2; 3; 4; 5; 4]) = Ok (s, os) /\
     li_find true s (rq 1 1) false = Err UseAfterFree).
Proof.
  split.
  - exists (st (run6 (map g [1; 2; 3; 4; 5; 6]))), (st (run6 (map g [1; 2; 3; 4; 5; 6] ++ [CFind (rq 5 1) false]))), (replicate 6 (OBool false)).
    do 5 (split; [vmr|]). vmr.
  - exists (st (run4 (map g [1; 2; 3; 4; 5; 4]))), (replicate 6 (OBool false)). split; vmr.
Qed.

(** Refuted: removing an object that left the cache answers that it was there,
    and leaves it in the list of non-resident objects, where it cannot be
    entered a second time. *)
Theorem C62_remove_ghost_refuted : exists s s' os,
  li_run true 0 (li_init 6 2 0 AdmNone) (map g [1; 2; 3; 4; 5; 6; 7]) = Ok (s, os) /\
  status_in s 5 = Some NR /\ 5 ∉ q_q (li_q s) /\
  li_remove true s 5 = Ok (s', true) /\ status_in s' 5 = None /\ q_q (li_nh s') = [5] /\
  li_run true 0 s' (map g [5; 8; 9]) = Err DupInsert.
Proof.
  exists (st (run6 (map g [1; 2; 3; 4; 5; 6; 7]))), (st (run6 (map g [1; 2; 3; 4; 5; 6; 7] ++ [CRemove 5]))), (replicate 7 (OBool false)).
  split; [vmr|]. split; [vmr|]. split; [vmb|]. do 3 (split; [vmr|]). vmr.
Qed.

(** Refuted: removing the last LIR object leaves a stack whose lowest object is
    not LIR. *)
Theorem C62_remove_last_lir_refuted : exists s os,
  li_run true 0 (li_init 6 2 0 AdmNone) (map g [1; 2; 3; 4; 5; 6] ++ (CRemove <$> [1; 2; 3; 4])) = Ok (s, os) /\
  last (q_q (li_s s)) = Some 6 /\ status_in s 6 = Some HIR.
Proof.
  exists (st (run6 (map g [1; 2; 3; 4; 5; 6] ++ (CRemove <$> [1; 2; 3; 4])))), (replicate 6 (OBool false) ++ replicate 4 (OBool true)).
  split; [vmr|]. split; vmr.
Qed.

(** Refuted: with object metadata counted, the eviction loop of a get need not
    end: LIR objects are counted without metadata, so the cache can be full
    while both limits still have room, and an evict then evicts nothing. *)
Theorem C62_evict_nothing_partial s r : c_tbl (q_c (li_s s)) !! r_id r = None -> c_tbl (q_c (li_q s)) !! r_id r = None ->
  (li_lc s + r_size r <= li_ll s \/ li_hc s + r_size r <= li_hl s) -> li_evict s r = Ok s.
Proof. intros E1 E2 H. unfold li_evict. rewrite E1, E2. rewrite decide_False by lia. done. Qed.
Definition five : lirs := st (li_run true 0 (li_init 100 1 16 AdmNone) (map g [1; 2; 3; 4; 5])).
Definition six : lirs := st (li_find true (li_set_c five (c_incr_nreq (li_c five))) (rq 6 1) true).
Lemma fuel_free n : li_run true n (li_init 100 1 16 AdmNone) (map g [1; 2; 3; 4; 5]) = Ok (five, replicate 5 (OBool false)).
Proof. destruct n; vmr. Qed.
Theorem C62_metadata_loops_refuted fuel :
  li_run true fuel (li_init 100 1 16 AdmNone) (map g [1; 2; 3; 4; 5; 6]) = Err OutOfFuel.
Proof.
  assert (E1 : li_find true (li_set_c five (c_incr_nreq (li_c five))) (rq 6 1) true = Ok (six, false)) by vmr.
  assert (E2 : li_can_insert six (rq 6 1) = Ok (six, true)) by vmr.
  assert (T1 : c_tbl (q_c (li_s six)) !! 6 = None) by vmr. assert (T2 : c_tbl (q_c (li_q six)) !! 6 = None) by vmr.
  assert (L1 : li_lc six = 5) by vmr. assert (L2 : li_ll six = 99) by vmr.
  assert (O1 : c_occ (li_c six) = 85) by vmr. assert (O2 : c_md (li_c six) = 16) by vmr. assert (O3 : c_size (li_c six) = 100) by vmr.
  set (s1 := six) in *. clearbody s1.
  assert (EL : forall n, evict_loop (li_ops true) n s1 (rq 6 1) = Err OutOfFuel).
  { induction n as [|n IH]; cbn [evict_loop op_occupied op_md op_size op_evict li_ops];
      rewrite O1, O2, O3, decide_True by (cbn; lia); [done|].
    rewrite (C62_evict_nothing_partial s1 (rq 6 1) T1 T2) by (cbn; lia). exact IH. }
  change (map g [1; 2; 3; 4; 5; 6]) with (map g [1; 2; 3; 4; 5] ++ [g 6]).
  assert (App : forall cs1 cs2 s0, li_run true fuel s0 (cs1 ++ cs2) =
    let! (s2, o1) := li_run true fuel s0 cs1 in let! (s3, o2) := li_run true fuel s2 cs2 in Ok (s3, o1 ++ o2)).
  { induction cs1 as [|c cs1 IH]; intros cs2 s0; cbn [app li_run rbind].
    - destruct (li_run true fuel s0 cs2) as [[]|]; done.
    - destruct (li_step true fuel s0 c) as [[s2 o]|]; cbn [rbind]; [|done]. rewrite IH.
      destruct (li_run true fuel s2 cs1) as [[s3 o1]|]; cbn [rbind]; [|done].
      destruct (li_run true fuel s3 cs2) as [[]|]; done. }
  rewrite App, fuel_free. set (s := five) in *. clearbody s. cbn [rbind li_run li_step g]. unfold li_get, cache_get_base. cbn [op_tick op_find op_can_insert li_ops].
  rewrite E1. cbn [rbind]. rewrite E2. cbn [rbind]. rewrite EL. done.
Qed.
