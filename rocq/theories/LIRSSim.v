(** The model of LIRS.c (ModelLIRS.v) follows the lists of SpecLIRS.v: every
    allowed call succeeds and keeps the states related. *)
From stdpp Require Import gmap list numbers fin_maps.
From Verif Require Import Base Driver ModelQueue ModelTwoQ ModelSLRU QList ModelLIRS SpecLIRS LIRSFacts.
Open Scope Z_scope.

Definition status (o : cobj) : stat := if is_lir o then LIR else if in_cache o then HIR else NR.
Definition view (l : qlist) : stack := (fun p => (p.1, status p.2)) <$> l.

Lemma view_ids l : (view l).*1 = ids l.
Proof. unfold view, ids. rewrite <- list_fmap_compose. by apply list_fmap_ext. Qed.
Lemma view_elem l x o : (x, o) ∈ l -> (x, status o) ∈ view l.
Proof. intros H. unfold view. apply elem_of_list_fmap. by exists (x, o). Qed.
Lemma view_del x l : view (l_del x l) = s_drop x (view l).
Proof.
  unfold view, l_del, s_drop. induction l as [|[y o] l IH]; [done|]. rewrite fmap_cons, !filter_cons. cbn [fst snd].
  destruct (decide (y <> x)); [rewrite fmap_cons; by f_equal|done].
Qed.
Lemma view_upd f x t l : (forall o, (x, o) ∈ l -> status (f o) = t) -> view (l_upd f x l) = s_mark x t (view l).
Proof.
  intros H. unfold view, l_upd, s_mark. rewrite <- !list_fmap_compose. apply list_fmap_ext. intros i [y o] Hi. cbn.
  destruct (decide (y = x)) as [->|]; [|done]. cbn. f_equal. apply H. by apply elem_of_list_lookup_2 in Hi.
Qed.
Lemma view_app l1 l2 : view (l1 ++ l2) = view l1 ++ view l2.
Proof. apply fmap_app. Qed.
Lemma ids_i_drop x l : ids (l_del x l) = i_drop x (ids l).
Proof. rewrite ids_del. done. Qed.
Lemma view_snoc l S x t : view l = S ++ [(x, t)] -> exists l1 o, l = l1 ++ [(x, o)] /\ view l1 = S /\ status o = t.
Proof.
  intros E. destruct l as [|p0 l0]; [by destruct S|]. destruct (exists_last (l := p0 :: l0)) as (l1 & [y o] & E1); [done|].
  rewrite E1 in *. rewrite view_app in E. change (view [(y, o)]) with [(y, status o)] in E.
  apply app_inj_tail in E as [E2 [= -> <-]]. by exists l1, o.
Qed.
Lemma ids_snoc l q x : ids l = q ++ [x] -> exists l1 o, l = l1 ++ [(x, o)] /\ ids l1 = q.
Proof.
  intros E. destruct l as [|p0 l0]; [by destruct q|]. destruct (exists_last (l := p0 :: l0)) as (l1 & [y o] & E1); [done|].
  rewrite E1 in *. rewrite ids_app in E. change (ids [(y, o)]) with [y] in E.
  apply app_inj_tail in E as [E2 ->]. by exists l1, o.
Qed.

Section Sim.
  Context (sz : Z -> Z) (cap h : Z).
  Context (Hh0 : 0 <= h) (Hh : 2 * h <= cap) (Hcap : cap < 2 ^ 63).
  Notation sum := (SpecLIRS.sum sz).
  Notation lir_bytes := (SpecLIRS.lir_bytes sz).
  Notation hir_bytes := (SpecLIRS.hir_bytes sz).
  Notation iinv := (LIRSFacts.iinv sz cap h).
  Notation good := (LIRSFacts.good sz h).

  Definition sized (l : qlist) : Prop := Forall (fun p => o_size p.2 = sz p.1) l.

  Record lrel_ (s : lirs) (a : ispec) (ls lq ln : qlist) : Prop := {
    lr_s : qok (cap - h) 0 (li_s s) ls;
    lr_sv : view ls = is_s a;
    lr_sz : sized ls;
    lr_q : qok h 0 (li_q s) lq;
    lr_qi : ids lq = is_q a;
    lr_qz : sized lq;
    lr_qc : Forall (fun p => in_cache p.2 = true) lq;
    lr_n : qok cap 0 (li_nh s) ln;
    lr_ni : ids ln = is_nh a;
    lr_hc : li_hc s = hir_bytes a;
    lr_lc : li_lc s = lir_bytes a;
    lr_occ : c_occ (li_c s) = lir_bytes a + hir_bytes a;
    lr_nobj : c_nobj (li_c s) = Z.of_nat (length (lirs_of (is_s a)) + length (is_q a));
    lr_size : c_size (li_c s) = cap;
    lr_md : c_md (li_c s) = 0;
    lr_adm : c_adm (li_c s) = is_adm a;
    lr_hl : li_hl s = h;
    lr_ll : li_ll s = cap - h }.
  Definition lrel (s : lirs) (a : ispec) : Prop := exists ls lq ln, lrel_ s a ls lq ln.

  Lemma sized_in l x o : sized l -> (x, o) ∈ l -> o_size o = sz x.
  Proof. unfold sized. rewrite Forall_forall. intros H Hx. by apply H in Hx. Qed.
  Lemma u64_id x : 0 <= x < 2 ^ 64 -> u64 x = x.
  Proof. intros. unfold u64. by rewrite Z.mod_small. Qed.
  Lemma osz32 n s l x o : qok n 0 s l -> (x, o) ∈ l -> 0 <= o_size o < 2 ^ 32.
  Proof. intros H Hx. pose proof (qok_osz _ _ _ _ H) as G. rewrite Forall_forall in G. apply G in Hx as [? ?]. cbn in *. lia. Qed.

  Lemma sum_nn l : Forall good l -> 0 <= sum l.
  Proof. apply sum_nonneg. Qed.
  Lemma hb_nn e a : iinv e a -> 0 <= hir_bytes a <= h.
  Proof. intros H. split; [|apply H]. apply sum_nn. pose proof (ii_good _ _ _ _ _ H) as G. apply Forall_app in G. tauto. Qed.
  Lemma lb_nn e a : iinv e a -> 0 <= lir_bytes a <= cap - h.
  Proof.
    intros H. split; [|apply H]. apply sum_nn. rewrite Forall_forall. intros x Hx%lirs_elem. by apply (good_s sz cap h e a x LIR).
  Qed.

  (** What the tables hold. *)
  Lemma s_some s a x t : lrel s a -> NoDup (is_s a).*1 -> (x, t) ∈ is_s a ->
    exists o, c_tbl (q_c (li_s s)) !! x = Some o /\ status o = t /\ o_size o = sz x /\ 0 <= sz x < 2 ^ 32.
  Proof.
    intros (ls & lq & ln & R) Hnd Hx. pose proof Hx as Hi. apply elem_fst in Hi. rewrite <- (lr_sv _ _ _ _ _ R), view_ids in Hi.
    apply ids_elem in Hi as [o Ho]. exists o. split; [by apply (qok_lookup _ _ _ _ (lr_s _ _ _ _ _ R))|].
    assert (Es : o_size o = sz x) by (apply (sized_in ls); [apply R|done]).
    split; [|split; [done|]].
    - apply (nd_fun (is_s a) x); [done| |done]. rewrite <- (lr_sv _ _ _ _ _ R). by apply view_elem.
    - rewrite <- Es. apply (osz32 _ _ _ _ _ (lr_s _ _ _ _ _ R) Ho).
  Qed.
  Lemma s_none s a x : lrel s a -> x ∉ (is_s a).*1 -> c_tbl (q_c (li_s s)) !! x = None.
  Proof.
    intros (ls & lq & ln & R) Hx. apply (qok_lookup_None _ _ _ _ (lr_s _ _ _ _ _ R)). by rewrite <- view_ids, (lr_sv _ _ _ _ _ R).
  Qed.
  Lemma q_some s a x : lrel s a -> x ∈ is_q a ->
    exists o, c_tbl (q_c (li_q s)) !! x = Some o /\ in_cache o = true /\ o_size o = sz x /\ 0 <= sz x < 2 ^ 32.
  Proof.
    intros (ls & lq & ln & R) Hx. rewrite <- (lr_qi _ _ _ _ _ R) in Hx.
    apply ids_elem in Hx as [o Ho]. exists o. split; [by apply (qok_lookup _ _ _ _ (lr_q _ _ _ _ _ R))|].
    assert (Es : o_size o = sz x) by (apply (sized_in lq); [apply R|done]).
    pose proof (lr_qc _ _ _ _ _ R) as G. rewrite Forall_forall in G. apply G in Ho as Hc. cbn in Hc.
    split; [done|]. split; [done|]. rewrite <- Es. apply (osz32 _ _ _ _ _ (lr_q _ _ _ _ _ R) Ho).
  Qed.
  Lemma q_none s a x : lrel s a -> x ∉ is_q a -> c_tbl (q_c (li_q s)) !! x = None.
  Proof.
    intros (ls & lq & ln & R) Hx. apply (qok_lookup_None _ _ _ _ (lr_q _ _ _ _ _ R)). by rewrite (lr_qi _ _ _ _ _ R).
  Qed.

  Lemma status_lir o : is_lir o = true -> status o = LIR.
  Proof. intros H. unfold status. by rewrite H. Qed.
  Lemma status_LIR o : status o = LIR -> is_lir o = true.
  Proof. unfold status. destruct (is_lir o), (in_cache o); done. Qed.
  Lemma status_HIR o : status o = HIR -> is_lir o = false /\ in_cache o = true.
  Proof. unfold status. destruct (is_lir o), (in_cache o); done. Qed.
  Lemma status_NR o : status o = NR -> is_lir o = false /\ in_cache o = false.
  Proof. unfold status. destruct (is_lir o), (in_cache o); done. Qed.

  Lemma evict_hir_ok e s a : lrel s a -> iinv e a -> is_q a <> [] ->
    exists s', li_evict_hir s = Ok s' /\ lrel s' (push_out a).
  Proof using Hh0 Hh Hcap.
    intros HR H Hne. pose proof HR as (ls & lq & ln & R).
    destruct (exists_last (l := is_q a)) as (q & v & Eq); [done|].
    destruct (ids_snoc lq q v) as (l1 & o & -> & El1); [by rewrite (lr_qi _ _ _ _ _ R)|].
    assert (Hin : (v, o) ∈ l1 ++ [(v, o)]) by (apply elem_of_app; right; by left).
    assert (Hvq : v ∈ is_q a) by (rewrite Eq; apply elem_of_app; right; by left).
    pose proof (lr_q _ _ _ _ _ R) as RQ.
    assert (Hosz : o_size o = sz v) by (apply (sized_in (l1 ++ [(v, o)])); [apply R|done]).
    pose proof (osz32 _ _ _ _ _ RQ Hin) as H32.
    pose proof (hb_nn e a H) as Hb.
    assert (Hbq : hir_bytes a = sum q + sz v).
    { unfold SpecLIRS.hir_bytes. rewrite Eq, sum_app, sum_cons. change (sum []) with 0. lia. }
    assert (0 <= sum q).
    { apply sum_nn. pose proof (ii_good _ _ _ _ _ H) as G. rewrite Eq, !Forall_app in G. tauto. }
    unfold li_evict_hir. rewrite (qok_q _ _ _ _ RQ), ids_app. change (ids [(v, o)]) with [v]. rewrite last_snoc.
    unfold deref. rewrite (proj2 (qok_lookup _ _ _ _ RQ v o) Hin). cbn [rbind].
    destruct (qok_evict h 0 (li_q s) l1 v o no_req) as (q' & Eq' & HQ'); [lia|done|].
    cbn [li_q li_add_h]. rewrite Eq'. cbn [rbind li_s li_set_q li_add_h li_nh].
    pose proof (lr_qz _ _ _ _ _ R) as HZ. unfold sized in HZ. rewrite Forall_app in HZ. destruct HZ as [HZ1 HZ2].
    pose proof (lr_qc _ _ _ _ _ R) as HC. rewrite Forall_app in HC. destruct HC as [HC1 HC2].
    unfold push_out. rewrite Eq, last_snoc, removelast_last.
    pose proof (lr_nobj _ _ _ _ _ R) as Hno. rewrite Eq, app_length in Hno. cbn [length] in Hno.
    destruct (stat_of (is_s a) v) as [t|] eqn:Et.
    - apply stat_elem in Et; [|apply H]. assert (t = HIR) as -> by (by apply (ii_stat _ _ _ _ _ H v)).
      assert (Hnl : (v, LIR) ∉ is_s a) by (intros C; by apply (ii_stat _ _ _ _ _ H v) in C).
      destruct (s_some s a v HIR HR (ii_s _ _ _ _ _ H) Et) as (os & Eos & Hst & Hsz & _).
      rewrite Eos. cbn [li_nh li_set_s li_set_q li_add_h].
      destruct (qok_insert cap 0 (li_nh s) ln (lr_n _ _ _ _ _ R) (req_of_obj v o)) as (n' & En' & HN').
      { cbn. rewrite (lr_ni _ _ _ _ _ R). intros C. apply (ii_nr _ _ _ _ _ H) in C.
        by apply (ii_stat _ _ _ _ _ H v) in C. }
      { unfold req_ok. cbn. lia. } { lia. }
      cbn [r_id req_of_obj] in HN'. rewrite En'. cbn [rbind]. eexists. split; [done|].
      exists (l_upd (fun o => o_set_p2 o 0) v ls), l1, ((v, obj_of_req (req_of_obj v o)) :: ln).
      assert (HV : view (l_upd (fun o => o_set_p2 o 0) v ls) = s_mark v NR (is_s a)).
      { rewrite <- (lr_sv _ _ _ _ _ R). apply view_upd. intros o1 Ho1.
        apply (qok_lookup _ _ _ _ (lr_s _ _ _ _ _ R)) in Ho1. rewrite Eos in Ho1. injection Ho1 as <-.
        apply status_HIR in Hst as [Hl _]. unfold status. change (is_lir (o_set_p2 os 0)) with (is_lir os). rewrite Hl. done. }
      split; cbn [li_account li_set_nh li_set_s li_set_q li_add_h li_set_c li_c li_s li_q li_nh li_hl li_ll li_hc li_lc is_s is_q is_nh is_adm
                  c_occ c_nobj c_size c_md c_adm r_size req_of_obj]; try done; try apply R.
      + apply (qok_upd _ _ _ _ (lr_s _ _ _ _ _ R)). done.
      + unfold sized. apply Forall_upd; [done|apply R].
      + change (v :: ids ln = v :: is_nh a). f_equal. apply R.
      + rewrite (lr_hc _ _ _ _ _ R), Hosz. rewrite u64_id by lia. unfold SpecLIRS.hir_bytes at 2. cbn [is_q]. lia.
      + rewrite (lr_lc _ _ _ _ _ R). unfold SpecLIRS.lir_bytes. cbn [is_s]. by rewrite lirs_mark.
      + rewrite (lr_occ _ _ _ _ _ R), (lr_md _ _ _ _ _ R). unfold SpecLIRS.lir_bytes, SpecLIRS.hir_bytes at 2. cbn [is_s is_q].
        rewrite lirs_mark by done. lia.
      + rewrite lirs_mark by done. rewrite Hno. lia.
    - apply stat_none in Et. rewrite (s_none s a v HR Et). cbn [rbind]. eexists. split; [done|].
      exists ls, l1, ln.
      split; cbn [li_account li_set_nh li_set_s li_set_q li_add_h li_set_c li_c li_s li_q li_nh li_hl li_ll li_hc li_lc is_s is_q is_nh is_adm
                  c_occ c_nobj c_size c_md c_adm r_size req_of_obj]; try done; try apply R.
      + rewrite (lr_hc _ _ _ _ _ R), Hosz. rewrite u64_id by lia. unfold SpecLIRS.hir_bytes at 2. cbn [is_q]. lia.
      + rewrite (lr_occ _ _ _ _ _ R), (lr_md _ _ _ _ _ R). unfold SpecLIRS.lir_bytes, SpecLIRS.hir_bytes at 2. cbn [is_s is_q]. lia.
      + rewrite Hno. lia.
  Qed.

  (** The loops that make room in Q. *)
  Lemma room_q_ok e need n : forall s a, lrel s a -> iinv e a -> (length (is_q a) <= n)%nat -> need <= h ->
    exists s', while_ (S n) (fun s => Ok (bool_decide (li_hc s + need > li_hl s))) li_evict_hir s = Ok s' /\
      lrel s' (room_q sz h n need a).
  Proof using Hh0 Hh Hcap.
    induction n as [|n IH]; intros s a HR H Hn Hd; pose proof HR as (ls & lq & ln & R).
    - assert (is_q a = []) as Eq by (destruct (is_q a); [done|cbn in Hn; lia]).
      cbn [room_q]. assert (hir_bytes a = 0) as Eh by (unfold SpecLIRS.hir_bytes; by rewrite Eq).
      cbn [while_ rbind]. rewrite (lr_hc _ _ _ _ _ R), (lr_hl _ _ _ _ _ R), bool_decide_eq_false_2 by lia.
      rewrite decide_False by lia. eauto.
    - cbn [room_q]. set (m := S n). cbn [while_ rbind]. rewrite (lr_hc _ _ _ _ _ R), (lr_hl _ _ _ _ _ R).
      destruct (decide _) as [Hgt|Hle].
      + rewrite bool_decide_eq_true_2 by done.
        assert (Hne : is_q a <> []). { intros Eq. unfold SpecLIRS.hir_bytes in Hgt. rewrite Eq in Hgt. change (sum []) with 0 in Hgt. lia. }
        destruct (evict_hir_ok e s a HR H Hne) as (s1 & E1 & R1). rewrite E1. cbn [rbind]. apply IH; [done|by apply push_out_inv| |done].
        rewrite (proj2 (proj2 (push_out_keep a))). destruct (exists_last (l := is_q a)) as (q & v & Eq); [done|].
        rewrite Eq in *. rewrite removelast_last. rewrite app_length in Hn. cbn in Hn. lia.
      + rewrite bool_decide_eq_false_2 by done. eauto.
  Qed.
  Lemma q_len s a : lrel s a -> length (q_q (li_q s)) = length (is_q a).
  Proof. intros (ls & lq & ln & R). rewrite (qok_q _ _ _ _ (lr_q _ _ _ _ _ R)). by rewrite (lr_qi _ _ _ _ _ R). Qed.
  Lemma s_len s a : lrel s a -> length (q_q (li_s s)) = length (is_s a).
  Proof.
    intros (ls & lq & ln & R). rewrite (qok_q _ _ _ _ (lr_s _ _ _ _ _ R)), <- (lr_sv _ _ _ _ _ R). unfold ids, view. by rewrite !fmap_length.
  Qed.

  (** LIRS_prune *)
  Lemma prune_bottom e a S y : iinv e a -> is_s a = S ++ [(y, LIR)] -> i_prune a = a.
  Proof.
    intros H E. unfold i_prune. rewrite E, pruned_lir, <- E. destruct a as [S0 Q NH adm]. cbn [is_s is_q is_nh is_adm] in *. f_equal.
    assert (Hall : Forall (fun y => y ∈ S0.*1) NH).
    { apply Forall_forall. intros x Hx. apply (ii_nr _ _ _ _ _ H) in Hx. by apply elem_fst in Hx. }
    clear -Hall. induction Hall as [|x NH Hx _ IH]; [done|]. by rewrite filter_cons_True, IH.
  Qed.
  Lemma cut_other e a S x t y : is_s a = S ++ [(x, t)] -> t <> LIR -> iinv e a -> (y, LIR) ∈ S ->
    iinv e (mkIS S (is_q a) (i_drop x (is_nh a)) (is_adm a)) /\
    i_prune (mkIS S (is_q a) (i_drop x (is_nh a)) (is_adm a)) = i_prune a /\ x ∉ S.*1.
  Proof.
    intros E Ht H Hy. destruct H as [Hs Hq Hnh Hhir He Hst Hnr Hg Hlb Hhb]. rewrite E in *.
    assert (Hsub : forall p, p ∈ S -> p ∈ S ++ [(x, t)]) by (intros; apply elem_of_app; by left).
    rewrite fmap_app in Hs, Hg. apply NoDup_app in Hs as (Hs1 & Hs2 & _).
    assert (HxS : x ∉ S.*1) by (intros C; apply (Hs2 x C); by left).
    split; [|split; [|done]].
    - split; cbn [is_s is_q is_nh]; try done; auto.
      + by apply i_drop_nd.
      + intros z u Ez. destruct (He z u Ez) as (Hu & Hz & S' & ES). split; [done|]. split; [done|].
        destruct S as [|p S0]; [by apply elem_of_nil in Hy|]. cbn in ES. injection ES as -> _. by exists S0.
      + intros z u Hz Hu. by apply (Hst z u), Hsub.
      + intros z. rewrite i_drop_elem, Hnr, elem_of_app, elem_of_list_singleton. split.
        * intros [[?|?] ?]; [done|congruence].
        * intros Hz. split; [by left|]. intros ->. by apply elem_fst in Hz.
      + rewrite !Forall_app in *. tauto.
      + unfold SpecLIRS.lir_bytes in *. cbn [is_s]. rewrite E, lirs_app in Hlb.
        replace (lirs_of [(x, t)]) with (@nil Z) in Hlb by (by rewrite lirs_cons_other). by rewrite app_nil_r in Hlb.
    - unfold i_prune. cbn [is_s is_q is_nh is_adm]. rewrite E, pruned_other by done. f_equal.
      assert (Hx : x ∉ (pruned S).*1) by (intros C; by apply pruned_ids in C).
      unfold i_drop. clear -Hx. induction (is_nh a) as [|z l IH]; [done|].
      destruct (decide (z = x)) as [->|Hne].
      + rewrite (filter_cons_False (fun y => y <> x)) by tauto. by rewrite (filter_cons_False (fun y => y ∈ (pruned S).*1)).
      + rewrite (filter_cons_True (fun y => y <> x)) by done. rewrite !(filter_cons (fun y => y ∈ (pruned S).*1)).
        destruct (decide _); by rewrite IH.
  Qed.

  Lemma prune_ok e y n : forall s a, lrel s a -> iinv e a -> (y, LIR) ∈ is_s a -> (length (is_s a) <= n)%nat ->
    exists s', while_ n
    (fun s =>
       match last (q_q (li_s s)) with
       | None => Ok false
       | Some t =>
           if decide (head (q_q (li_s s)) = Some t) then Ok false
           else let! o := deref (li_s s) t in Ok (negb (is_lir o))
       end)
    (fun s =>
       match last (q_q (li_s s)) with
       | None => Err NullDeref
       | Some t =>
           let! o := deref (li_s s) t in
           let! s := if in_cache o then Ok s else li_nh_remove s t in
           let! q := q_evict_tail (li_s s) no_req in
           Ok (li_set_s s q)
       end) s = Ok s' /\ lrel s' (i_prune a).
  Proof using Hh0 Hh Hcap.
    induction n as [|n IH]; intros s a HR H Hy Hn; pose proof HR as (ls & lq & ln & R).
    { destruct (is_s a); [by apply elem_of_nil in Hy|cbn in Hn; lia]. }
    destruct (exists_last (l := is_s a)) as (S & [t u] & ES); [intros C; rewrite C in Hy; by apply elem_of_nil in Hy|].
    destruct (view_snoc ls S t u) as (l1 & o & -> & El1 & Eo); [by rewrite (lr_sv _ _ _ _ _ R)|].
    pose proof (lr_s _ _ _ _ _ R) as RS.
    assert (Hin : (t, o) ∈ l1 ++ [(t, o)]) by (apply elem_of_app; right; by left).
    assert (Eq : q_q (li_s s) = ids l1 ++ [t]) by (rewrite (qok_q _ _ _ _ RS), ids_app; done).
    cbn [while_]. rewrite Eq, last_snoc. unfold deref at 1. rewrite (proj2 (qok_lookup _ _ _ _ RS t o) Hin). cbn [rbind].
    destruct (decide (u = LIR)) as [->|Hu].
    - rewrite (status_LIR o Eo). cbn [negb].
      assert (HX : forall X : res lirs, (let! b := if decide (head (ids l1 ++ [t]) = Some t) then Ok false else Ok false in
                   if b : bool then X else Ok s) = Ok s) by (intros; by destruct (decide _)).
      rewrite HX. exists s. split; [done|]. by rewrite (prune_bottom e a S t H ES).
    - assert (HyS : (y, LIR) ∈ S).
      { rewrite ES in Hy. apply elem_of_app in Hy as [|Hy]; [done|]. apply elem_of_list_singleton in Hy. congruence. }
      destruct (cut_other e a S t u y ES Hu H HyS) as (H1 & P1 & HtS).
      rewrite decide_False.
      2: { intros C. destruct l1 as [|p l1]; [subst S; by apply elem_of_nil in HyS|]. cbn in C. injection C as C.
           apply HtS. rewrite <- El1, view_ids, <- C. by left. }
      assert (negb (is_lir o) = true) as ->.
      { destruct (is_lir o) eqn:Eil; [|done]. apply status_lir in Eil. congruence. }
      cbn [rbind].
      assert (exists s1 ln1, (if in_cache o then Ok s else li_nh_remove s t) = Ok s1 /\ li_s s1 = li_s s /\
              lrel_ s1 (mkIS (is_s a) (is_q a) (i_drop t (is_nh a)) (is_adm a)) (l1 ++ [(t, o)]) lq ln1) as (s1 & ln1 & E1 & Es1 & R1).
      { destruct (in_cache o) eqn:Ec.
        - exists s, ln. split; [done|]. split; [done|]. rewrite i_drop_absent; [by destruct a|]. intros C. apply (ii_nr _ _ _ _ _ H) in C.
          rewrite ES in C. apply elem_of_app in C as [C|C]; [by apply elem_fst in C|]. apply elem_of_list_singleton in C. injection C as C.
          rewrite <- Eo in C. unfold status in C. rewrite Ec in C. by destruct (is_lir o).
        - unfold li_nh_remove. destruct (qok_remove_hit cap 0 (li_nh s) ln (lr_n _ _ _ _ _ R) t) as (n' & En' & HN'); [lia| |].
          { rewrite (lr_ni _ _ _ _ _ R). apply (ii_nr _ _ _ _ _ H). rewrite ES. apply elem_of_app. right. apply elem_of_list_singleton. f_equal.
            rewrite <- Eo. unfold status. rewrite Ec. destruct (is_lir o) eqn:Eil; [|done]. apply status_lir in Eil. congruence. }
          rewrite En'. cbn [rbind]. eexists _, (l_del t ln). split; [done|]. split; [done|].
          split; cbn [li_set_nh li_c li_s li_q li_nh li_hl li_ll li_hc li_lc is_s is_q is_nh is_adm]; try done; try apply R.
          rewrite ids_i_drop. by rewrite (lr_ni _ _ _ _ _ R). }
      unfold deref at 1. rewrite (proj2 (qok_lookup _ _ _ _ RS t o) Hin). cbn [rbind]. rewrite E1. cbn [rbind]. rewrite Es1.
      destruct (qok_evict (cap - h) 0 (li_s s) l1 t o no_req) as (q' & Eq' & HQ'); [lia|done|]. rewrite Eq'. cbn [rbind].
      assert (R2 : lrel (li_set_s s1 q') (mkIS S (is_q a) (i_drop t (is_nh a)) (is_adm a))).
      { exists l1, lq, ln1. pose proof (lr_sz _ _ _ _ _ R) as HZ. unfold sized in HZ. rewrite Forall_app in HZ.
        assert (EL : lirs_of (is_s a) = lirs_of S).
        { rewrite ES, lirs_app. replace (lirs_of [(t, u)]) with (@nil Z) by (by rewrite lirs_cons_other). by rewrite app_nil_r. }
        split; cbn [li_set_s li_c li_s li_q li_nh li_hl li_ll li_hc li_lc is_s is_q is_nh is_adm]; try done; try apply R1; try tauto.
        - rewrite (lr_lc _ _ _ _ _ R1). unfold SpecLIRS.lir_bytes. cbn [is_s]. by rewrite EL.
        - rewrite (lr_occ _ _ _ _ _ R1). unfold SpecLIRS.lir_bytes. cbn [is_s]. by rewrite EL.
        - rewrite (lr_nobj _ _ _ _ _ R1). cbn [is_s]. by rewrite EL. }
      destruct (IH _ _ R2 H1 HyS) as (s' & E' & R').
      { cbn [is_s]. rewrite ES, app_length in Hn. cbn in Hn. lia. }
      exists s'. split; [exact E'|]. by rewrite P1 in R'.
  Qed.
  Lemma li_prune_ok e y s a : lrel s a -> iinv e a -> (y, LIR) ∈ is_s a ->
    exists s', li_prune s = Ok s' /\ lrel s' (i_prune a).
  Proof using Hh0 Hh Hcap.
    intros HR H Hy. unfold li_prune. apply (prune_ok e y); try done. rewrite (s_len s a HR). lia.
  Qed.

  Ltac flds := cbn [li_account li_set_nh li_set_s li_set_q li_add_h li_add_l li_set_c li_c li_s li_q li_nh li_hl li_ll li_hc li_lc
                    is_s is_q is_nh is_adm c_occ c_nobj c_size c_md c_adm r_size r_id req_of_obj].

  Lemma evict_lir_ok e s a S y : lrel s a -> iinv e a -> is_s a = S ++ [(y, LIR)] -> lirs_of S <> [] ->
    exists s', li_evict_lir s = Ok s' /\ lrel s' (demote sz h a).
  Proof using Hh0 Hh Hcap.
    intros HR H ES Hne. pose proof HR as (ls & lq & ln & R).
    destruct (cut_inv sz cap h e a S y ES H) as (H1 & HyS & HyQ & Gy).
    destruct (view_snoc ls S y LIR) as (l1 & o & -> & El1 & Eo); [by rewrite (lr_sv _ _ _ _ _ R)|].
    pose proof (lr_s _ _ _ _ _ R) as RS.
    assert (Hin : (y, o) ∈ l1 ++ [(y, o)]) by (apply elem_of_app; right; by left).
    assert (Hosz : o_size o = sz y) by (apply (sized_in (l1 ++ [(y, o)])); [apply R|done]).
    pose proof (osz32 _ _ _ _ _ RS Hin) as H32.
    unfold li_evict_lir. rewrite (qok_q _ _ _ _ RS), ids_app. change (ids [(y, o)]) with [y]. rewrite last_snoc.
    unfold deref. rewrite (proj2 (qok_lookup _ _ _ _ RS y o) Hin). cbn [rbind].
    destruct (qok_evict (cap - h) 0 (li_s s) l1 y o no_req) as (q' & Eq' & HQ'); [lia|done|].
    flds. rewrite Eq'. cbn [rbind]. flds. rewrite Hosz, (lr_hl _ _ _ _ _ R). rewrite decide_True by (destruct Gy; lia).
    pose proof (lb_nn e a H) as Hb. pose proof (lb_nn e _ H1) as Hb1. pose proof (hb_nn e a H) as Hhb0.
    assert (Elb : lir_bytes a = lir_bytes (mkIS S (is_q a) (is_nh a) (is_adm a)) + sz y).
    { unfold SpecLIRS.lir_bytes. cbn [is_s]. rewrite ES, lirs_app, sum_app. change (sum (lirs_of [(y, LIR)])) with (sz y + 0). lia. }
    assert (R1 : lrel (li_account (li_set_s (li_add_l s (- sz y)) q') (- (sz y + c_md (li_c s))) (-1))
                      (mkIS S (is_q a) (is_nh a) (is_adm a))).
    { exists l1, lq, ln. pose proof (lr_sz _ _ _ _ _ R) as HZ. unfold sized in HZ. rewrite Forall_app in HZ.
      split; flds; try done; try apply R; try tauto.
      - rewrite (lr_lc _ _ _ _ _ R), u64_id by lia. lia.
      - rewrite (lr_occ _ _ _ _ _ R), (lr_md _ _ _ _ _ R). change (hir_bytes (mkIS S (is_q a) (is_nh a) (is_adm a))) with (hir_bytes a). lia.
      - rewrite (lr_nobj _ _ _ _ _ R), ES, lirs_app, app_length. change (length (lirs_of [(y, LIR)])) with 1%nat. lia. }
    set (s1 := li_account (li_set_s (li_add_l s (- sz y)) q') (- (sz y + c_md (li_c s))) (-1)) in *.
    set (a1 := mkIS S (is_q a) (is_nh a) (is_adm a)) in *.
    destruct (room_q_ok e (sz y) (length (is_q a1)) s1 a1 R1 H1) as (s2 & E2 & R2); [done|destruct Gy; lia|].
    change (li_account (li_set_s (li_add_l s (- sz y)) q') (- (sz y + c_md (li_c (li_add_l s (- sz y))))) (-1)) with s1.
    change (q_q (li_q s)) with (q_q (li_q s1)). rewrite (q_len s1 a1 R1), E2. cbn [rbind].
    pose proof (room_q_inv sz cap h e (length (is_q a1)) (sz y) a1 H1) as H2.
    destruct (room_q_keep sz h (length (is_q a1)) (sz y) a1) as (K1 & K2 & q & K3).
    pose proof (room_q_fits sz h (length (is_q a1)) (sz y) a1) as K5. specialize (K5 ltac:(done) ltac:(destruct Gy; lia)).
    pose proof (room_q_lirs sz cap h e (length (is_q a1)) (sz y) a1 H1) as K4.
    unfold demote. rewrite ES, last_snoc, removelast_last. cbn [is_q]. fold a1. change (is_q a) with (is_q a1).
    set (a2 := room_q sz h (length (is_q a1)) (sz y) a1) in *.
    assert (HyQ2 : y ∉ is_q a2) by (intros C; apply HyQ; change (is_q a) with (is_q a1); rewrite K3; apply elem_of_app; by left).
    pose proof R2 as (ls2 & lq2 & ln2 & Q2).
    destruct (qok_insert h 0 (li_q s2) lq2 (lr_q _ _ _ _ _ Q2) (req_of_obj y o)) as (q3 & Eq3 & HQ3).
    { cbn. by rewrite (lr_qi _ _ _ _ _ Q2). } { unfold req_ok. cbn. lia. } { lia. }
    rewrite Eq3. cbn [rbind]. flds. cbn [r_id req_of_obj] in HQ3.
    pose proof (hb_nn e a2 H2) as Hb2.
    set (f := flags 0 1).
    assert (R3 : lrel (li_account (li_add_h (li_set_q s2 (poke q3 y f)) (sz y)) (sz y + c_md (li_c s2)) 1)
                      (mkIS (is_s a2) (y :: is_q a2) (is_nh a2) (is_adm a2))).
    { exists ls2, ((y, f (obj_of_req (req_of_obj y o))) :: lq2), ln2.
      assert (EU : l_upd f y ((y, obj_of_req (req_of_obj y o)) :: lq2) = (y, f (obj_of_req (req_of_obj y o))) :: lq2).
      { change ((y, obj_of_req (req_of_obj y o)) :: lq2) with ([(y, obj_of_req (req_of_obj y o))] ++ lq2). rewrite l_upd_app, (l_upd_notin f y lq2).
        - unfold l_upd. cbn. by rewrite decide_True.
        - by rewrite (lr_qi _ _ _ _ _ Q2). }
      split; flds; try done; try apply Q2.
      - rewrite <- EU. by apply (qok_upd _ _ _ _ HQ3).
      - change (y :: ids lq2 = y :: is_q a2). f_equal. apply Q2.
      - constructor; [|apply Q2]. cbn. unfold u32. rewrite Z.mod_small by lia. lia.
      - constructor; [done|apply Q2].
      - rewrite (lr_hc _ _ _ _ _ Q2), u64_id by lia. unfold SpecLIRS.hir_bytes at 2. cbn [is_q]. rewrite sum_cons. unfold SpecLIRS.hir_bytes. lia.
      - rewrite (lr_occ _ _ _ _ _ Q2), (lr_md _ _ _ _ _ Q2). unfold SpecLIRS.hir_bytes at 2. cbn [is_q]. rewrite sum_cons.
        unfold SpecLIRS.hir_bytes, SpecLIRS.lir_bytes. cbn [is_s]. lia.
      - rewrite (lr_nobj _ _ _ _ _ Q2). cbn [length]. lia. }
    assert (H3 : iinv e (mkIS (is_s a2) (y :: is_q a2) (is_nh a2) (is_adm a2))).
    { destruct H2 as [Hs Hq Hnh Hhir He Hst Hnr Hg Hlb Hhb]. split; cbn [is_s is_q is_nh]; try done.
      - by apply NoDup_cons.
      - intros x Hx. destruct (Hhir x Hx); [left; by right|by right].
      - intros x t Ex. destruct (He x t Ex) as (Ht & Hx & S' & ES'). split; [done|]. split; [|by exists S'].
        apply not_elem_of_cons. split; [|done]. intros ->. apply HyS. change S with (is_s a1). rewrite <- K1, ES'. by left.
      - intros x t [->|Hx]%elem_of_cons Ht; [|by apply (Hst x t)]. exfalso. apply HyS. change S with (is_s a1). rewrite <- K1. by apply elem_fst in Ht.
      - rewrite !Forall_app, Forall_cons in *. tauto.
      - unfold SpecLIRS.hir_bytes in *. cbn [is_q]. rewrite sum_cons. lia. }
    destruct (lirs_of S) as [|z lz] eqn:EL; [done|].
    replace (o_size o) with (sz y) by done.
    apply (li_prune_ok e z); [exact R3|done|]. cbn [is_s]. apply lirs_elem. rewrite K4. cbn [a1 is_s]. rewrite EL. by left.
  Qed.

  Context (Hr : roomy sz h).

  (** The loops that make room for LIR objects.  [P] keeps the object whose
      size is read in its queue. *)
  Lemma make_room_ok e (P : ispec -> Prop) (q : lirs -> qstate) x n :
    good x ->
    (forall s a, lrel s a -> iinv e a -> P a -> exists o, deref (q s) x = Ok o /\ o_size o = sz x) ->
    (forall a S y, iinv e a -> P a -> is_s a = S ++ [(y, LIR)] -> lirs_of S <> [] -> lir_bytes a + sz x > cap - h -> P (demote sz h a)) ->
    forall s a, lrel s a -> iinv e a -> bottom a -> P a -> (length (is_s a) <= n)%nat ->
    exists s', while_ (S n) (fun s => let! o := deref (q s) x in Ok (bool_decide (li_lc s + o_size o > li_ll s))) li_evict_lir s = Ok s' /\
      lrel s' (room_l sz cap h n (sz x) a) /\ P (room_l sz cap h n (sz x) a).
  Proof using Hh0 Hh Hcap Hr.
    intros Gx HD HP. induction n as [|n IH]; intros s a HR H B Pa Hn; pose proof HR as (ls & lq & ln & R);
      destruct (HD s a HR H Pa) as (o & Eo & Ez).
    - assert (is_s a = []) as Eq by (destruct (is_s a); [done|cbn in Hn; lia]).
      cbn [room_l]. assert (lir_bytes a = 0) as Eh by (unfold SpecLIRS.lir_bytes; by rewrite Eq).
      cbn [while_]. rewrite Eo. cbn [rbind]. rewrite (lr_lc _ _ _ _ _ R), (lr_ll _ _ _ _ _ R), Ez. destruct Gx as [? ?].
      rewrite bool_decide_eq_false_2 by lia. rewrite decide_False by lia. eauto.
    - cbn [room_l]. set (m := S n). cbn [while_]. rewrite Eo. cbn [rbind]. rewrite (lr_lc _ _ _ _ _ R), (lr_ll _ _ _ _ _ R), Ez.
      destruct (decide _) as [Hgt|Hle].
      + rewrite bool_decide_eq_true_2 by done.
        destruct (room_step sz cap h Hh Hr e a x H B Gx Hgt) as (S & y & ES & Gy & Hne).
        destruct (evict_lir_ok e s a S y HR H ES Hne) as (s1 & E1 & R1). rewrite E1. cbn [rbind].
        destruct (demote_inv sz cap h e a S y ES H Hne) as (H1 & B1 & _ & _ & L1).
        apply IH; try done; [by apply (HP a S y)|lia].
      + rewrite bool_decide_eq_false_2 by done. eauto.
  Qed.

  (** ... when the object is on top of S *)
  Lemma make_room_s x t s a : lrel s a -> iinv (Some (x, t)) a -> bottom a -> good x ->
    exists s', li_make_room li_s x s = Ok s' /\ lrel s' (room_for sz cap h x a).
  Proof using Hh0 Hh Hcap Hr.
    intros HR H B Gx. unfold li_make_room, room_for. rewrite (s_len s a HR).
    destruct (make_room_ok (Some (x, t)) (fun _ => True) li_s x (length (is_s a)) Gx) with (s := s) (a := a) as (s' & E & R' & _); try done; [|by exists s'].
    intros s0 a0 R0 H0 _. destruct (ii_e _ _ _ _ _ H0 x t eq_refl) as (_ & _ & S0 & E0).
    destruct (s_some s0 a0 x t R0 (ii_s _ _ _ _ _ H0)) as (o & Eo & _ & Ez & _); [rewrite E0; by left|].
    exists o. unfold deref. by rewrite Eo.
  Qed.
  (** ... when it is in Q *)
  Lemma make_room_q x L s a : lrel s a -> iinv None a -> bottom a -> good x -> held sz x L a -> L <= cap - h ->
    exists s', li_make_room li_q x s = Ok s' /\ lrel s' (room_for sz cap h x a).
  Proof using Hh0 Hh Hcap Hr.
    intros HR H B Gx HD HL. unfold li_make_room, room_for. rewrite (s_len s a HR).
    destruct (make_room_ok None (held sz x L) li_q x (length (is_s a)) Gx) with (s := s) (a := a) as (s' & E & R' & _); try done; [| |by exists s'].
    - intros s0 a0 R0 H0 (_ & ys & rest & E0 & _).
      destruct (q_some s0 a0 x R0) as (o & Eo & _ & Ez & _); [rewrite E0; apply elem_of_app; right; by left|].
      exists o. unfold deref. by rewrite Eo.
    - intros a0 S y H0 D0 E0 Hne Hgt. by apply (demote_held sz cap h Hh Hr None a0 S y).
  Qed.

  (** A hit in an LRU cache moves the object to the head. *)
  Lemma lirs_bump_len x t S : NoDup S.*1 -> (x, t) ∈ S -> length (lirs_of ((x, t) :: s_drop x S)) = length (lirs_of S).
  Proof.
    intros Hnd Hx. apply Permutation_length, NoDup_Permutation; [by apply lirs_nd, bump_nd|by apply lirs_nd|].
    intros y. rewrite !lirs_elem. by apply bump_elem.
  Qed.
  Lemma bump_s s a r t : lrel s a -> NoDup (is_s a).*1 -> (r_id r, t) ∈ is_s a ->
    exists q, lru_find (li_s s) r true = Ok (q, true) /\
      lrel (li_set_s s q) (mkIS ((r_id r, t) :: s_drop (r_id r) (is_s a)) (is_q a) (is_nh a) (is_adm a)).
  Proof.
    intros HR Hnd Hx. pose proof HR as (ls & lq & ln & R).
    destruct (qok_lru_hit _ _ _ ls r (lr_s _ _ _ _ _ R)) as (q & o' & Eq & (o & Ho & ->) & HQ).
    { rewrite <- view_ids, (lr_sv _ _ _ _ _ R). by apply elem_fst in Hx. }
    exists q. split; [done|]. exists ((r_id r, o_hit r o) :: l_del (r_id r) ls), lq, ln.
    assert (Et : status o = t).
    { apply (nd_fun (is_s a) (r_id r)); [done| |done]. rewrite <- (lr_sv _ _ _ _ _ R). by apply view_elem. }
    split; flds; try done; try apply R.
    - change (view ((r_id r, o_hit r o) :: l_del (r_id r) ls)) with ((r_id r, status (o_hit r o)) :: view (l_del (r_id r) ls)).
      rewrite view_del, (lr_sv _ _ _ _ _ R). change (status (o_hit r o)) with (status o). by rewrite Et.
    - constructor; [|apply Forall_del; apply R]. cbn. apply (sized_in ls); [apply R|done].
    - rewrite (lr_lc _ _ _ _ _ R). unfold SpecLIRS.lir_bytes. cbn [is_s]. by rewrite bump_lb.
    - rewrite (lr_occ _ _ _ _ _ R). unfold SpecLIRS.lir_bytes. cbn [is_s]. by rewrite bump_lb.
    - rewrite (lr_nobj _ _ _ _ _ R). by rewrite lirs_bump_len.
  Qed.
  Lemma len_drop x l : NoDup l -> x ∈ l -> S (length (i_drop x l)) = length l.
  Proof.
    intros Hnd Hx. transitivity (length (x :: i_drop x l)); [done|]. apply Permutation_length, NoDup_Permutation; [|done|].
    - apply NoDup_cons. split; [rewrite i_drop_elem; tauto|by apply i_drop_nd].
    - intros y. rewrite elem_of_cons, i_drop_elem. destruct (decide (y = x)) as [->|]; naive_solver.
  Qed.
  Lemma bump_q s a r : lrel s a -> NoDup (is_q a) -> r_id r ∈ is_q a ->
    exists q, lru_find (li_q s) r true = Ok (q, true) /\
      lrel (li_set_q s q) (mkIS (is_s a) (r_id r :: i_drop (r_id r) (is_q a)) (is_nh a) (is_adm a)).
  Proof.
    intros HR Hnd Hx. pose proof HR as (ls & lq & ln & R).
    destruct (qok_lru_hit _ _ _ lq r (lr_q _ _ _ _ _ R)) as (q & o' & Eq & (o & Ho & ->) & HQ).
    { by rewrite (lr_qi _ _ _ _ _ R). }
    exists q. split; [done|]. exists ls, ((r_id r, o_hit r o) :: l_del (r_id r) lq), ln.
    assert (EH : hir_bytes (mkIS (is_s a) (r_id r :: i_drop (r_id r) (is_q a)) (is_nh a) (is_adm a)) = hir_bytes a).
    { unfold SpecLIRS.hir_bytes. cbn [is_q]. rewrite sum_cons, sum_drop by done. lia. }
    split; flds; try done; try apply R.
    - change (r_id r :: ids (l_del (r_id r) lq) = r_id r :: i_drop (r_id r) (is_q a)). rewrite ids_i_drop. by rewrite (lr_qi _ _ _ _ _ R).
    - constructor; [|apply Forall_del; apply R]. cbn. apply (sized_in lq); [apply R|done].
    - constructor; [|apply Forall_del; apply R]. cbn. pose proof (lr_qc _ _ _ _ _ R) as G. rewrite Forall_forall in G. by apply (G _ Ho).
    - rewrite EH. apply R.
    - rewrite EH. apply R.
    - cbn [length]. rewrite (len_drop (r_id r) (is_q a)) by done. apply R.
  Qed.
  Lemma miss_s s a r u : lrel s a -> r_id r ∉ (is_s a).*1 -> lru_find (li_s s) r u = Ok (li_s s, false).
  Proof.
    intros (ls & lq & ln & R) Hx. apply (qok_lru_miss _ _ _ _ (lr_s _ _ _ _ _ R)). by rewrite <- view_ids, (lr_sv _ _ _ _ _ R).
  Qed.
  Lemma miss_q s a r u : lrel s a -> r_id r ∉ is_q a -> lru_find (li_q s) r u = Ok (li_q s, false).
  Proof.
    intros (ls & lq & ln & R) Hx. apply (qok_lru_miss _ _ _ _ (lr_q _ _ _ _ _ R)). by rewrite (lr_qi _ _ _ _ _ R).
  Qed.
  Lemma set_s_id s : li_set_s s (li_s s) = s. Proof. by destruct s. Qed.
  Lemma set_q_id s : li_set_q s (li_q s) = s. Proof. by destruct s. Qed.

  (** The object on top of S becomes LIR: its flags and the counters. *)
  Lemma mark_rel f x t s a S d : lrel s a -> is_s a = (x, t) :: S -> t <> LIR -> NoDup (is_s a).*1 ->
    lir_bytes a + sz x <= cap - h -> 0 <= lir_bytes a -> 0 <= sz x -> d = 0 ->
    (forall o, o_size (f o) = o_size o /\ is_lir (f o) = true) ->
    lrel (li_account (li_add_l (li_set_s s (poke (li_s s) x f)) (sz x)) (sz x + d) 1)
         (mkIS (s_mark x LIR (is_s a)) (is_q a) (is_nh a) (is_adm a)).
  Proof using Hh0 Hh Hcap.
    intros HR ES Ht Hnd Hroom Hlb Hsz -> Hf. pose proof HR as (ls & lq & ln & R).
    assert (EM : s_mark x LIR (is_s a) = (x, LIR) :: S).
    { rewrite ES. cbn [s_mark fmap list_fmap fst]. rewrite decide_True by done. f_equal. apply s_mark_absent.
      rewrite ES in Hnd. apply NoDup_cons in Hnd. tauto. }
    assert (EL : lirs_of (is_s a) = lirs_of S) by (rewrite ES; by apply lirs_cons_other).
    exists (l_upd f x ls), lq, ln. split; flds; try done; try apply R.
    - apply (qok_upd _ _ _ _ (lr_s _ _ _ _ _ R)). intros o. apply Hf.
    - rewrite (view_upd f x LIR), (lr_sv _ _ _ _ _ R); [done|]. intros o _. apply status_lir, Hf.
    - unfold sized. apply Forall_upd; [|apply R]. intros i o. cbn. by rewrite (proj1 (Hf o)).
    - rewrite (lr_lc _ _ _ _ _ R). unfold SpecLIRS.lir_bytes in *. cbn [is_s]. rewrite EM, lirs_cons_lir, sum_cons. rewrite EL in *.
      rewrite u64_id by lia. lia.
    - rewrite (lr_occ _ _ _ _ _ R). unfold SpecLIRS.lir_bytes, SpecLIRS.hir_bytes in *. cbn [is_s is_q]. rewrite EM, lirs_cons_lir, sum_cons. rewrite EL in *. lia.
    - rewrite (lr_nobj _ _ _ _ _ R). rewrite EM, lirs_cons_lir, EL. cbn [length]. lia.
  Qed.

  Lemma find_ok s a r : lrel s a -> iinv None a -> bottom a ->
    exists s', li_find true s r true = Ok (s', (i_access sz cap h a (r_id r)).2) /\ lrel s' (i_access sz cap h a (r_id r)).1.
  Proof using Hh0 Hh Hcap Hr.
    intros HR H B. pose proof (ii_s _ _ _ _ _ H) as Hnd. pose proof (ii_q _ _ _ _ _ H) as Hndq.
    unfold li_find, i_access. set (x := r_id r). destruct (stat_of (is_s a) x) as [[]|] eqn:Es.
    - apply stat_elem in Es; [|done]. assert (HxQ : x ∉ is_q a) by (intros C; by apply (ii_stat _ _ _ _ _ H x LIR) in C).
      destruct (bump_s s a r LIR HR Hnd Es) as (q & Eq & R1). rewrite Eq. cbn [rbind].
      rewrite (miss_q (li_set_s s q) _ r true R1) by done. cbn [rbind]. rewrite set_q_id.
      destruct (s_some _ _ x LIR R1) as (o & Eo & Est & _); [by apply bump_nd|by left|].
      unfold deref. fold x. rewrite Eo. cbn [rbind]. rewrite (status_LIR o Est).
      destruct (li_prune_ok None x _ _ R1) as (s' & E' & R'); [by apply bump_inv|by left|]. rewrite E'. cbn [rbind]. by exists s'.
    - apply stat_elem in Es; [|done].
      destruct (bump_s s a r HIR HR Hnd Es) as (q & Eq & R1). rewrite Eq. cbn [rbind].
      pose proof (bump_inv sz cap h x HIR a H Es) as H1.
      assert (HxQ : x ∈ is_q a) by (by destruct (ii_hir _ _ _ _ _ H x Es)).
      destruct (bump_q _ _ r R1 Hndq HxQ) as (q2 & Eq2 & R2). cbn [is_q is_s is_nh is_adm] in R2. rewrite Eq2. cbn [rbind]. fold x in R2.
      set (s2 := li_set_q (li_set_s s q) q2) in *.
      destruct (s_some _ _ x HIR R2) as (o & Eo & Est & Ez & H32); [by apply bump_nd|by left|].
      unfold deref at 1. fold x. rewrite Eo. cbn [rbind]. destruct (status_HIR o Est) as [-> ->].
      unfold li_hit_s.
      destruct (q_some _ _ x R2) as (oq & Eoq & _ & Ezq & _); [by left|].
      unfold deref at 1. rewrite Eoq. cbn [rbind]. pose proof R2 as (ls2 & lq2 & ln2 & Q2). rewrite Ezq.
      destruct (qok_remove_hit _ _ _ lq2 (lr_q _ _ _ _ _ Q2) x) as (q3 & Eq3 & HQ3); [lia|rewrite (lr_qi _ _ _ _ _ Q2); by left|].
      flds. rewrite Eq3. cbn [rbind freed]. rewrite Ezq.
      set (a3 := mkIS ((x, HIR) :: s_drop x (is_s a)) (i_drop x (is_q a)) (is_nh a) (is_adm a)).
      assert (Gx : good x) by (by apply (good_s sz cap h None a x HIR)).
      assert (EH : hir_bytes a = hir_bytes a3 + sz x).
      { unfold SpecLIRS.hir_bytes. cbn [a3 is_q]. rewrite sum_drop by done. lia. }
      assert (H3 : iinv (Some (x, HIR)) a3).
      { destruct H1 as [Hs Hq Hnh Hhir He Hst Hnr Hg Hlb Hhb]. unfold a3. cbn [is_s is_q is_nh] in *.
        split; cbn [is_s is_q is_nh]; try done.
        - by apply i_drop_nd.
        - intros y Hy. destruct (decide (y = x)) as [->|]; [by right|]. left. apply i_drop_elem. by destruct (Hhir y Hy).
        - intros y u [= <- <-]. split; [done|]. split; [|eauto]. rewrite i_drop_elem. tauto.
        - intros y u [Hy _]%i_drop_elem. by apply Hst.
        - rewrite Forall_app in *. destruct Hg as [G1 G2]. split; [done|]. rewrite Forall_forall in *. intros y [Hy _]%i_drop_elem. by apply G2.
        - pose proof (ii_hb _ _ _ _ _ H). destruct Gx. fold a3. lia. }
      assert (B3 : bottom a3) by (by apply bump_bottom).
      assert (R3 : lrel (li_account (li_set_q (li_add_h s2 (- sz x)) q3) (- sz x) (-1)) a3).
      { exists ls2, (l_del x lq2), ln2. pose proof (hb_nn _ _ H3) as Hb3. pose proof (hb_nn _ _ H) as Hb0.
        assert (EH2 : hir_bytes (mkIS ((x, HIR) :: s_drop x (is_s a)) (x :: i_drop x (is_q a)) (is_nh a) (is_adm a)) = hir_bytes a).
        { unfold SpecLIRS.hir_bytes. cbn [is_q]. rewrite sum_cons, sum_drop by done. lia. }
        split; flds; try done; try apply Q2.
        - rewrite ids_i_drop, (lr_qi _ _ _ _ _ Q2). cbn [is_q]. unfold i_drop at 1. rewrite filter_cons_False by tauto.
          change (i_drop x (i_drop x (is_q a)) = i_drop x (is_q a)). apply i_drop_absent. rewrite i_drop_elem. tauto.
        - apply Forall_del. apply Q2.
        - apply Forall_del. apply Q2.
        - rewrite (lr_hc _ _ _ _ _ Q2), EH2, EH, u64_id by lia. lia.
        - rewrite (lr_occ _ _ _ _ _ Q2), EH2, EH. change (lir_bytes a3) with (lir_bytes (mkIS ((x, HIR) :: s_drop x (is_s a)) (x :: i_drop x (is_q a)) (is_nh a) (is_adm a))). lia.
        - rewrite (lr_nobj _ _ _ _ _ Q2). cbn [a3 is_s is_q length]. lia. }
      change (li_account (li_set_q (li_add_h s2 (- o_size oq)) q3) (- o_size oq) (-1)) with (li_account (li_set_q (li_add_h s2 (- sz x)) q3) (- sz x) (-1)) || idtac.
      set (s3 := li_account _ _ _) in *.
      destruct (make_room_s x HIR s3 a3 R3 H3 B3 Gx) as (s4 & E4 & R4). rewrite E4. cbn [rbind].
      destruct (room_l_inv sz cap h Hh Hr _ x (length (is_s a3)) a3 H3 B3 Gx) as (H4 & B4 & A4 & L4).
      fold (room_for sz cap h x a3) in H4, B4, A4, L4. specialize (L4 ltac:(lia)). set (a4 := room_for sz cap h x a3) in *.
      destruct (ii_e _ _ _ _ _ H4 x HIR eq_refl) as (_ & _ & S4 & ES4).
      destruct (s_some s4 a4 x HIR R4 (ii_s _ _ _ _ _ H4)) as (o4 & Eo4 & _ & Ez4 & _); [rewrite ES4; by left|].
      unfold deref. cbn [li_s li_set_s poke q_c c_upd c_set_tbl c_tbl]. rewrite lookup_alter, Eo4. cbn [fmap option_fmap option_map rbind o_set_p1 o_size].
      rewrite Ez4. eexists. split; [done|].
      replace (li_account _ (sz x) 1) with (li_account (li_add_l (li_set_s s4 (poke (li_s s4) x (fun o => o_set_p1 o 1))) (sz x)) (sz x + 0) 1) by (by rewrite Z.add_0_r).
      apply (mark_rel _ x HIR s4 a4 S4 0); try done; [apply H4|apply (lb_nn _ _ H4)|lia].
    - apply stat_elem in Es; [|done]. assert (HxQ : x ∉ is_q a) by (intros C; by apply (ii_stat _ _ _ _ _ H x NR) in C).
      destruct (bump_s s a r NR HR Hnd Es) as (q & Eq & R1). rewrite Eq. cbn [rbind].
      rewrite (miss_q (li_set_s s q) _ r true R1) by done. cbn [rbind]. rewrite set_q_id.
      destruct (s_some _ _ x NR R1) as (o & Eo & Est & _); [by apply bump_nd|by left|].
      unfold deref. fold x. rewrite Eo. cbn [rbind]. destruct (status_NR o Est) as [-> ->]. eexists. by split.
    - apply stat_none in Es. rewrite (miss_s s a r true HR) by done. cbn [rbind]. rewrite set_s_id.
      destruct (decide (x ∈ is_q a)) as [Hx|Hx].
      + destruct (bump_q s a r HR Hndq Hx) as (q2 & Eq2 & R2). rewrite Eq2. cbn [rbind]. fold x in R2.
        set (a1 := mkIS (is_s a) (x :: i_drop x (is_q a)) (is_nh a) (is_adm a)) in *. set (s2 := li_set_q s q2) in *.
        destruct (q_some _ _ x R2) as (oq & Eoq & Eic & Ezq & H32); [by left|].
        unfold deref at 1. fold x. rewrite Eoq. cbn [rbind]. rewrite Eic. unfold li_hit_q. unfold deref at 1. rewrite Eoq. cbn [rbind].
        assert (Gx : good x) by (by apply (good_q sz cap h None a)).
        assert (H1 : iinv None a1).
        { destruct H as [Hs Hq Hnh Hhir He Hst Hnr Hg Hlb Hhb]. unfold a1. split; cbn [is_s is_q is_nh]; try done.
          - apply NoDup_cons. split; [rewrite i_drop_elem; tauto|by apply i_drop_nd].
          - intros y Hy. left. destruct (Hhir y Hy) as [Hi|]; [|done]. apply elem_of_cons. rewrite i_drop_elem.
            destruct (decide (y = x)); [by left|by right].
          - intros y u [->|[Hy _]%i_drop_elem]%elem_of_cons Hu; [by apply elem_fst in Hu|by apply (Hst y)].
          - rewrite Forall_app in *. destruct Hg as [G1 G2]. split; [done|]. apply Forall_cons. split; [done|].
            rewrite Forall_forall in *. intros y [Hy _]%i_drop_elem. by apply G2.
          - unfold SpecLIRS.hir_bytes in *. cbn [is_q]. rewrite sum_cons, sum_drop by done. lia. }
        assert (B1 : bottom a1). { destruct B as [[_ E]|B]; [rewrite E in Hx; by apply elem_of_nil in Hx|by right]. }
        assert (D1 : held sz x (lir_bytes a) a1).
        { split; [done|]. exists [], (i_drop x (is_q a)). split; [done|]. done. }
        destruct (make_room_q x _ s2 a1 R2 H1 B1 Gx D1 (ii_lb _ _ _ _ _ H)) as (s3 & E3 & R3). rewrite E3. cbn [rbind].
        pose proof (room_l_held sz cap h Hh Hr None x _ (length (is_s a1)) a1 H1 B1 Gx D1 (ii_lb _ _ _ _ _ H)) as (HS & _).
        fold (room_for sz cap h x a1) in HS. set (a3 := room_for sz cap h x a1) in *.
        pose proof R3 as (ls3 & lq3 & ln3 & Q3).
        destruct (qok_insert (cap - h) 0 (li_s s3) ls3 (lr_s _ _ _ _ _ Q3) (req_of_obj x oq)) as (q4 & Eq4 & HQ4).
        { cbn. by rewrite <- view_ids, (lr_sv _ _ _ _ _ Q3). } { unfold req_ok. cbn. lia. } { lia. }
        rewrite Eq4. cbn [rbind fst snd]. eexists. split; [done|]. cbn [r_id req_of_obj] in HQ4.
        set (f := flags 0 1). set (o1 := obj_of_req (req_of_obj x oq)) in *.
        assert (EU : l_upd f x ((x, o1) :: ls3) = (x, f o1) :: ls3).
        { change ((x, o1) :: ls3) with ([(x, o1)] ++ ls3). rewrite l_upd_app, (l_upd_notin f x ls3).
          - unfold l_upd. cbn. by rewrite decide_True.
          - by rewrite <- view_ids, (lr_sv _ _ _ _ _ Q3). }
        exists ((x, f o1) :: ls3), lq3, ln3. split; flds; try done; try apply Q3.
        * rewrite <- EU. by apply (qok_upd _ _ _ _ HQ4).
        * change (view ((x, f o1) :: ls3)) with ((x, HIR) :: view ls3). by rewrite (lr_sv _ _ _ _ _ Q3).
        * constructor; [|apply Q3]. cbn. unfold u32. rewrite Z.mod_small by lia. lia.
      + rewrite (miss_q s a r true HR) by done. cbn [rbind]. rewrite set_q_id. by exists s.
  Qed.

  Lemma find_false s a r : lrel s a -> iinv None a -> bottom a ->
    (stat_of (is_s a) (r_id r) = Some LIR \/ ~ resident a (r_id r)) ->
    li_find true s r false = Ok (s, bool_decide (stat_of (is_s a) (r_id r) = Some LIR)).
  Proof using Hh0 Hh Hcap.
    intros HR H B Hx. pose proof (ii_s _ _ _ _ _ H) as Hnd. pose proof HR as (ls & lq & ln & R).
    unfold li_find. rewrite (qok_lru_false _ _ _ _ (lr_s _ _ _ _ _ R)). cbn [rbind]. rewrite set_s_id.
    rewrite (qok_lru_false _ _ _ _ (lr_q _ _ _ _ _ R)). cbn [rbind]. rewrite set_q_id.
    rewrite <- view_ids, (lr_sv _ _ _ _ _ R), (lr_qi _ _ _ _ _ R).
    set (x := r_id r) in *. destruct (stat_of (is_s a) x) as [t|] eqn:Es.
    - apply stat_elem in Es; [|done]. rewrite bool_decide_eq_true_2 by (by apply elem_fst in Es).
      destruct (s_some s a x t HR Hnd Es) as (o & Eo & Est & _). unfold deref. rewrite Eo. cbn [rbind].
      destruct t.
      + rewrite (status_LIR o Est). destruct (li_prune_ok None x s a HR H Es) as (s' & E' & _).
        (* the bottom of S is LIR: nothing to prune *)
        destruct B as [[E _]|(S & y & E)]; [rewrite E in Es; by apply elem_of_nil in Es|].
        assert (Ep : li_prune s = Ok s).
        { unfold li_prune. destruct (view_snoc ls S y LIR) as (l1 & oy & El & _ & Ey); [by rewrite (lr_sv _ _ _ _ _ R)|].
          pose proof (lr_s _ _ _ _ _ R) as RS. rewrite El in RS.
          cbn [while_]. rewrite (qok_q _ _ _ _ RS), ids_app. change (ids [(y, oy)]) with [y]. rewrite last_snoc.
          unfold deref at 1. rewrite (proj2 (qok_lookup _ _ _ _ RS y oy)) by (apply elem_of_app; right; by left). cbn [rbind].
          rewrite (status_LIR oy Ey). by destruct (decide _). }
        rewrite Ep. done.
      + exfalso. destruct Hx as [|Hx]; [done|]. apply Hx. right. by destruct (ii_hir _ _ _ _ _ H x Es).
      + destruct (status_NR o Est) as [-> ->]. done.
    - apply stat_none in Es. rewrite bool_decide_eq_false_2 by done.
      rewrite bool_decide_eq_false_2; [done|]. intros C. destruct Hx as [|Hx]; [done|]. apply Hx. by right.
  Qed.

  Lemma push_ok n q l r f : qok n 0 q l -> r_id r ∉ ids l -> i_req sz r ->
    exists q', li_push f q r = Ok q' /\ qok n 0 q' ((r_id r, flags f 1 (obj_of_req r)) :: l) /\
      o_size (flags f 1 (obj_of_req r)) = sz (r_id r) /\ deref q' (r_id r) = Ok (flags f 1 (obj_of_req r)).
  Proof.
    intros HQ Hx [Ez Hz]. unfold li_push.
    destruct (qok_insert n 0 q l HQ r Hx) as (q1 & E1 & HQ1); [unfold req_ok; lia|lia|]. rewrite E1. cbn [rbind].
    assert (EU : l_upd (flags f 1) (r_id r) ((r_id r, obj_of_req r) :: l) = (r_id r, flags f 1 (obj_of_req r)) :: l).
    { change ((r_id r, obj_of_req r) :: l) with ([(r_id r, obj_of_req r)] ++ l). rewrite l_upd_app, (l_upd_notin _ _ l) by done.
      unfold l_upd. cbn. by rewrite decide_True. }
    assert (HQ2 : qok n 0 (poke q1 (r_id r) (flags f 1)) ((r_id r, flags f 1 (obj_of_req r)) :: l)).
    { rewrite <- EU. by apply (qok_upd _ _ _ _ HQ1). }
    eexists. split; [done|]. split; [done|]. split.
    - cbn. unfold u32. rewrite Z.mod_small by lia. done.
    - unfold deref. rewrite (proj2 (qok_lookup _ _ _ _ HQ2 (r_id r) (flags f 1 (obj_of_req r)))); [done|by left].
  Qed.

  (** LIRS_insert of an unknown object *)
  Lemma insert_new s a r : lrel s a -> iinv None a -> i_req sz r -> r_size r <= h -> r_id r ∉ (is_s a).*1 -> r_id r ∉ is_q a ->
    (lir_bytes a + sz (r_id r) > cap - h -> hir_bytes a + sz (r_id r) <= h) ->
    exists s', li_insert s r = Ok s' /\
      lrel s' (if decide (lir_bytes a + sz (r_id r) <= cap - h) then mkIS ((r_id r, LIR) :: is_s a) (is_q a) (is_nh a) (is_adm a)
               else mkIS ((r_id r, HIR) :: is_s a) (r_id r :: is_q a) (is_nh a) (is_adm a)).
  Proof using Hh0 Hh Hcap.
    intros HR H Hreq Hle HxS HxQ Hroom. pose proof Hreq as [Ez Hz]. pose proof HR as (ls & lq & ln & R).
    pose proof (lb_nn _ _ H) as Hl. pose proof (hb_nn _ _ H) as Hb. set (x := r_id r) in *.
    unfold li_insert. fold x. rewrite (s_none s a x HR HxS), (q_none s a x HR HxQ).
    rewrite (lr_lc _ _ _ _ _ R), (lr_ll _ _ _ _ _ R), Ez.
    assert (Hxs : x ∉ ids ls) by (by rewrite <- view_ids, (lr_sv _ _ _ _ _ R)).
    assert (Hxq : x ∉ ids lq) by (by rewrite (lr_qi _ _ _ _ _ R)).
    destruct (decide _) as [Hfit|Hno].
    - destruct (push_ok _ (li_s s) ls r 1 (lr_s _ _ _ _ _ R) Hxs Hreq) as (q & Eq & HQ & Ezo & Ed). rewrite Eq. cbn [rbind].
      fold x in Ed. rewrite Ed. cbn [rbind]. rewrite Ezo. eexists. split; [done|]. fold x in HQ |- *.
      set (o1 := flags 1 1 (obj_of_req r)) in *.
      exists ((x, o1) :: ls), lq, ln. split; flds; try done; try apply R.
      + change (view ((x, o1) :: ls)) with ((x, LIR) :: view ls). by rewrite (lr_sv _ _ _ _ _ R).
      + constructor; [done|apply R].
      + rewrite (lr_lc _ _ _ _ _ R), u64_id by lia. unfold SpecLIRS.lir_bytes at 2. cbn [is_s]. rewrite lirs_cons_lir, sum_cons. unfold SpecLIRS.lir_bytes. lia.
      + rewrite (lr_occ _ _ _ _ _ R), (lr_md _ _ _ _ _ R). unfold SpecLIRS.lir_bytes at 2, SpecLIRS.hir_bytes at 2. cbn [is_s is_q]. rewrite lirs_cons_lir, sum_cons.
        unfold SpecLIRS.lir_bytes, SpecLIRS.hir_bytes. lia.
      + rewrite (lr_nobj _ _ _ _ _ R), lirs_cons_lir. cbn [length]. lia.
    - unfold li_new_hir.
      destruct (push_ok _ (li_s s) ls r 0 (lr_s _ _ _ _ _ R) Hxs Hreq) as (q & Eq & HQ & Ezo & Ed). rewrite Eq. cbn [rbind].
      destruct (push_ok _ (li_q s) lq r 0 (lr_q _ _ _ _ _ R) Hxq Hreq) as (q2 & Eq2 & HQ2 & _ & _). rewrite Eq2. cbn [rbind].
      fold x in Ed. fold x. rewrite Ed. cbn [rbind]. rewrite Ezo. eexists. split; [done|]. fold x in HQ, HQ2 |- *.
      set (o1 := flags 0 1 (obj_of_req r)) in *. specialize (Hroom ltac:(lia)).
      exists ((x, o1) :: ls), ((x, o1) :: lq), ln. split; flds; try done; try apply R.
      + change (view ((x, o1) :: ls)) with ((x, HIR) :: view ls). by rewrite (lr_sv _ _ _ _ _ R).
      + constructor; [done|apply R].
      + change (x :: ids lq = x :: is_q a). f_equal. apply R.
      + constructor; [done|apply R].
      + constructor; [done|apply R].
      + rewrite (lr_hc _ _ _ _ _ R), u64_id by lia. unfold SpecLIRS.hir_bytes at 2. cbn [is_q]. rewrite sum_cons. unfold SpecLIRS.hir_bytes. lia.
      + rewrite (lr_occ _ _ _ _ _ R), (lr_md _ _ _ _ _ R). unfold SpecLIRS.lir_bytes at 2, SpecLIRS.hir_bytes at 2. cbn [is_s is_q]. rewrite lirs_cons_other, sum_cons by done.
        unfold SpecLIRS.lir_bytes, SpecLIRS.hir_bytes. lia.
      + rewrite (lr_nobj _ _ _ _ _ R), lirs_cons_other by done. cbn [length]. lia.
  Qed.

  Definition with_adm (a : ispec) (adm : admissioner) : ispec := mkIS (is_s a) (is_q a) (is_nh a) adm.

  Lemma no_loop stale fuel s a r : lrel s a -> lir_bytes a + hir_bytes a + r_size r <= cap -> evict_loop (li_ops stale) fuel s r = Ok s.
  Proof.
    intros (ls & lq & ln & R) Hle. destruct fuel; cbn [evict_loop op_occupied op_md op_size li_ops];
      rewrite (lr_occ _ _ _ _ _ R), (lr_md _ _ _ _ _ R), (lr_size _ _ _ _ _ R), decide_False by lia; done.
  Qed.

  (** What cache_get_base does with a missed object. *)
  Lemma miss_ok s a r fuel adm ok : lrel s a -> iinv None a -> bottom a -> i_req sz r -> r_id r ∉ is_q a ->
    (stat_of (is_s a) (r_id r) = None \/ exists S, is_s a = (r_id r, NR) :: S) ->
    admit (is_adm a) r = (adm, ok) ->
    exists s1, li_can_insert s r = Ok (s1, (ok && bool_decide (r_size r <= h))%bool) /\
      if (ok && bool_decide (r_size r <= h))%bool
      then exists s2, evict_loop (li_ops true) fuel s1 r = Ok s1 /\ li_insert s1 r = Ok s2 /\ lrel s2 (i_add sz cap h (with_adm a adm) (r_id r))
      else lrel s1 (with_adm a adm).
  Proof using Hh0 Hh Hcap Hr.
    intros HR H B Hreq HxQ HS Ha. pose proof Hreq as [Ez Hz]. pose proof HR as (ls & lq & ln & R).
    unfold li_can_insert, cache_can_insert_default. rewrite (lr_adm _ _ _ _ _ R), Ha.
    set (s0 := li_set_c s (c_set_adm (li_c s) adm)).
    assert (R0 : lrel s0 (with_adm a adm)). { exists ls, lq, ln. split; flds; try done; apply R. }
    assert (H0 : iinv None (with_adm a adm)) by (by destruct H).
    assert (B0 : bottom (with_adm a adm)) by done.
    destruct ok; cbn [andb negb]; [|exists s0; by split].
    rewrite (lr_md _ _ _ _ _ R), (lr_size _ _ _ _ _ R).
    destruct (decide (r_size r + 0 > cap)) as [Hbig|Hsm]; cbn [negb].
    { exists s0. rewrite bool_decide_eq_false_2 by lia. by split. }
    fold s0. set (a0 := with_adm a adm) in *. change (is_q a) with (is_q a0) in HxQ. change (is_s a) with (is_s a0) in HS.
    clearbody a0. clearbody s0. clear ls lq ln R. pose proof R0 as (ls & lq & ln & R).
    set (x := r_id r) in *. pose proof (lb_nn _ _ H0) as Hl. pose proof (hb_nn _ _ H0) as Hb.
    destruct HS as [En|[S ES]].
    - apply stat_none in En. rewrite (s_none s0 a0 x R0 En), (q_none s0 a0 x R0 HxQ).
      rewrite (lr_ll _ _ _ _ _ R), (lr_hl _ _ _ _ _ R).
      destruct (decide (r_size r <= h)) as [Hle|Hgt].
      2: { rewrite decide_True by (right; lia). rewrite bool_decide_eq_false_2 by done. exists s0. by split. }
      rewrite decide_False by lia. rewrite bool_decide_eq_true_2 by done.
      rewrite (lr_lc _ _ _ _ _ R), (lr_hc _ _ _ _ _ R).
      unfold i_add. rewrite (proj2 (stat_none (is_s a0) x) En).
      destruct (decide (_ /\ _)) as [[Hov1 Hov2]|Hnov].
      + destruct (room_q_ok None (r_size r) (length (is_q a0)) s0 a0 R0 H0) as (s1 & E1 & R1); [lia|lia|].
        rewrite (q_len s0 a0 R0), E1. cbn [rbind]. exists s1. split; [done|]. rewrite Ez in R1. fold x in R1.
        set (a1 := room_q sz h (length (is_q a0)) (sz x) a0) in *.
        assert (H1 : iinv None a1) by (by apply room_q_inv).
        destruct (room_q_keep sz h (length (is_q a0)) (sz x) a0) as (K1 & K2 & q & K3). fold a1 in K1, K2, K3.
        assert (K5 : hir_bytes a1 + sz x <= h) by (apply room_q_fits; [done|lia]).
        assert (K4 : lir_bytes a1 = lir_bytes a0) by (unfold SpecLIRS.lir_bytes; unfold a1; by rewrite (room_q_lirs sz cap h None)).
        assert (HxQ1 : x ∉ is_q a1) by (intros C; apply HxQ; rewrite K3; apply elem_of_app; by left).
        destruct (insert_new s1 a1 r R1 H1 Hreq Hle) as (s2 & E2 & R2); [by rewrite K1|done|done|]. fold x in R2.
        exists s2. split; [apply (no_loop true fuel s1 a1 r R1); rewrite Ez; fold x; lia|]. split; [done|].
        rewrite K4 in R2. rewrite decide_False by (fold x in Ez; lia). rewrite decide_False in R2 by (fold x in Ez; lia). exact R2.
      + exists s0. split; [done|].
        destruct (insert_new s0 a0 r R0 H0 Hreq Hle En HxQ) as (s2 & E2 & R2); [fold x in Ez |- *; lia|]. fold x in R2.
        exists s2. split; [apply (no_loop true fuel s0 a0 r R0); fold x in Ez; lia|]. split; [done|].
        destruct (decide (lir_bytes a0 + sz x <= cap - h)); [done|].
        replace (room_q sz h (length (is_q a0)) (sz x) a0) with a0; [done|].
        fold x in Ez. destruct (length (is_q a0)); cbn [room_q]; by rewrite decide_False by lia.
    - assert (Hx : (x, NR) ∈ is_s a0) by (rewrite ES; by left).
      assert (Gx : good x) by (by apply (good_s sz cap h None a0 x NR)).
      rewrite bool_decide_eq_true_2 by (destruct Gx; fold x in Ez; lia).
      destruct (s_some s0 a0 x NR R0 (ii_s _ _ _ _ _ H0) Hx) as (o & Eo & Est & Ezo & _). rewrite Eo.
      destruct (status_NR o Est) as [-> ->]. cbn [negb andb].
      assert (H1 : iinv (Some (x, NR)) a0) by (apply nr_top; eauto).
      destruct (make_room_s x NR s0 a0 R0 H1 B0 Gx) as (s1 & E1 & R1). rewrite E1. cbn [rbind].
      destruct (room_l_inv sz cap h Hh Hr _ x (length (is_s a0)) a0 H1 B0 Gx) as (H2 & B2 & A2 & L2).
      fold (room_for sz cap h x a0) in H2, B2, A2, L2. specialize (L2 ltac:(lia)).
      unfold i_add. rewrite (proj2 (stat_elem (is_s a0) x NR (ii_s _ _ _ _ _ H0)) Hx). set (a1 := room_for sz cap h x a0) in *.
      destruct (ii_e _ _ _ _ _ H2 x NR eq_refl) as (_ & _ & S1 & ES1).
      assert (Hx1 : (x, NR) ∈ is_s a1) by (rewrite ES1; by left).
      pose proof R1 as (ls1 & lq1 & ln1 & Q1).
      unfold li_nh_remove. destruct (qok_remove_hit cap 0 (li_nh s1) ln1 (lr_n _ _ _ _ _ Q1) x) as (n' & En' & HN'); [lia| |].
      { rewrite (lr_ni _ _ _ _ _ Q1). by apply (ii_nr _ _ _ _ _ H2). }
      rewrite En'. cbn [rbind]. eexists. split; [done|].
      assert (R2 : lrel (li_set_nh s1 n') (mkIS (is_s a1) (is_q a1) (i_drop x (is_nh a1)) (is_adm a1))).
      { exists ls1, lq1, (l_del x ln1). split; flds; try done; try apply Q1. rewrite ids_i_drop. by rewrite (lr_ni _ _ _ _ _ Q1). }
      set (a2 := mkIS (is_s a1) (is_q a1) (i_drop x (is_nh a1)) (is_adm a1)) in *.
      pose proof (hb_nn _ _ H2) as Hb2. pose proof (lb_nn _ _ H2) as Hl2.
      destruct (s_some _ a2 x NR R2 (ii_s _ _ _ _ _ H2) Hx1) as (o2 & Eo2 & Est2 & Ezo2 & _).
      pose proof R2 as (ls2 & lq2 & ln2 & Q2).
      assert (Emd : c_md (li_c s1) = 0) by apply Q1.
      eexists. split; [|split].
      + apply (no_loop true fuel _ a2 r R2). change (lir_bytes a2) with (lir_bytes a1). change (hir_bytes a2) with (hir_bytes a1). fold x in Ez. lia.
      + unfold li_insert. fold x. rewrite Eo2. destruct (status_NR o2 Est2) as [-> ->]. cbn [negb andb]. rewrite Ezo2. done.
      + apply (mark_rel (flags 1 1) x NR _ a2 S1); try done; [apply H2|exact (proj1 Hl2)|by destruct Gx].
  Qed.

  (** limitStack *)
  Lemma s_bytes ls : sized ls -> bytes 0 ls = sum (ids ls).
  Proof.
    unfold sized. induction 1 as [|[x o] l Ex _ IH]; [done|]. rewrite bytes_cons. change (ids ((x, o) :: l)) with (x :: ids l).
    rewrite sum_cons, IH. cbn in *. lia.
  Qed.
  Lemma trim_ok n : forall s a, lrel s a -> iinv None a -> (length (is_nh a) <= n)%nat ->
    exists s', while_ (S n)
      (fun s => Ok (bool_decide (c_occ (q_c (li_s s)) > 2 * c_size (li_c s) /\ q_q (li_nh s) <> [])))
      (fun s =>
         match last (q_q (li_nh s)) with
         | None => Err NullDeref
         | Some v =>
             let! (qs, _) := q_remove (li_s s) v in
             let! nh := q_evict_tail (li_nh s) no_req in
             Ok (li_set_nh (li_set_s s qs) nh)
         end) s = Ok s' /\ lrel s' (trim sz cap n a).
  Proof using Hh0 Hh Hcap.
    induction n as [|n IH]; intros s a HR H Hn; pose proof HR as (ls & lq & ln & R).
    - assert (Enh : is_nh a = []) by (destruct (is_nh a); [done|cbn in Hn; lia]).
      exists s. cbn [while_ rbind trim]. rewrite bool_decide_eq_false_2; [by destruct (decide _)|].
      rewrite (qok_q _ _ _ _ (lr_n _ _ _ _ _ R)), (lr_ni _ _ _ _ _ R), Enh. tauto.
    - set (m := S n). cbn [while_ rbind].
      change (trim sz cap m a) with (if decide (sum (is_s a).*1 > 2 * cap) then
        match last (is_nh a) with
        | Some v => trim sz cap n (mkIS (s_drop v (is_s a)) (is_q a) (removelast (is_nh a)) (is_adm a))
        | None => a
        end else a).
      rewrite (qok_q _ _ _ _ (lr_n _ _ _ _ _ R)), (lr_ni _ _ _ _ _ R), (lr_size _ _ _ _ _ R), (qok_occ _ _ _ _ (lr_s _ _ _ _ _ R)).
      rewrite (s_bytes ls (lr_sz _ _ _ _ _ R)), <- view_ids, (lr_sv _ _ _ _ _ R).
      destruct (decide (sum (is_s a).*1 > 2 * cap)) as [Hgt|Hle].
      2: { rewrite bool_decide_eq_false_2 by tauto. by exists s. }
      destruct (last (is_nh a)) as [v|] eqn:El.
      2: { apply last_None in El. rewrite bool_decide_eq_false_2; [|rewrite El; tauto]. exists s. by split. }
      rewrite bool_decide_eq_true_2 by (split; [done|]; intros C; by rewrite C in El).
      pose proof El as El2. apply last_Some in El2 as [nh Enh].
      assert (Hv : (v, NR) ∈ is_s a) by (apply (ii_nr _ _ _ _ _ H); rewrite Enh; apply elem_of_app; right; by left).
      assert (HvQ : v ∉ is_q a) by (intros C; by apply (ii_stat _ _ _ _ _ H v NR) in C).
      assert (HvL : (v, LIR) ∉ is_s a) by (intros C; by pose proof (nd_fun _ v _ _ (ii_s _ _ _ _ _ H) Hv C)).
      destruct (ids_snoc ln nh v) as (l1 & o & -> & El1); [by rewrite (lr_ni _ _ _ _ _ R)|].
      destruct (qok_remove_hit _ _ _ ls (lr_s _ _ _ _ _ R) v) as (q1 & Eq1 & HQ1);
        [lia|rewrite <- view_ids, (lr_sv _ _ _ _ _ R); by apply elem_fst in Hv|].
      rewrite Eq1. cbn [rbind].
      destruct (qok_evict cap 0 (li_nh s) l1 v o no_req) as (n1 & En1 & HN1); [lia|apply R|]. rewrite En1. cbn [rbind].
      assert (E : i_drop v (is_nh a) = nh).
      { rewrite Enh. pose proof (ii_nh _ _ _ _ _ H) as Hnd. rewrite Enh in Hnd. apply NoDup_app in Hnd as (_ & Hnn & _).
        unfold i_drop. rewrite filter_app. change (filter (fun y => y <> v) nh) with (i_drop v nh). rewrite i_drop_absent.
        - rewrite filter_cons_False by tauto. change (filter (fun y => y <> v) []) with (@nil Z). apply app_nil_r.
        - intros C. apply (Hnn v C). by left. }
      pose proof (drop_inv sz cap h v a H HvQ) as H1. rewrite E in H1.
      rewrite Enh, removelast_last.
      assert (R1 : lrel (li_set_nh (li_set_s s q1) n1) (mkIS (s_drop v (is_s a)) (is_q a) nh (is_adm a))).
      { exists (l_del v ls), lq, l1. split; flds; try done; try apply R.
        - by rewrite view_del, (lr_sv _ _ _ _ _ R).
        - apply Forall_del. apply R.
        - rewrite (lr_lc _ _ _ _ _ R). unfold SpecLIRS.lir_bytes. cbn [is_s]. by rewrite lirs_drop.
        - rewrite (lr_occ _ _ _ _ _ R). unfold SpecLIRS.lir_bytes. cbn [is_s]. by rewrite lirs_drop.
        - rewrite (lr_nobj _ _ _ _ _ R). by rewrite lirs_drop. }
      apply IH; [exact R1|exact H1|]. cbn [is_nh]. rewrite Enh, app_length in Hn. cbn in Hn. lia.
  Qed.
  Lemma limit_ok s a : lrel s a -> iinv None a ->
    exists s', li_limit_stack s = Ok s' /\ lrel s' (trim sz cap (length (is_nh a)) a).
  Proof using Hh0 Hh Hcap.
    intros HR H. unfold li_limit_stack. pose proof HR as (ls & lq & ln & R).
    rewrite (qok_q _ _ _ _ (lr_n _ _ _ _ _ R)), (lr_ni _ _ _ _ _ R). by apply trim_ok.
  Qed.

  Lemma tick_rel s a : lrel s a -> lrel (li_set_c s (c_incr_nreq (li_c s))) a.
  Proof. intros (ls & lq & ln & R). exists ls, lq, ln. split; flds; try done; apply R. Qed.

  Lemma get_ok s a r fuel : lrel s a -> iinv None a -> bottom a -> i_req sz r ->
    exists s', li_get true fuel s r = Ok (s', (i_get sz cap h a r).2) /\ lrel s' (i_get sz cap h a r).1.
  Proof using Hh0 Hh Hcap Hr.
    intros HR H B Hreq. unfold li_get, cache_get_base. cbn [op_tick op_find op_can_insert op_insert li_ops].
    apply tick_rel in HR. set (s0 := li_set_c s _) in *. destruct (find_ok s0 a r HR H B) as (s1 & E1 & R1). rewrite E1. cbn [rbind].
    unfold i_get. destruct (i_access sz cap h a (r_id r)) as [a1 b] eqn:Ea. cbn [fst snd] in *.
    destruct (access_inv sz cap h Hh Hr a (r_id r) a1 b H B Ea) as (H1 & B1 & _ & Hm). destruct b.
    - cbn [rbind]. destruct (limit_ok s1 a1 R1 H1) as (s2 & E2 & R2). rewrite E2. cbn [rbind]. by exists s2.
    - destruct (Hm eq_refl) as [HxQ HxS]. destruct (admit (is_adm a1) r) as [adm ok] eqn:Ead.
      destruct (miss_ok s1 a1 r fuel adm ok R1 H1 B1 Hreq HxQ HxS Ead) as (s2 & E2 & Q2). rewrite E2. cbn [rbind].
      fold (with_adm a1 adm). assert (H2 : iinv None (with_adm a1 adm)) by (by destruct H1).
      destruct (ok && bool_decide (r_size r <= h))%bool eqn:Eok.
      + destruct Q2 as (s3 & E3 & E4 & R3). rewrite E3. cbn [rbind]. rewrite E4. cbn [rbind].
        apply andb_true_iff in Eok as [_ Ho%bool_decide_eq_true]. destruct Hreq as [Ez Hz].
        destruct (add_inv sz cap h Hh Hr (r_id r) (with_adm a1 adm) H2 B1) as (H3 & _); [unfold LIRSFacts.good; lia|done|done|].
        destruct (limit_ok s3 _ R3 H3) as (s4 & E5 & R4). rewrite E5. cbn [rbind]. by exists s4.
      + cbn [rbind]. destruct (limit_ok s2 _ Q2 H2) as (s4 & E5 & R4). rewrite E5. cbn [rbind]. by exists s4.
  Qed.

  (** LIRS_remove *)
  Lemma remove_ok s a x : lrel s a -> iinv None a -> bottom a -> i_ok sz cap h a (CRemove x) ->
    exists s' b, li_remove true s x = Ok (s', b) /\ (i_call sz cap h a (CRemove x)).2 = OBool b /\
      lrel s' (i_call sz cap h a (CRemove x)).1.
  Proof using Hh0 Hh Hcap.
    intros HR H B [Hn1 Hn2]. pose proof HR as (ls & lq & ln & R). pose proof (ii_s _ _ _ _ _ H) as Hnd.
    pose proof (ii_lb _ _ _ _ _ H) as Hlb. pose proof (ii_hb _ _ _ _ _ H) as Hhb.
    unfold li_remove. cbn [i_call]. destruct (stat_of (is_s a) x) as [t|] eqn:Es.
    - apply stat_elem in Es; [|done]. destruct (s_some s a x t HR Hnd Es) as (o & Eo & Est & Ezo & _). rewrite Eo.
      destruct (qok_remove_hit _ _ _ ls (lr_s _ _ _ _ _ R) x) as (q1 & Eq1 & HQ1);
        [lia|rewrite <- view_ids, (lr_sv _ _ _ _ _ R); by apply elem_fst in Es|].
      rewrite Eq1. cbn [rbind freed]. rewrite Ezo.
      assert (Gx : good x) by (by apply (good_s sz cap h None a x t)). destruct Gx as [Gx1 Gx2].
      destruct t; [| |done].
      + rewrite (status_LIR o Est).
        assert (HxQ : x ∉ is_q a) by (intros C; by apply (ii_stat _ _ _ _ _ H x LIR) in C).
        assert (HxN : x ∉ is_nh a) by (intros C; apply (ii_nr _ _ _ _ _ H) in C; by pose proof (nd_fun _ x _ _ Hnd Es C)).
        pose proof (drop_inv sz cap h x a H HxQ) as H1. rewrite (i_drop_absent x (is_nh a)) in H1 by done.
        assert (EL : lirs_of (s_drop x (is_s a)) = i_drop x (lirs_of (is_s a))) by (by apply lirs_drop_lir).
        assert (Hxl : x ∈ lirs_of (is_s a)) by (by apply lirs_elem).
        assert (ES : sum (lirs_of (s_drop x (is_s a))) = lir_bytes a - sz x) by (rewrite EL; apply sum_drop; [by apply lirs_nd|done]).
        pose proof (lb_nn _ _ H1) as Hnn. unfold SpecLIRS.lir_bytes at 1 in Hnn. cbn [is_s] in Hnn.
        set (a1 := mkIS (s_drop x (is_s a)) (is_q a) (is_nh a) (is_adm a)) in *.
        assert (R1 : lrel (li_account (li_add_l (li_set_s s q1) (- sz x)) (- sz x) (-1)) a1).
        { exists (l_del x ls), lq, ln. split; flds; try done; try apply R.
          - by rewrite view_del, (lr_sv _ _ _ _ _ R).
          - apply Forall_del. apply R.
          - rewrite (lr_lc _ _ _ _ _ R), u64_id by lia. unfold SpecLIRS.lir_bytes at 2. cbn [is_s a1]. lia.
          - rewrite (lr_occ _ _ _ _ _ R). unfold SpecLIRS.lir_bytes at 2, SpecLIRS.hir_bytes at 2. cbn [is_s is_q a1]. unfold SpecLIRS.hir_bytes. lia.
          - rewrite (lr_nobj _ _ _ _ _ R). cbn [is_s is_q a1]. rewrite EL.
            assert (length (lirs_of (is_s a)) = S (length (i_drop x (lirs_of (is_s a))))); [|lia]. symmetry. apply len_drop; [by apply lirs_nd|done]. }
        destruct (Hn2 eq_refl) as [[ES0 EQ0]|(y & Hy & Ey)].
        * assert (E0 : is_s a1 = []). { cbn [is_s a1]. rewrite ES0. unfold s_drop. by rewrite filter_cons_False by (cbn; tauto). }
          assert (Ep : li_prune (li_account (li_add_l (li_set_s s q1) (- sz x)) (- sz x) (-1)) = Ok (li_account (li_add_l (li_set_s s q1) (- sz x)) (- sz x) (-1))).
          { pose proof R1 as (l1 & l2 & l3 & Q1). unfold li_prune. cbn [while_].
            rewrite (qok_q _ _ _ _ (lr_s _ _ _ _ _ Q1)), <- view_ids, (lr_sv _ _ _ _ _ Q1), E0. cbn [last rbind]. done. }
          rewrite Ep. cbn [rbind]. eexists _, true. split; [done|]. split; [done|]. cbn [fst].
          replace (i_prune a1) with a1; [done|].
          assert (EN : is_nh a1 = []). { cbn [is_nh a1]. destruct (is_nh a) as [|v nh] eqn:E; [done|exfalso].
            assert (C : v ∈ is_nh a) by (rewrite E; by left). apply (ii_nr _ _ _ _ _ H) in C. rewrite ES0 in C. apply elem_of_list_singleton in C. congruence. }
          unfold i_prune. rewrite E0, pruned_nil, EN. unfold a1 at 1. f_equal; [exact E0|exact EN].
        * apply stat_elem in Ey; [|done].
          destruct (li_prune_ok None y _ a1 R1 H1) as (s2 & E2 & R2); [cbn [is_s a1]; by apply s_drop_elem|]. rewrite E2. cbn [rbind].
          by eexists _, true.
      + destruct (status_HIR o Est) as [-> ->].
        destruct (ii_hir _ _ _ _ _ H x Es) as [HxQ|C]; [|done].
        destruct (q_some s a x HR HxQ) as (oq & Eoq & _). cbn [li_q li_account li_add_h li_set_s] in *. rewrite Eoq.
        destruct (qok_remove_hit _ _ _ lq (lr_q _ _ _ _ _ R) x) as (q2 & Eq2 & HQ2); [lia|by rewrite (lr_qi _ _ _ _ _ R)|].
        cbn [li_q li_account li_add_h li_set_s li_set_c]. rewrite Eq2. cbn [rbind]. eexists _, true. split; [done|]. split; [done|]. cbn [fst].
        assert (HxL : (x, LIR) ∉ is_s a) by (intros C; by pose proof (nd_fun _ x _ _ Hnd Es C)).
        assert (EQ : sum (i_drop x (is_q a)) = hir_bytes a - sz x) by (apply sum_drop; [apply H|done]).
        assert (0 <= sum (i_drop x (is_q a))). { apply (sum_nonneg sz h). apply Forall_forall. intros z [Hz _]%i_drop_elem. by apply (good_q sz cap h None a). }
        exists (l_del x ls), (l_del x lq), ln. split; flds; try done; try apply R.
        * by rewrite view_del, (lr_sv _ _ _ _ _ R).
        * apply Forall_del. apply R.
        * by rewrite ids_i_drop, (lr_qi _ _ _ _ _ R).
        * apply Forall_del. apply R.
        * apply Forall_del. apply R.
        * rewrite (lr_hc _ _ _ _ _ R), u64_id by lia. unfold SpecLIRS.hir_bytes at 2. cbn [is_q]. lia.
        * rewrite (lr_lc _ _ _ _ _ R). unfold SpecLIRS.lir_bytes. cbn [is_s]. by rewrite lirs_drop.
        * rewrite (lr_occ _ _ _ _ _ R). unfold SpecLIRS.lir_bytes, SpecLIRS.hir_bytes. cbn [is_s is_q]. rewrite lirs_drop by done. unfold SpecLIRS.hir_bytes in EQ. lia.
        * rewrite (lr_nobj _ _ _ _ _ R). rewrite lirs_drop by done.
          assert (length (is_q a) = S (length (i_drop x (is_q a)))); [|lia]. symmetry. apply len_drop; [apply H|done].
    - apply stat_none in Es. rewrite (s_none s a x HR Es). destruct (decide (x ∈ is_q a)) as [HxQ|HxQ].
      + destruct (q_some s a x HR HxQ) as (oq & Eoq & Ein & Ezq & _). rewrite Eoq.
        destruct (qok_remove_hit _ _ _ lq (lr_q _ _ _ _ _ R) x) as (q2 & Eq2 & HQ2); [lia|by rewrite (lr_qi _ _ _ _ _ R)|].
        rewrite Eq2. cbn [rbind freed]. rewrite Ein, Ezq. rewrite bool_decide_eq_true_2 by done. eexists _, true. split; [done|]. split; [done|]. cbn [fst].
        assert (EQ : sum (i_drop x (is_q a)) = hir_bytes a - sz x) by (apply sum_drop; [apply H|done]).
        assert (0 <= sum (i_drop x (is_q a))). { apply (sum_nonneg sz h). apply Forall_forall. intros z [Hz _]%i_drop_elem. by apply (good_q sz cap h None a). }
        pose proof (good_q sz cap h None a x H HxQ) as Gx.
        exists ls, (l_del x lq), ln. split; flds; try done; try apply R.
        * by rewrite ids_i_drop, (lr_qi _ _ _ _ _ R).
        * apply Forall_del. apply R.
        * apply Forall_del. apply R.
        * rewrite (lr_hc _ _ _ _ _ R), u64_id by (destruct Gx; lia). unfold SpecLIRS.hir_bytes at 2. cbn [is_q]. lia.
        * rewrite (lr_occ _ _ _ _ _ R). unfold SpecLIRS.lir_bytes, SpecLIRS.hir_bytes. cbn [is_s is_q]. unfold SpecLIRS.hir_bytes in EQ. lia.
        * rewrite (lr_nobj _ _ _ _ _ R).
          assert (length (is_q a) = S (length (i_drop x (is_q a)))); [|lia]. symmetry. apply len_drop; [apply H|done].
      + rewrite (q_none s a x HR HxQ). rewrite bool_decide_eq_false_2, i_drop_absent by done. exists s, false. split; [done|]. split; [done|].
        cbn [fst]. by destruct a.
  Qed.

  Lemma evict_ok s a r : lrel s a -> iinv None a -> i_ok sz cap h a (CEvict r) ->
    exists s', li_evict s r = Ok s' /\ lrel s' (i_call sz cap h a (CEvict r)).1.
  Proof using Hh0 Hh Hcap.
    intros HR H ([Ez Hz] & Hle & Hnr). pose proof HR as (ls & lq & ln & R).
    unfold li_evict. cbn [i_call]. set (x := r_id r) in *. destruct (stat_of (is_s a) x) as [t|] eqn:Es.
    - apply stat_elem in Es; [|apply H]. destruct (s_some s a x t HR (ii_s _ _ _ _ _ H) Es) as (o & Eo & Est & _). rewrite Eo.
      rewrite (decide_False (P := Some t = None /\ _)) by (intros [C _]; done). cbn [fst].
      destruct t; [rewrite (status_LIR o Est)|destruct (status_HIR o Est) as [-> ->]|done]; by exists s.
    - apply stat_none in Es. rewrite (s_none s a x HR Es). destruct (decide (x ∈ is_q a)) as [HxQ|HxQ].
      + destruct (q_some s a x HR HxQ) as (oq & Eoq & Ein & _). rewrite Eoq, Ein. rewrite decide_False by tauto. by exists s.
      + rewrite (q_none s a x HR HxQ), (lr_lc _ _ _ _ _ R), (lr_ll _ _ _ _ _ R), (lr_hc _ _ _ _ _ R), (lr_hl _ _ _ _ _ R), Ez.
        destruct (decide (_ /\ _)) as [[H1 H2]|Hno].
        * rewrite decide_True by tauto. cbn [fst].
          destruct (evict_hir_ok None s a HR H) as (s' & E' & R'); [|by exists s'].
          intros C. unfold SpecLIRS.hir_bytes in H2. rewrite C in H2. cbn in H2. lia.
        * rewrite decide_False by tauto. by exists s.
  Qed.

  Lemma step_ok s a c fuel : lrel s a -> iinv None a -> bottom a -> i_ok sz cap h a c ->
    exists s', li_step true fuel s c = Ok (s', (i_call sz cap h a c).2) /\ lrel s' (i_call sz cap h a c).1.
  Proof using Hh0 Hh Hcap Hr.
    intros HR H B Hok. pose proof HR as (ls & lq & ln & R). destruct c as [r|r u|r|x|r|r].
    - destruct (get_ok s a r fuel HR H B Hok) as (s' & E & R'). cbn [li_step i_call]. rewrite E. cbn [rbind].
      destruct (i_get sz cap h a r). by exists s'.
    - cbn [li_step step op_find li_ops i_call]. destruct u.
      + destruct (find_ok s a r HR H B) as (s' & E & R'). rewrite E. cbn [rbind]. destruct (i_access sz cap h a (r_id r)). by exists s'.
      + destruct Hok as [|Hok]; [done|]. rewrite (find_false s a r HR H B Hok). cbn [rbind]. by exists s.
    - destruct Hok as (Hreq & Hle & Hok). cbn [li_step step op_find op_insert op_occupied op_md op_size li_ops i_call].
      assert (Hf : stat_of (is_s a) (r_id r) = Some LIR \/ ~ resident a (r_id r)).
      { destruct Hok as [|[[U1 U2] _]]; [by left|right]. intros [C|C]; congruence. }
      rewrite (find_false s a r HR H B Hf). cbn [rbind].
      destruct Hok as [EL|[[U1 U2] Hroom]].
      + rewrite EL. rewrite bool_decide_eq_true_2 by done. rewrite decide_False by (intros [C _]; congruence). by exists s.
      + rewrite U1. rewrite bool_decide_eq_false_2 by done.
        rewrite (lr_occ _ _ _ _ _ R), (lr_md _ _ _ _ _ R), (lr_size _ _ _ _ _ R). pose proof Hreq as [Ez Hz]. rewrite Ez.
        destruct (decide (_ > cap)); [rewrite decide_False by (intros [_ C]; lia); by exists s|].
        rewrite decide_True by (split; [done|lia]). cbn [fst snd].
        pose proof U1 as U1'. apply stat_none in U1'.
        destruct (insert_new s a r HR H Hreq Hle U1' U2) as (s' & E & R'); [lia|]. rewrite E. cbn [rbind]. exists s'. split; [done|].
        unfold i_add. rewrite U1. destruct (decide (_ <= cap - h)); [done|].
        replace (room_q sz h (length (is_q a)) (sz (r_id r)) a) with a; [done|].
        destruct (length (is_q a)); cbn [room_q]; by rewrite decide_False by lia.
    - cbn [li_step step op_remove li_ops]. destruct (remove_ok s a x HR H B Hok) as (s' & b & E & Eo & R'). rewrite E. cbn [rbind].
      rewrite Eo. by exists s'.
    - cbn [li_step step op_nobj op_evict li_ops]. destruct (decide _) as [Hz|Hz].
      + exists s. assert (En : i_call sz cap h a (CEvict r) = (a, OUnit)); [|by rewrite En].
        cbn [i_call]. rewrite decide_False; [done|]. intros (_ & _ & C1 & C2). destruct Hok as ([Ez _] & Hle & _).
        rewrite (lr_nobj _ _ _ _ _ R) in Hz.
        assert (E1 : is_q a = []) by (apply nil_length_inv; lia). unfold SpecLIRS.hir_bytes in C2. rewrite E1 in C2. cbn in C2. lia.
      + destruct (evict_ok s a r HR H Hok) as (s' & E & R'). rewrite E. cbn [rbind]. exists s'. split; [|done].
        cbn [i_call]. by destruct (decide _).
    - done.
  Qed.

  Lemma run_ok fuel cs : forall s a, lrel s a -> iinv None a -> bottom a -> i_oks sz cap h a cs ->
    exists s', li_run true fuel s cs = Ok (s', (i_run sz cap h a cs).2) /\ lrel s' (i_run sz cap h a cs).1.
  Proof using Hh0 Hh Hcap Hr.
    induction cs as [|c cs IH]; intros s a HR H B Hok; cbn [li_run i_run i_oks] in *.
    - by exists s.
    - destruct Hok as [Hc Hcs]. destruct (step_ok s a c fuel HR H B Hc) as (s1 & E1 & R1). rewrite E1. cbn [rbind].
      destruct (call_inv sz cap h Hh Hr a c H B Hc) as [H1 B1].
      destruct (i_call sz cap h a c) as [a1 o]. cbn [fst snd] in *.
      destruct (IH s1 a1 R1 H1 B1 Hcs) as (s2 & E2 & R2). rewrite E2. cbn [rbind].
      destruct (i_run sz cap h a1 cs) as [a2 os]. by exists s2.
  Qed.

  Lemma init_ok adm : lrel (li_init cap h 0 adm) (ispec0 adm).
  Proof using Hh0 Hh Hcap.
    exists [], [], []. split; unfold li_init; flds; try done; try (apply qok_init); try constructor.
    rewrite u64_id by lia. done.
  Qed.
End Sim.
