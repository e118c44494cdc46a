(** What every operation of LP_TwoQ does to its two queues and to the ledger of
    the main cache, and the invariant that all client programs preserve. *)
From stdpp Require Import gmap list numbers fin_maps.
From Verif Require Import Base Driver Abs AbsFacts Sim ModelQueue QueueFacts QList CompFacts ModelTwoQ ModelQDLP QDLPFacts ModelLPTwoQ.
Open Scope Z_scope.

Section LPTwoQ.
  Context {M : Type} (pol : policy) (O : ops M) (R : M -> abs -> Prop) (G : Z -> Z -> Prop) (cap ain aout : Z).
  Context (Hain : 0 <= ain) (Haout : 0 <= aout) (Hcap : 2 * ain <= cap).
  Context (HS : simulation pol O (cap - ain) 0 (req_ok 0) R).
  Notation OO := (lptq_ops O).

  Record ltok (s : lptq M) (li lo : qlist) (t : Z) (m : gmap Z entry) : Prop := mkLtok {
    lk_in  : qok ain 0 (lt_in s) li;
    lk_out : qok aout 0 (lt_out s) lo;
    lk_am  : R (lt_am s) (mkAbs t m AdmNone);
    lk_ok  : abs_ok (cap - ain) 0 (mkAbs t m AdmNone);
    lk_sz  : lt_size s = cap;
    lk_io  : disj li lo;
    lk_im  : apart li m;
    lk_om  : apart lo m;
    lk_cap : bytes 0 li + msum 0 m <= cap;
    lk_ob  : bytes 0 lo <= aout;
    lk_gi  : allG G li;
    lk_go  : allG G lo;
    lk_gm  : forall id e, m !! id = Some e -> G id (e_size e)
  }.

  Lemma lk_mb s li lo t m : ltok s li lo t m -> 0 <= msum 0 m <= cap - ain /\ 0 <= bytes 0 li.
  Proof using.
    intros []. destruct lk_ok0 as (H & _). cbn in *. split; [done|]. apply bytes_nonneg; [lia|apply lk_in0].
  Qed.

  Lemma lk_find_false s li lo t m r : ltok s li lo t m ->
    lptq_find O s r false = Ok (s, bool_decide (r_id r ∈ ids li \/ is_Some (m !! r_id r))).
  Proof using HS.
    intros []. unfold lptq_find. rewrite (qok_find_false _ _ _ _ lk_in0). cbn [rbind].
    destruct (bool_decide (r_id r ∈ ids li)) eqn:E.
    - apply bool_decide_eq_true in E. rewrite bool_decide_eq_true_2 by (by left). by destruct s.
    - apply bool_decide_eq_false in E. rewrite (sim_find_false _ _ _ _ _ _ HS _ _ r lk_am0). cbn [rbind a_m].
      destruct s. cbn. do 2 f_equal. apply bool_decide_ext. tauto.
  Qed.

  Lemma lk_find_true s li lo t m r : ltok s li lo t m ->
    exists s' b lo' t' m', lptq_find O s r true = Ok (s', b) /\ ltok s' li lo' t' m' /\
      b = bool_decide (r_id r ∈ ids li \/ is_Some (m !! r_id r)) /\
      (forall id, is_Some (m' !! id) <-> is_Some (m !! id)) /\ size m' = size m /\ msum 0 m' = msum 0 m /\
      (b = false -> m' = m /\ t' = t /\ lo' = l_del (r_id r) lo /\ lt_ghost s' = bool_decide (r_id r ∈ ids lo)) /\
      (b = true -> lo' = lo /\ lt_ghost s' = false).
  Proof using HS.
    intros HD. pose proof HD as []. unfold lptq_find. rewrite (qok_find_false _ _ _ _ lk_in0). cbn [rbind].
    destruct (bool_decide (r_id r ∈ ids li)) eqn:E.
    - apply bool_decide_eq_true in E. eexists _, true, lo, t, m. split_and!; try done.
      by rewrite bool_decide_eq_true_2 by (by left).
    - apply bool_decide_eq_false in E.
      assert (Hg : exists g, q_remove (lt_out s) (r_id r) = Ok (g, bool_decide (r_id r ∈ ids lo)) /\
                     qok aout 0 g (l_del (r_id r) lo)).
      { destruct (decide (r_id r ∈ ids lo)) as [Hi|Hi].
        - destruct (qok_remove_hit _ _ _ _ lk_out0 (r_id r) (Z.le_refl 0) Hi) as (g & Eg & Hg).
          exists g. by rewrite bool_decide_eq_true_2 by done.
        - exists (lt_out s). rewrite bool_decide_eq_false_2 by done. rewrite (qok_remove_miss _ _ _ _ lk_out0 _ Hi).
          by rewrite l_del_notin. }
      destruct Hg as (g & -> & Hg). cbn [rbind].
      pose proof (bytes_del_le _ _ _ _ (r_id r) (Z.le_refl 0) lk_out0) as Hob.
      destruct (m !! r_id r) as [e|] eqn:Em.
      + assert (Hng : r_id r ∉ ids lo). { intros Hx. by rewrite (lk_om0 _ Hx) in Em. }
        destruct (sim_find_hit _ _ _ _ _ _ HS _ _ _ _ r e lk_ok0 lk_am0 Em) as (m' & -> & HR'). cbn [rbind].
        rewrite (bool_decide_eq_true_2 (r_id r ∈ ids li \/ is_Some (Some e))) by (right; eauto).
        rewrite (bool_decide_eq_false_2 (r_id r ∈ ids lo)) by done.
        assert (Hsub : forall id, is_Some (<[r_id r:=touch t r e]> m !! id) <-> is_Some (m !! id)).
        { intros id. rewrite lookup_insert_is_Some'. naive_solver. }
        assert (Hb : msum 0 (<[r_id r:=touch t r e]> m) = msum 0 m) by (by eapply msum_update).
        rewrite (l_del_notin _ _ Hng) in Hg.
        eexists _, true, lo, _, (<[r_id r:=touch t r e]> m). split; [done|].
        split; [|split_and!; try done; apply map_size_insert_Some; eauto].
        split; cbn; try done.
        * by apply abs_ok_touch.
        * eapply apart_map; [|done]. intros id. by rewrite Hsub.
        * eapply apart_map; [|done]. intros id. by rewrite Hsub.
        * by rewrite Hb.
        * intros id e'. rewrite lookup_insert_Some. intros [[<- <-]|[_ ?]]; [|eauto]. cbn. eauto.
      + destruct (sim_find_miss _ _ _ _ _ _ HS _ _ r lk_am0 Em) as (m' & -> & HR'). cbn [rbind].
        rewrite (bool_decide_eq_false_2 (r_id r ∈ ids li \/ is_Some None)) by (intros [?|[? ?]]; congruence).
        eexists _, false, (l_del (r_id r) lo), t, m. split; [done|]. split; [|split_and!; done].
        split; cbn; try done.
        * eapply disj_sub; [| |exact lk_io0]; [done|apply del_sub].
        * eapply apart_sub; [apply del_sub|exact lk_om0].
        * lia.
        * by apply allG_del.
  Qed.

  (** What leaves: the oldest of Ain if Ain is over its size, else what the main
      cache evicts; with an empty main cache it fails as that does. *)
  Lemma lk_evict s li lo t m r : ltok s li lo t m ->
    (bytes 0 li > ain /\ exists s' li' v o lo', li = li' ++ [(v, o)] /\
       lptq_evict O s r = Ok s' /\ ltok s' li' lo' t m /\ lt_ghost s' = lt_ghost s /\
       (forall id, id ∈ ids lo' -> id = v \/ id ∈ ids lo) /\
       (o_size o <= aout -> v ∈ ids lo')) \/
    (bytes 0 li <= ain /\ m <> ∅ /\ exists s' v, is_Some (m !! v) /\ pol m v /\
       (exists am, op_to_evict O (lt_am s) r = Ok (am, Some v)) /\
       lptq_evict O s r = Ok s' /\ ltok s' li lo t (delete v m) /\ lt_ghost s' = lt_ghost s) \/
    (bytes 0 li <= ain /\ m = ∅ /\ lptq_evict O s r = let! m := op_evict O (lt_am s) r in
      Ok (mkLT (lt_in s) (lt_out s) m (lt_ghost s) (lt_size s) (lt_nreq s))).
  Proof using HS Hain Haout Hcap.
    intros HD. pose proof (lk_mb _ _ _ _ _ HD) as [Hmb _]. pose proof HD as []. unfold lptq_evict. unfold q_occ, q_size.
    rewrite (qok_occ _ _ _ _ lk_in0), (qok_size _ _ _ _ lk_in0).
    destruct (decide (bytes 0 li > ain)) as [Hgt|Hle].
    - left. split; [done|]. destruct li as [|[v o] li' _] using rev_ind; [cbn in Hgt; lia|].
      rewrite (qok_to_evict _ _ _ _ _ _ r lk_in0). cbn [rbind].
      assert (Hin : (v, o) ∈ li' ++ [(v, o)]) by (apply elem_of_app; right; left).
      rewrite (proj2 (qok_lookup _ _ _ _ lk_in0 v o) Hin).
      pose proof (qok_osz _ _ _ _ lk_in0) as Hosz. rewrite Forall_forall in Hosz.
      pose proof (Hosz _ Hin) as [Hs1 Hs2]. cbn in Hs1, Hs2.
      assert (Hv : v ∈ ids (li' ++ [(v, o)])) by (apply ids_elem; eauto).
      assert (Hvo : v ∉ ids lo) by (intros ?; by apply (lk_io0 v)).
      pose proof (lk_im0 _ Hv) as Hvm.
      pose proof (NoDup_ids_mid li' v o [] (qok_nd _ _ _ _ lk_in0)) as (Hvi & _ & _).
      assert (Hli : forall id, id ∈ ids li' -> id ∈ ids (li' ++ [(v, o)])).
      { intros id ?. rewrite ids_app. apply elem_of_app. by left. }
      unfold sub_get. cbn [op_nobj fifo_ops].
      destruct (fifo_get_miss _ _ _ _ (req_of_obj v o) _ (Z.le_refl 0) lk_out0
                  ltac:(split; cbn; lia) Hvo (subget_fuel _ _ _ _ lk_out0)) as (g & lo' & -> & Hg & Hl).
      cbn [rbind]. destruct (qok_evict _ _ _ _ _ _ r (Z.le_refl 0) lk_in0) as (i' & -> & Hi'). cbn [rbind].
      assert (Hsub : forall id, id ∈ ids lo' -> id = v \/ id ∈ ids lo).
      { intros id Hid. destruct (decide _).
        - destruct Hl as (l1 & Hf & ->). cbn [r_id req_of_obj] in Hid. change (ids (?x :: ?y)) with (x.1 :: ids y) in Hid.
          apply elem_of_cons in Hid as [->|Hid]; [by left|]. right. by apply (fits_ids _ _ _ _ _ Hf).
        - subst. by right. }
      eexists _, li', v, o, lo'. split_and!; try done.
      + rewrite bytes_app, bytes_cons in lk_cap0. cbn in lk_cap0.
        split; cbn; try done.
        * intros id H1 [->|H2]%Hsub; [done|]. apply (lk_io0 id); auto.
        * eapply apart_sub; [exact Hli|exact lk_im0].
        * intros id [->|H1]%Hsub; [done|]. by apply lk_om0.
        * lia.
        * destruct (decide _) as [Hfit|]; [|by subst].
          destruct Hl as (l1 & (l2 & _ & Hb & _) & ->). rewrite bytes_cons. cbn in *.
          unfold u32. rewrite Z.mod_small by lia. lia.
        * by apply allG_app in lk_gi0 as [? _].
        * apply allG_app in lk_gi0 as [_ Hgv]. destruct (decide _); [|by subst].
          destruct Hl as (l1 & Hf & ->). apply allG_cons; [|by eapply allG_fits].
          cbn [fst snd]. rewrite (o_size_of_req _ 0); [|split; cbn; lia|lia]. cbn. apply (allG_elem _ _ _ _ Hgv). left.
      + intros Ho. cbn [r_size req_of_obj] in Hl. rewrite decide_True in Hl by lia.
        destruct Hl as (l1 & _ & ->). by left.
    - right. destruct (decide (m = ∅)) as [->|Hne]; [by right|]. left. split; [lia|]. split; [done|].
      destruct (sim_evict _ _ _ _ _ _ HS _ _ _ _ r lk_ok0 lk_am0 Hne) as (am & v & s2 & Ht & _ & Hv & Hp & -> & HR2 & _).
      cbn [rbind]. eexists _, v. split; [done|]. split; [done|]. split; [by exists am|]. split; [done|]. split; [|done].
      destruct Hv as [e Hv]. pose proof (msum_delete 0 m v e Hv) as Hmd. pose proof (abs_ok_delete _ _ _ _ _ v lk_ok0) as Hok'.
      assert (Hsz : 0 <= e_size e). { destruct lk_ok0 as (_ & Hy & _). by apply (Hy _ _ Hv). }
      assert (Hsub : forall id, is_Some (delete v m !! id) -> is_Some (m !! id)).
      { intros id. rewrite lookup_delete_is_Some. tauto. }
      split; cbn; try done.
      + by eapply apart_map.
      + by eapply apart_map.
      + lia.
      + intros id e'. rewrite lookup_delete_Some. intros [_ ?]. eauto.
  Qed.

  Lemma lk_loop r : 0 <= r_size r <= ain -> forall n s li lo t m fuel,
    (length li + size m <= n)%nat -> (n <= fuel)%nat -> ltok s li lo t m ->
    r_id r ∉ ids li -> r_id r ∉ ids lo ->
    exists s' li' lo' m', evict_loop OO fuel s r = Ok s' /\ ltok s' li' lo' t m' /\
      bytes 0 li' + msum 0 m' + r_size r <= cap /\ lt_ghost s' = lt_ghost s /\
      r_id r ∉ ids lo' /\ (length li' + size m' <= n)%nat /\
      (exists d, li = li' ++ d) /\ m' ⊆ m /\
      (bytes 0 li + msum 0 m + r_size r <= cap -> s' = s).
  Proof using HS Hain Haout Hcap.
    intros Hr n. induction n as [|n IH]; intros s li lo t m fuel Hn Hf H Hi Ho.
    - assert (li = [] /\ m = ∅) as [-> ->].
      { split; [destruct li; [done|cbn in Hn; lia]|apply map_size_empty_inv; lia]. }
      pose proof H as []. exists s, [], lo, ∅. rewrite !msum_empty. split_and!; try done; try (by exists []).
      + pose proof (sim_occ _ _ _ _ _ _ HS _ _ lk_am0) as Hx. cbn [a_m] in Hx. rewrite msum_empty in Hx.
        assert (op_occupied OO s + r_size r + op_md OO s <= op_size OO s).
        { cbn. unfold q_occ. rewrite (qok_occ _ _ _ _ lk_in0), Hx, lk_sz0. cbn. lia. }
        destruct fuel; cbn [evict_loop]; by rewrite decide_False by lia.
      + cbn. lia.
    - destruct fuel as [|fuel]; [lia|]. cbn [evict_loop].
      assert (Hocc : op_occupied OO s + r_size r + op_md OO s = bytes 0 li + msum 0 m + r_size r /\ op_size OO s = cap).
      { pose proof H as []. cbn. unfold q_occ. rewrite (qok_occ _ _ _ _ lk_in0), (sim_occ _ _ _ _ _ _ HS _ _ lk_am0). by split; [cbn; lia|]. }
      destruct Hocc as [Hocc Hsz]. destruct (decide _) as [Hgt|Hle].
      + cbn [op_evict lptq_ops].
        destruct (lk_evict s li lo t m r H) as [(Hb & s1 & li1 & v & o & lo1 & -> & -> & H1 & Hg & Hlo & _)|
           [(Hb & Hne & s1 & v & Hv & _ & _ & -> & H1 & Hg)|(Hb & -> & _)]].
        * cbn [rbind]. rewrite app_length in Hn. cbn in Hn. rewrite ids_app in Hi.
          assert (Hi1 : r_id r ∉ ids li1) by (intros ?; apply Hi, elem_of_app; by left).
          assert (Hnv : r_id r <> v) by (intros <-; apply Hi, elem_of_app; right; left).
          assert (Ho1 : r_id r ∉ ids lo1) by (intros [?|?]%Hlo; done).
          destruct (IH s1 li1 lo1 t m fuel ltac:(lia) ltac:(lia) H1 Hi1 Ho1)
            as (s' & li' & lo' & m' & -> & H' & Hc & Hg' & Ho' & Hl' & (d & ->) & Hd & _).
          exists s', li', lo', m'. split_and!; try done; [congruence|lia| |lia].
          exists (d ++ [(v, o)]). by rewrite app_assoc.
        * cbn [rbind]. assert (Hs1 : size (delete v m) = Nat.pred (size m)) by (by apply map_size_delete_Some).
          assert (size m <> 0)%nat by (by apply map_size_non_empty_iff).
          destruct (IH s1 li lo t (delete v m) fuel ltac:(lia) ltac:(lia) H1 Hi Ho)
            as (s' & li' & lo' & m' & -> & H' & Hc & Hg' & Ho' & Hl' & Hd & Hs & _).
          exists s', li', lo', m'. split_and!; try done; [congruence|lia| |lia].
          etrans; [exact Hs|apply delete_subseteq].
        * exfalso. rewrite msum_empty in Hocc. lia.
      + exists s, li, lo, m. split_and!; try done; try lia. by exists []; rewrite app_nil_r.
  Qed.

  Lemma lk_insert s li lo t m r : ltok s li lo t m -> req_ok 0 r -> G (r_id r) (r_size r) -> r_size r <= ain ->
    r_id r ∉ ids li -> r_id r ∉ ids lo -> m !! r_id r = None ->
    bytes 0 li + msum 0 m + r_size r <= cap ->
    exists s' li' t' m', lptq_insert O s r = Ok s' /\ ltok s' li' lo t' m' /\
      (if lt_ghost s then li' = li /\ exists m1, evict_to pol (cap - ain) 0 (r_size r) m m1 /\ m' = <[r_id r := fresh t r]> m1
       else li' = (r_id r, obj_of_req r) :: li /\ m' = m).
  Proof using HS Hain Haout Hcap.
    intros HD Hr HGr Hsz Hi Ho Hm Hc. pose proof HD as []. pose proof Hr as [Hr1 Hr2]. unfold lptq_insert. destruct (lt_ghost s).
    - destruct (main_get_spec pol O R cap ain HS _ _ _ r lk_am0 lk_ok0 Hr Hm ltac:(lia)) as (ms & m1 & Hg & He & HR & Hok).
      unfold main_get in Hg. rewrite Hg. cbn [rbind].
      destruct (evict_to_size pol cap ain _ _ _ He) as [Hsub Hle].
      pose proof (evict_to_msum _ _ _ _ _ He) as Hms.
      assert (Hm1 : m1 !! r_id r = None) by (by eapply lookup_weaken_None).
      assert (Hs2 : forall id, is_Some (m1 !! id) -> is_Some (m !! id)).
      { intros id [e He']. exists e. by eapply lookup_weaken. }
      assert (Hms2 : msum 0 m1 <= msum 0 m).
      { clear -He lk_ok0. destruct lk_ok0 as (_ & Hy & _). cbn in Hy. revert Hy. induction He as [|m v m' _ [e Hv] _ _ IH]; [done|].
        intros Hy. rewrite (msum_delete _ _ _ _ Hv) in IH. pose proof (Hy _ _ Hv).
        assert (msum 0 m' <= msum 0 m - (e_size e + 0)); [|lia]. apply IH. intros i x. rewrite lookup_delete_Some. intros [_ ?]. eauto. }
      eexists _, li, _, _. split; [done|]. split; [|split; [done|]; by exists m1].
      split; cbn; try done.
      + intros id Hid. rewrite lookup_insert_ne by (intros <-; done). destruct (m1 !! id) eqn:E; [|done].
        destruct (Hs2 id ltac:(eauto)) as [x Hx]. by rewrite (lk_im0 _ Hid) in Hx.
      + intros id Hid. rewrite lookup_insert_ne by (intros <-; done). destruct (m1 !! id) eqn:E; [|done].
        destruct (Hs2 id ltac:(eauto)) as [x Hx]. by rewrite (lk_om0 _ Hid) in Hx.
      + rewrite msum_insert by done. cbn. lia.
      + intros id e. rewrite lookup_insert_Some. intros [[<- <-]|[_ He']]; [done|]. apply lk_gm0. by eapply lookup_weaken.
    - destruct (qok_insert _ _ _ _ lk_in0 r Hi ltac:(split; lia) ltac:(lia)) as (i & -> & Hi'). cbn [rbind].
      eexists _, _, t, m. split; [done|]. split; [|by split].
      split; cbn; try done.
      + intros id [->|H1]%elem_of_cons H2; [done|]. by apply (lk_io0 id).
      + intros id [->|H1]%elem_of_cons; [done|]. by apply lk_im0.
      + fold (bytes 0 li). unfold u32. rewrite Z.mod_small by lia. lia.
      + apply allG_cons; [|done]. cbn [fst snd]; by rewrite (o_size_of_req _ _ Hr (Z.le_refl 0)).
  Qed.

  Lemma lk_remove s li lo t m id : ltok s li lo t m ->
    exists s', lptq_remove O s id = Ok (s', bool_decide (id ∈ ids li \/ id ∈ ids lo \/ is_Some (m !! id))) /\
      ltok s' (l_del id li) (l_del id lo) t (delete id m).
  Proof using HS.
    intros HD. pose proof HD as []. unfold lptq_remove.
    assert (HC : forall s', qok ain 0 (lt_in s') (l_del id li) -> qok aout 0 (lt_out s') (l_del id lo) ->
       R (lt_am s') (mkAbs t (delete id m) AdmNone) -> lt_size s' = cap ->
       ltok s' (l_del id li) (l_del id lo) t (delete id m)).
    { intros s' H1 H2 H3 H4.
      pose proof (bytes_del_le _ _ _ _ id (Z.le_refl 0) lk_in0).
      pose proof (bytes_del_le _ _ _ _ id (Z.le_refl 0) lk_out0).
      pose proof (abs_ok_delete _ _ _ _ _ id lk_ok0) as Hok'.
      assert (msum 0 (delete id m) <= msum 0 m).
      { destruct (m !! id) as [e|] eqn:E; [|by rewrite delete_notin]. rewrite (msum_delete _ _ _ _ E).
        destruct lk_ok0 as (_ & Hy & _). pose proof (Hy _ _ E). lia. }
      assert (Hsub : forall j, is_Some (delete id m !! j) -> is_Some (m !! j)) by (intros j; rewrite lookup_delete_is_Some; tauto).
      split; try done; try lia; try (by apply allG_del).
      - eapply disj_sub; [apply del_sub|apply del_sub|done].
      - eapply apart_sub; [apply del_sub|]. by eapply apart_map.
      - eapply apart_sub; [apply del_sub|]. by eapply apart_map.
      - intros j e'. rewrite lookup_delete_Some. intros [_ ?]. eauto. }
    destruct (decide (id ∈ ids li)) as [Hi|Hi].
    { destruct (qok_remove_hit _ _ _ _ lk_in0 id ltac:(lia) Hi) as (i & -> & Hi'). cbn [rbind].
      rewrite bool_decide_eq_true_2 by (by left). eexists. split; [done|].
      apply HC; cbn; try done; [rewrite l_del_notin; [done|]; intros ?; by apply (lk_io0 id)|].
      by rewrite delete_notin by (by apply lk_im0). }
    rewrite (qok_remove_miss _ _ _ _ lk_in0 _ Hi). cbn [rbind].
    destruct (decide (id ∈ ids lo)) as [Ho|Ho].
    { destruct (qok_remove_hit _ _ _ _ lk_out0 id ltac:(lia) Ho) as (o & -> & Ho'). cbn [rbind].
      rewrite bool_decide_eq_true_2 by (by right; left). eexists. split; [done|].
      apply HC; cbn; try done; [by rewrite l_del_notin|]. by rewrite delete_notin by (by apply lk_om0). }
    rewrite (qok_remove_miss _ _ _ _ lk_out0 _ Ho). cbn [rbind].
    destruct (sim_remove _ _ _ _ _ _ HS _ _ _ _ id lk_ok0 lk_am0) as (am & -> & HR). cbn [rbind].
    eexists. split.
    { do 3 f_equal. apply bool_decide_ext. tauto. }
    apply HC; cbn; try done; by rewrite l_del_notin.
  Qed.

  (** A whole get. *)
  Lemma lk_get s li lo t m r fuel : ltok s li lo t m -> req_ok 0 r -> G (r_id r) (r_size r) ->
    (length li + size m <= fuel)%nat ->
    exists s' li' lo' t' m', cache_get_base OO fuel s r =
        Ok (s', bool_decide (r_id r ∈ ids li \/ is_Some (m !! r_id r))) /\
      ltok s' li' lo' t' m' /\ (length li' + size m' <= length li + size m + 1)%nat /\
      ((r_id r ∈ ids li \/ is_Some (m !! r_id r)) -> li' = li /\ lo' = lo /\ (forall id, is_Some (m' !! id) <-> is_Some (m !! id))) /\
      (~ (r_id r ∈ ids li \/ is_Some (m !! r_id r)) -> ain < r_size r -> li' = li /\ m' = m) /\
      (~ (r_id r ∈ ids li \/ is_Some (m !! r_id r)) -> r_size r <= ain ->
         r_id r ∉ ids lo' /\
         if decide (r_id r ∈ ids lo) then
           (exists d, li = li' ++ d) /\ is_Some (m' !! r_id r) /\ (forall id, id <> r_id r -> is_Some (m' !! id) -> is_Some (m !! id))
         else (exists l1 d, li' = (r_id r, obj_of_req r) :: l1 /\ li = l1 ++ d) /\ m' ⊆ m).
  Proof using HS Hain Haout Hcap.
    intros H Hr HGr Hf. unfold cache_get_base. pose proof Hr as [Hr1 Hr2].
    assert (HT : ltok (op_tick OO s) li lo t m) by (destruct H; by split).
    cbn [op_find lptq_ops].
    destruct (lk_find_true _ _ _ _ _ r HT) as (s1 & b & lo1 & t1 & m1 & -> & H1 & -> & Hids & Hlen & Hby & HF & HTr).
    cbn [rbind]. destruct (bool_decide _) eqn:Eb.
    - apply bool_decide_eq_true in Eb. destruct (HTr eq_refl) as (-> & _).
      exists s1, li, lo, t1, m1. split_and!; try done. lia.
    - apply bool_decide_eq_false in Eb. destruct (HF eq_refl) as (-> & -> & -> & Hg).
      cbn [op_can_insert lptq_ops]. unfold lptq_can_insert.
      assert (Hq : q_size (lt_in s1) = ain) by (apply (lk_in _ _ _ _ _ H1)). rewrite Hq.
      cbn [rbind]. destruct (bool_decide (r_size r <= ain)) eqn:Es.
      + apply bool_decide_eq_true in Es.
        assert (Hi : r_id r ∉ ids li) by tauto.
        assert (Hm : m !! r_id r = None) by (apply eq_None_not_Some; tauto).
        assert (Ho : r_id r ∉ ids (l_del (r_id r) lo)) by (rewrite elem_ids_del; tauto).
        destruct (lk_loop r ltac:(lia) _ s1 li _ t m fuel (le_n _) Hf H1 Hi Ho)
          as (s2 & li2 & lo2 & m2 & -> & H2 & Hc & Hg2 & Ho2 & Hl2 & (d1 & Hd1) & Hd2 & _).
        cbn [rbind op_insert lptq_ops].
        assert (Hi2 : r_id r ∉ ids li2) by (intros ?; apply Hi; rewrite Hd1, ids_app; apply elem_of_app; by left).
        assert (Hm2 : m2 !! r_id r = None) by (by eapply lookup_weaken_None).
        destruct (lk_insert s2 li2 lo2 t m2 r H2 Hr HGr Es Hi2 Ho2 Hm2 Hc) as (s3 & li3 & t3 & m3 & -> & H3 & Hcase).
        cbn [rbind]. exists s3, li3, lo2, t3, m3. split_and!; try done.
        * rewrite Hg2, Hg in Hcase. destruct (bool_decide _).
          -- destruct Hcase as (-> & m4 & He & ->). destruct (evict_to_size pol cap ain _ _ _ He) as [Hsub Hle].
             rewrite map_size_insert_None by (by eapply lookup_weaken_None). lia.
          -- destruct Hcase as [-> ->]. cbn. lia.
        * intros _ ?. lia.
        * intros _ _. split; [done|]. rewrite Hg2, Hg in Hcase. destruct (decide (r_id r ∈ ids lo)) as [Hlo|Hlo].
          -- rewrite bool_decide_eq_true_2 in Hcase by done. destruct Hcase as (-> & m4 & He & ->).
             destruct (evict_to_size pol cap ain _ _ _ He) as [Hsub Hle].
             split; [by exists d1|]. split; [rewrite lookup_insert; eauto|].
             intros id Hne. rewrite lookup_insert_ne by done. intros [e He']. exists e.
             eapply lookup_weaken; [|exact Hd2]. by eapply lookup_weaken.
          -- rewrite bool_decide_eq_false_2 in Hcase by done. destruct Hcase as [-> ->].
             split; [exists li2, d1; done|done].
      + apply bool_decide_eq_false in Es. exists s1, li, (l_del (r_id r) lo), t, m. split_and!; try done; try lia.
  Qed.

  Lemma lk_init main0 : R main0 (abs_init AdmNone) -> ltok (lptq_init cap ain aout main0) [] [] 0 ∅.
  Proof using Hain Haout Hcap.
    intros HR. split; cbn; try done.
    - by apply qok_init.
    - by apply qok_init.
    - unfold abs_ok. cbn. rewrite msum_empty. split_and!; try lia; intros *; by rewrite lookup_empty.
    - intros id Hid. by apply elem_of_nil in Hid.
    - rewrite msum_empty. lia.
    - constructor.
    - constructor.
  Qed.
End LPTwoQ.
