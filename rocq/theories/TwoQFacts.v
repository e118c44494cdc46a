(** What every operation of the 2Q model does to the three queues, and the
    invariant that all client programs preserve. *)
From stdpp Require Import gmap list numbers fin_maps.
From Verif Require Import Base Driver ModelQueue QueueFacts QList CompFacts ModelTwoQ.
Open Scope Z_scope.

Record tok (G : Z -> Z -> Prop) (amd cap ain aout : Z) (s : twoq) (li lo lm : qlist) : Prop := mkTok {
  tok_in  : qok ain 0 (t_in s) li;
  tok_out : qok aout 0 (t_out s) lo;
  tok_am  : qok (cap - ain) amd (t_am s) lm;
  tok_sz  : t_size s = cap;
  tok_io  : disj li lo;
  tok_im  : disj li lm;
  tok_om  : disj lo lm;
  tok_cap : bytes 0 li + bytes amd lm <= cap + amd;
  tok_ob  : bytes 0 lo <= aout;
  tok_mb  : bytes amd lm <= cap - ain;
  tok_gi  : allG G li;
  tok_go  : allG G lo;
  tok_gm  : allG G lm
}.

Section TwoQ.
  Context (G : Z -> Z -> Prop) (amd cap ain aout : Z).
  Context (Hamd : 0 <= amd) (Hain : 0 <= ain) (Haout : 0 <= aout) (Hcap : 2 * ain <= cap).

  Notation tok' := (tok G amd cap ain aout).

  Lemma tok_find_false s li lo lm r : tok' s li lo lm ->
    twoq_find s r false = Ok (s, bool_decide (r_id r ∈ ids li \/ r_id r ∈ ids lm)).
  Proof.
    intros H. unfold twoq_find. rewrite (qok_find_false _ _ _ _ (tok_in _ _ _ _ _ _ _ _ _ H)). cbn [rbind].
    destruct (bool_decide (r_id r ∈ ids li)) eqn:E.
    - apply bool_decide_eq_true in E. rewrite bool_decide_eq_true_2 by (by left). by destruct s.
    - apply bool_decide_eq_false in E. cbn [t_set_in t_am].
      rewrite (qok_lru_false _ _ _ _ (tok_am _ _ _ _ _ _ _ _ _ H)). cbn [rbind].
      destruct s. unfold t_set_am. cbn. do 2 f_equal. apply bool_decide_ext. tauto.
  Qed.

  Lemma tok_find_true s li lo lm r : tok' s li lo lm ->
    exists s' b lo' lm', twoq_find s r true = Ok (s', b) /\ tok' s' li lo' lm' /\
      b = bool_decide (r_id r ∈ ids li \/ r_id r ∈ ids lm) /\
      (forall id, id ∈ ids lm' <-> id ∈ ids lm) /\ length lm' = length lm /\
      bytes amd lm' = bytes amd lm /\
      (b = false -> lm' = lm /\ lo' = l_del (r_id r) lo /\
         t_ghost s' = bool_decide (r_id r ∈ ids lo)) /\
      (b = true -> lo' = lo /\ t_ghost s' = false /\
         ((r_id r ∈ ids li /\ lm' = lm) \/
          (exists o o', (r_id r, o) ∈ lm /\ o_size o' = o_size o /\ lm' = (r_id r, o') :: l_del (r_id r) lm))).
  Proof.
    intros []. unfold twoq_find. cbn [t_set_ghost t_in]. rewrite (qok_find_false _ _ _ _ tok_in0). cbn [rbind].
    destruct (bool_decide (r_id r ∈ ids li)) eqn:E.
    - apply bool_decide_eq_true in E. eexists _, true, lo, lm. split_and!; try done.
      + by rewrite bool_decide_eq_true_2 by (by left).
      + intros _. split_and!; try done. by left.
    - apply bool_decide_eq_false in E. cbn [t_set_in t_set_ghost t_out].
      destruct (decide (r_id r ∈ ids lo)) as [Ho|Ho].
      + destruct (qok_remove_hit _ _ _ _ tok_out0 (r_id r) ltac:(lia) Ho) as (o' & -> & Ho'). cbn [rbind].
        cbn [t_set_out t_set_in t_set_ghost t_am].
        assert (Hm : r_id r ∉ ids lm) by (intros ?; by apply (tok_om0 (r_id r))).
        rewrite (qok_lru_miss _ _ _ _ tok_am0 r true Hm). cbn [rbind].
        eexists _, false, (l_del (r_id r) lo), lm. split_and!; try done.
        * split; cbn; try done.
          -- eapply disj_sub; [done| |exact tok_io0]. intros ? Hx. by apply elem_ids_del in Hx as [? _].
          -- eapply disj_sub; [|done|exact tok_om0]. intros ? Hx. by apply elem_ids_del in Hx as [? _].
          -- pose proof Ho as (o & Ho2)%ids_elem. rewrite (bytes_del 0 _ o) by (try done; apply tok_out0).
             pose proof (qok_osz _ _ _ _ tok_out0) as Hosz. rewrite Forall_forall in Hosz.
             apply Hosz in Ho2 as [? _]. cbn in *. lia.
          -- by apply allG_del.
        * rewrite bool_decide_eq_false_2 by tauto. done.
        * intros _. split_and!; try done. cbn. by rewrite bool_decide_eq_true_2 by done.
      + rewrite (qok_remove_miss _ _ _ _ tok_out0 _ Ho). cbn [rbind].
        cbn [t_set_out t_set_in t_set_ghost t_am].
        destruct (decide (r_id r ∈ ids lm)) as [Hm|Hm].
        * destruct (qok_lru_hit _ _ _ _ r tok_am0 Hm) as (m' & o' & -> & (o & Ho2 & Heq) & Hm'). cbn [rbind].
          assert (Hsz : o_size o' = o_size o) by (by rewrite Heq).
          assert (Hids : forall id, id ∈ ids ((r_id r, o') :: l_del (r_id r) lm) <-> id ∈ ids lm).
          { intros id. change (ids (?x :: ?y)) with (x.1 :: ids y). rewrite elem_of_cons, elem_ids_del. cbn.
            destruct (decide (id = r_id r)) as [->|]; tauto. }
          assert (Hby : bytes amd ((r_id r, o') :: l_del (r_id r) lm) = bytes amd lm).
          { rewrite bytes_cons, (bytes_del _ _ o); [cbn; lia|apply tok_am0|done]. }
          eexists _, true, lo, ((r_id r, o') :: l_del (r_id r) lm). split_and!; try done.
          -- split; cbn [t_set_am t_set_out t_set_in t_set_ghost t_in t_out t_am t_size]; try done; try lia.
             ++ eapply disj_sub; [done| |exact tok_im0]. intros ?. apply Hids.
             ++ eapply disj_sub; [done| |exact tok_om0]. intros ?. apply Hids.
             ++ apply allG_cons; [|by apply allG_del]. cbn. rewrite Hsz. by apply (allG_elem _ _ _ _ tok_gm0).
          -- by rewrite bool_decide_eq_true_2 by (by right).
          -- cbn [length]. apply (length_del _ o); [apply tok_am0|done].
          -- intros _. split_and!; try done. right. by exists o, o'.
        * rewrite (qok_lru_miss _ _ _ _ tok_am0 r true Hm). cbn [rbind].
          eexists _, false, lo, lm. split_and!; try done.
          -- rewrite bool_decide_eq_false_2 by tauto. done.
          -- intros _. split_and!; [done|symmetry; by apply l_del_notin|]. cbn.
             by rewrite bool_decide_eq_false_2 by done.
  Qed.

  (** What leaves: the oldest of Ain if Ain is over its size, else the least
      recently used of Am; with an empty Am the code crashes. *)
  Lemma tok_evict s li lo lm r : tok' s li lo lm ->
    (bytes 0 li > ain /\ exists s' li' v o lo', li = li' ++ [(v, o)] /\
       twoq_evict s r = Ok s' /\ tok' s' li' lo' lm /\ t_ghost s' = t_ghost s /\
       (forall id, id ∈ ids lo' -> id = v \/ id ∈ ids lo) /\
       (o_size o <= aout -> v ∈ ids lo')) \/
    (bytes 0 li <= ain /\ exists s' lm' v o, lm = lm' ++ [(v, o)] /\
       twoq_evict s r = Ok s' /\ tok' s' li lo lm' /\ t_ghost s' = t_ghost s) \/
    (bytes 0 li <= ain /\ lm = [] /\ twoq_evict s r = Err NullDeref).
  Proof.
    intros H. pose proof H as []. unfold twoq_evict. unfold q_occ, q_size.
    rewrite (qok_occ _ _ _ _ tok_in0), (qok_size _ _ _ _ tok_in0).
    destruct (decide (bytes 0 li > ain)) as [Hgt|Hle].
    - left. split; [done|]. destruct li as [|[v o] li' _] using rev_ind; [cbn in Hgt; lia|].
      rewrite (qok_to_evict _ _ _ _ _ _ r tok_in0). cbn [rbind].
      assert (Hin : (v, o) ∈ li' ++ [(v, o)]) by (apply elem_of_app; right; left).
      rewrite (proj2 (qok_lookup _ _ _ _ tok_in0 v o) Hin).
      pose proof (qok_osz _ _ _ _ tok_in0) as Hosz. rewrite Forall_forall in Hosz.
      pose proof (Hosz _ Hin) as [Hs1 Hs2]. cbn in Hs1, Hs2.
      assert (Hv : v ∈ ids (li' ++ [(v, o)])) by (apply ids_elem; eauto).
      assert (Hvo : v ∉ ids lo) by (intros ?; by apply (tok_io0 v)).
      assert (Hvm : v ∉ ids lm) by (intros ?; by apply (tok_im0 v)).
      pose proof (NoDup_ids_mid li' v o [] (qok_nd _ _ _ _ tok_in0)) as (Hvi & _ & _).
      assert (Hli : forall id, id ∈ ids li' -> id ∈ ids (li' ++ [(v, o)])).
      { intros id ?. rewrite ids_app. apply elem_of_app. by left. }
      unfold sub_get. cbn [op_nobj fifo_ops].
      destruct (fifo_get_miss _ _ _ _ (req_of_obj v o) _ (Z.le_refl 0) tok_out0
                  ltac:(split; cbn; lia) Hvo (subget_fuel _ _ _ _ tok_out0)) as (g & lo' & -> & Hg & Hl).
      cbn [rbind]. destruct (qok_evict _ _ _ _ _ _ r (Z.le_refl 0) tok_in0) as (i' & -> & Hi'). cbn [rbind].
      assert (Hsub : forall id, id ∈ ids lo' -> id = v \/ id ∈ ids lo).
      { intros id Hid. destruct (decide _).
        - destruct Hl as (l1 & Hf & ->). cbn [r_id req_of_obj] in Hid. change (ids (?x :: ?y)) with (x.1 :: ids y) in Hid.
          apply elem_of_cons in Hid as [->|Hid]; [by left|]. right. by apply (fits_ids _ _ _ _ _ Hf).
        - subst. by right. }
      eexists _, li', v, o, lo'. split_and!; try done.
      + rewrite bytes_app, bytes_cons in tok_cap0. cbn in tok_cap0.
        split; cbn [t_set_in t_set_out t_in t_out t_am t_size]; try done.
        * intros id H1 [->|H2]%Hsub; [done|]. apply (tok_io0 id); auto.
        * eapply disj_sub; [exact Hli|done|exact tok_im0].
        * intros id [->|H1]%Hsub H2; [done|]. by apply (tok_om0 id).
        * lia.
        * destruct (decide _) as [Hfit|]; [|by subst].
          destruct Hl as (l1 & (l2 & _ & Hb & _) & ->). rewrite bytes_cons. cbn in *.
          unfold u32. rewrite Z.mod_small by lia. lia.
        * by apply allG_app in tok_gi0 as [? _].
        * apply allG_app in tok_gi0 as [_ Hgv]. destruct (decide _); [|by subst].
          destruct Hl as (l1 & Hf & ->). apply allG_cons; [|by eapply allG_fits].
          cbn [fst snd]. rewrite (o_size_of_req _ 0); [|split; cbn; lia|lia]. cbn. apply (allG_elem _ _ _ _ Hgv). left.
      + intros Ho. cbn [r_size req_of_obj] in Hl. rewrite decide_True in Hl by lia.
        destruct Hl as (l1 & _ & ->). by left.
    - right. destruct lm as [|[v o] lm' _] using rev_ind.
      + right. split_and!; [lia|done|]. by rewrite (qok_evict_nil _ _ _ r tok_am0).
      + left. split; [lia|]. destruct (qok_evict _ _ _ _ _ _ r Hamd tok_am0) as (m' & -> & Hm'). cbn [rbind].
        eexists _, lm', v, o. split_and!; try done.
        pose proof (qok_osz _ _ _ _ tok_am0) as Hosz. rewrite Forall_forall in Hosz.
        assert (Hin : (v, o) ∈ lm' ++ [(v, o)]) by (apply elem_of_app; right; left).
        pose proof (Hosz _ Hin) as [Hs1 Hs2]. cbn in Hs1, Hs2.
        rewrite bytes_app, bytes_cons in tok_cap0, tok_mb0. cbn in tok_cap0, tok_mb0.
        assert (Hsub : forall id, id ∈ ids lm' -> id ∈ ids (lm' ++ [(v, o)])).
        { intros id ?. rewrite ids_app. apply elem_of_app. by left. }
        split; cbn [t_set_am t_in t_out t_am t_size]; try done; try lia.
        * eapply disj_sub; [done|exact Hsub|exact tok_im0].
        * eapply disj_sub; [done|exact Hsub|exact tok_om0].
        * by apply allG_app in tok_gm0 as [? _].
  Qed.

  (** The eviction loop of a get for an object that 2Q agrees to cache. *)
  Lemma tok_loop r : 0 <= r_size r <= ain -> forall n s li lo lm fuel,
    (length li + length lm <= n)%nat -> (n <= fuel)%nat -> tok' s li lo lm ->
    r_id r ∉ ids li -> r_id r ∉ ids lo -> r_id r ∉ ids lm ->
    exists s' li' lo' lm', evict_loop twoq_ops fuel s r = Ok s' /\ tok' s' li' lo' lm' /\
      bytes 0 li' + bytes amd lm' + r_size r <= cap /\ t_ghost s' = t_ghost s /\
      r_id r ∉ ids lo' /\ (length li' + length lm' <= n)%nat /\
      (exists d, li = li' ++ d) /\ (exists d, lm = lm' ++ d) /\
      (bytes 0 li + bytes amd lm + r_size r <= cap -> s' = s).
  Proof.
    intros Hr n. induction n as [|n IH]; intros s li lo lm fuel Hn Hf H Hi Ho Hm.
    - assert (li = [] /\ lm = []) as [-> ->] by (destruct li, lm; cbn in Hn; try lia; done).
      pose proof H as []. exists s, [], lo, []. split_and!; try done; try (by exists []).
      + assert (op_occupied twoq_ops s + r_size r + op_md twoq_ops s <= op_size twoq_ops s).
        { cbn. unfold q_occ. rewrite (qok_occ _ _ _ _ tok_in0), (qok_occ _ _ _ _ tok_am0), tok_sz0. cbn. lia. }
        destruct fuel; cbn [evict_loop]; by rewrite decide_False by lia.
      + cbn. lia.
    - destruct fuel as [|fuel]; [lia|]. cbn [evict_loop].
      assert (Hocc : op_occupied twoq_ops s + r_size r + op_md twoq_ops s = bytes 0 li + bytes amd lm + r_size r
                     /\ op_size twoq_ops s = cap).
      { pose proof H as []. cbn. unfold q_occ. rewrite (qok_occ _ _ _ _ tok_in0), (qok_occ _ _ _ _ tok_am0). by split; [lia|]. }
      destruct Hocc as [Hocc Hsz]. destruct (decide _) as [Hgt|Hle].
      + cbn [op_evict twoq_ops].
        destruct (tok_evict s li lo lm r H) as [(Hb & s1 & li1 & v & o & lo1 & -> & -> & H1 & Hg & Hlo & _)|
           [(Hb & s1 & lm1 & v & o & -> & -> & H1 & Hg)|(Hb & -> & _)]].
        * cbn [rbind]. rewrite app_length in Hn. cbn in Hn. rewrite ids_app in Hi.
          assert (Hi1 : r_id r ∉ ids li1) by (intros ?; apply Hi, elem_of_app; by left).
          assert (Hne : r_id r <> v) by (intros <-; apply Hi, elem_of_app; right; left).
          assert (Ho1 : r_id r ∉ ids lo1) by (intros [?|?]%Hlo; done).
          destruct (IH s1 li1 lo1 lm fuel ltac:(lia) ltac:(lia) H1 Hi1 Ho1 Hm)
            as (s' & li' & lo' & lm' & -> & H' & Hc & Hg' & Ho' & Hl' & (d & ->) & Hd & _).
          exists s', li', lo', lm'. split_and!; try done; [congruence|lia| |lia].
          exists (d ++ [(v, o)]). by rewrite app_assoc.
        * cbn [rbind]. rewrite app_length in Hn. cbn in Hn. rewrite ids_app in Hm.
          assert (Hm1 : r_id r ∉ ids lm1) by (intros ?; apply Hm, elem_of_app; by left).
          destruct (IH s1 li lo lm1 fuel ltac:(lia) ltac:(lia) H1 Hi Ho Hm1)
            as (s' & li' & lo' & lm' & -> & H' & Hc & Hg' & Ho' & Hl' & Hd & (d & ->) & _).
          exists s', li', lo', lm'. split_and!; try done; [congruence|lia| |lia].
          exists (d ++ [(v, o)]). by rewrite app_assoc.
        * exfalso. change (bytes amd []) with 0 in Hocc. lia.
      + exists s, li, lo, lm. split_and!; try done; try lia; try (by exists []; rewrite app_nil_r).
  Qed.

  Lemma tok_insert s li lo lm r : tok' s li lo lm -> req_ok amd r -> G (r_id r) (r_size r) ->
    r_id r ∉ ids li -> r_id r ∉ ids lo -> r_id r ∉ ids lm ->
    bytes 0 li + bytes amd lm + r_size r <= cap ->
    exists s' li' lm', twoq_insert s r = Ok s' /\ tok' s' li' lo lm' /\
      (if t_ghost s then li' = li /\
         (if decide (r_size r + amd <= cap - ain)
          then exists l1, fits (cap - ain) amd (r_size r + amd) l1 lm /\ lm' = (r_id r, obj_of_req r) :: l1
          else lm' = lm)
       else li' = (r_id r, obj_of_req r) :: li /\ lm' = lm).
  Proof.
    intros [] Hr HGr Hi Ho Hm Hc. pose proof Hr as [Hr1 Hr2]. unfold twoq_insert. destruct (t_ghost s).
    - unfold sub_get. cbn [op_nobj lru_ops t_set_ghost t_am].
      destruct (lru_get_miss _ _ _ _ r _ Hamd tok_am0 Hr Hm (subget_fuel _ _ _ _ tok_am0)) as (m & lm' & -> & Hm' & Hl).
      cbn [rbind]. eexists _, li, lm'. split; [done|]. split; [|by split].
      destruct (decide _) as [Hfit|Hfit].
      + destruct Hl as (l1 & Hf & ->). pose proof (fits_ids _ _ _ _ _ Hf) as Hsub. destruct Hf as (l2 & -> & Hb & _).
        split; cbn [t_set_am t_set_ghost t_in t_out t_am t_size]; try done.
        * intros id H1 [->|H2]%elem_of_cons; [done|]. by apply (tok_im0 id), Hsub.
        * intros id H1 [->|H2]%elem_of_cons; [done|]. by apply (tok_om0 id), Hsub.
        * pose proof (qok_osz _ _ _ _ tok_am0) as Hosz. apply Forall_app in Hosz as [_ Hosz].
          pose proof (bytes_nonneg amd l2 Hamd Hosz).
          rewrite bytes_app in Hc. rewrite bytes_cons. cbn. unfold u32. rewrite Z.mod_small by lia. lia.
        * rewrite bytes_cons. cbn. unfold u32. rewrite Z.mod_small by lia. lia.
        * apply allG_cons; [|by apply allG_app in tok_gm0 as [? _]]. cbn [fst snd]; by rewrite (o_size_of_req _ _ Hr Hamd).
      + subst lm'. by split.
    - destruct (qok_insert _ _ _ _ tok_in0 r Hi ltac:(split; lia) ltac:(lia)) as (i & -> & Hi'). cbn [rbind].
      eexists _, _, lm. split; [done|]. split; [|by split].
      split; cbn [t_set_in t_in t_out t_am t_size]; try done.
      + intros id [->|H1]%elem_of_cons H2; [done|]. by apply (tok_io0 id).
      + intros id [->|H1]%elem_of_cons H2; [done|]. by apply (tok_im0 id).
      + rewrite bytes_cons. cbn. unfold u32. rewrite Z.mod_small by lia. lia.
      + apply allG_cons; [|done]. cbn [fst snd]; by rewrite (o_size_of_req _ _ Hr Hamd).
  Qed.

  (** TwoQ_remove: the id is gone from all three queues. *)
  Lemma tok_remove s li lo lm id : tok' s li lo lm ->
    exists s', twoq_remove s id = Ok (s', bool_decide (id ∈ ids li \/ id ∈ ids lo \/ id ∈ ids lm)) /\
      tok' s' (l_del id li) (l_del id lo) (l_del id lm).
  Proof.
    intros H. pose proof H as []. unfold twoq_remove.
    assert (HC : forall s', qok ain 0 (t_in s') (l_del id li) -> qok aout 0 (t_out s') (l_del id lo) ->
       qok (cap - ain) amd (t_am s') (l_del id lm) -> t_size s' = cap ->
       tok' s' (l_del id li) (l_del id lo) (l_del id lm)).
    { intros s' H1 H2 H3 H4.
      pose proof (bytes_del_le _ _ _ _ id (Z.le_refl 0) tok_in0).
      pose proof (bytes_del_le _ _ _ _ id (Z.le_refl 0) tok_out0).
      pose proof (bytes_del_le _ _ _ _ id Hamd tok_am0).
      split; try done; try lia; try (by apply allG_del); (eapply disj_sub; [apply del_sub|apply del_sub|done]). }
    destruct (decide (id ∈ ids li)) as [Hi|Hi].
    { destruct (qok_remove_hit _ _ _ _ tok_in0 id ltac:(lia) Hi) as (i & -> & Hi'). cbn [rbind].
      rewrite bool_decide_eq_true_2 by (by left). eexists. split; [done|].
      apply HC; cbn; try done; rewrite l_del_notin; try done; intros ?; [by apply (tok_io0 id)|by apply (tok_im0 id)]. }
    rewrite (qok_remove_miss _ _ _ _ tok_in0 _ Hi). cbn [rbind t_set_in t_out].
    destruct (decide (id ∈ ids lo)) as [Ho|Ho].
    { destruct (qok_remove_hit _ _ _ _ tok_out0 id ltac:(lia) Ho) as (o & -> & Ho'). cbn [rbind].
      rewrite bool_decide_eq_true_2 by (by right; left). eexists. split; [done|].
      apply HC; cbn; try done; rewrite l_del_notin; try done; intros ?; by apply (tok_om0 id). }
    rewrite (qok_remove_miss _ _ _ _ tok_out0 _ Ho). cbn [rbind t_set_in t_set_out t_am].
    destruct (decide (id ∈ ids lm)) as [Hm|Hm].
    { destruct (qok_remove_hit _ _ _ _ tok_am0 id Hamd Hm) as (m & -> & Hm'). cbn [rbind].
      rewrite bool_decide_eq_true_2 by (by right; right). eexists. split; [done|].
      apply HC; cbn; try done; by rewrite l_del_notin. }
    rewrite (qok_remove_miss _ _ _ _ tok_am0 _ Hm). cbn [rbind].
    rewrite bool_decide_eq_false_2 by tauto. eexists. split; [done|].
    apply HC; cbn; try done; by rewrite l_del_notin.
  Qed.

  (** A whole get. *)
  Lemma tok_get s li lo lm r fuel : tok' s li lo lm -> req_ok amd r -> G (r_id r) (r_size r) ->
    (length li + length lm <= fuel)%nat ->
    exists s' li' lo' lm', cache_get_base twoq_ops fuel s r =
        Ok (s', bool_decide (r_id r ∈ ids li \/ r_id r ∈ ids lm)) /\
      tok' s' li' lo' lm' /\ (length li' + length lm' <= length li + length lm + 1)%nat /\
      ((r_id r ∈ ids li \/ r_id r ∈ ids lm) -> li' = li /\ lo' = lo /\
         (forall id, id ∈ ids lm' <-> id ∈ ids lm) /\ bytes amd lm' = bytes amd lm /\ length lm' = length lm) /\
      (~ (r_id r ∈ ids li \/ r_id r ∈ ids lm) -> ain < r_size r ->
         li' = li /\ lm' = lm) /\
      (~ (r_id r ∈ ids li \/ r_id r ∈ ids lm) -> r_size r <= ain ->
         r_id r ∉ ids lo' /\
         if decide (r_id r ∈ ids lo) then
           (exists d, li = li' ++ d) /\
           (if decide (r_size r + amd <= cap - ain)
            then exists l1 d, lm' = (r_id r, obj_of_req r) :: l1 /\ lm = l1 ++ d
            else exists d, lm = lm' ++ d)
         else (exists l1 d, li' = (r_id r, obj_of_req r) :: l1 /\ li = l1 ++ d) /\ (exists d, lm = lm' ++ d)).
  Proof.
    intros H Hr HGr Hf. unfold cache_get_base. pose proof Hr as [Hr1 Hr2].
    assert (HT : tok' (op_tick twoq_ops s) li lo lm) by (destruct H; by split).
    cbn [op_find twoq_ops].
    destruct (tok_find_true _ _ _ _ r HT) as (s1 & b & lo1 & lm1 & -> & H1 & -> & Hids & Hlen & Hby & HF & HTr).
    cbn [rbind]. destruct (bool_decide _) eqn:Eb.
    - apply bool_decide_eq_true in Eb. destruct (HTr eq_refl) as (-> & _ & _).
      exists s1, li, lo, lm1. split_and!; try done. lia.
    - apply bool_decide_eq_false in Eb. destruct (HF eq_refl) as (-> & -> & Hg).
      cbn [op_can_insert twoq_ops twoq_can_insert rbind].
      assert (Hq : q_size (t_in s1) = ain) by (apply (tok_in _ _ _ _ _ _ _ _ _ H1)). unfold twoq_can_insert. rewrite Hq.
      cbn [rbind]. destruct (bool_decide (r_size r <= ain)) eqn:Es.
      + apply bool_decide_eq_true in Es.
        assert (Hi : r_id r ∉ ids li) by tauto. assert (Hm : r_id r ∉ ids lm) by tauto.
        assert (Ho : r_id r ∉ ids (l_del (r_id r) lo)) by (rewrite elem_ids_del; tauto).
        destruct (tok_loop r ltac:(lia) _ s1 li _ lm fuel (le_n _) Hf H1 Hi Ho Hm)
          as (s2 & li2 & lo2 & lm2 & -> & H2 & Hc & Hg2 & Ho2 & Hl2 & (d1 & Hd1) & (d2 & Hd2) & _).
        cbn [rbind op_insert twoq_ops].
        assert (Hi2 : r_id r ∉ ids li2) by (intros ?; apply Hi; rewrite Hd1, ids_app; apply elem_of_app; by left).
        assert (Hm2 : r_id r ∉ ids lm2) by (intros ?; apply Hm; rewrite Hd2, ids_app; apply elem_of_app; by left).
        destruct (tok_insert s2 li2 lo2 lm2 r H2 Hr HGr Hi2 Ho2 Hm2 Hc) as (s3 & li3 & lm3 & -> & H3 & Hcase).
        cbn [rbind]. exists s3, li3, lo2, lm3. split_and!; try done.
        * rewrite Hg2, Hg in Hcase. destruct (bool_decide _).
          -- destruct Hcase as [-> Hcase]. destruct (decide _).
             ++ destruct Hcase as (l1 & Hfit & ->). apply fits_length in Hfit. cbn. lia.
             ++ subst. lia.
          -- destruct Hcase as [-> ->]. cbn. lia.
        * intros _ ?. lia.
        * intros _ _. split; [done|]. rewrite Hg2, Hg in Hcase. destruct (decide (r_id r ∈ ids lo)) as [Hlo|Hlo].
          -- rewrite bool_decide_eq_true_2 in Hcase by done. destruct Hcase as [-> Hcase].
             split; [by exists d1|]. destruct (decide (r_size r + amd <= cap - ain)).
             ++ destruct Hcase as (l1 & (l2 & -> & _ & _) & ->). exists l1, (l2 ++ d2). by rewrite app_assoc.
             ++ subst lm3. by exists d2.
          -- rewrite bool_decide_eq_false_2 in Hcase by done. destruct Hcase as [-> ->].
             split; [exists li2, d1; done|by exists d2].
      + apply bool_decide_eq_false in Es. exists s1, li, (l_del (r_id r) lo), lm. split_and!; try done; try lia.
  Qed.

  Lemma tok_init (cmd : bool) : amd = (if cmd then 16 else 0) -> tok' (twoq_init cmd cap ain aout) [] [] [].
  Proof.
    intros ->. split; cbn; try done; try lia; try (destruct cmd; lia); try (intros ? ? ?; by eapply elem_of_nil);
      try (by apply Forall_nil_2).
    - apply qok_init.
    - apply qok_init.
    - unfold lru_init. destruct cmd; apply qok_init.
  Qed.
End TwoQ.
