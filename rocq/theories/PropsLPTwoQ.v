(** C76: LP_TwoQ (2Q whose main queue is a Clock; CLI name lp-twoq) keeps Ain,
    Aout and Am disjoint and within their sizes, never holds more than the cache
    size, promotes to Am exactly on a ghost hit, and every program of gets, finds
    and removes runs to completion.  What does not hold is refuted below. *)
From stdpp Require Import gmap list numbers fin_maps.
From Verif Require Import Base Driver Abs AbsFacts Sim ModelQueue QueueFacts SimQueue ClockFacts SimClock
  QList SpecApi SpecComp CompFacts ModelTwoQ ModelQDLP QDLPFacts PropsQDLP ModelLPTwoQ LPTwoQFacts.
Open Scope Z_scope.

(** Membership of an id in one of the three queues: the lookup of that queue. *)
Definition lt_in_ain {M} (s : lptq M) (id : Z) : Prop := resident fifo_ops (lt_in s) id.
Definition lt_in_aout {M} (s : lptq M) (id : Z) : Prop := resident fifo_ops (lt_out s) id.
Definition lt_in_am {M} (O : ops M) (s : lptq M) (id : Z) : Prop := resident O (lt_am s) id.

Lemma size_del_le (m : gmap Z entry) id : (size (delete id m) <= size m)%nat.
Proof. rewrite map_size_delete. destruct (m !! id); cbn; lia. Qed.

Section Props.
  Context {M : Type} (pol : policy) (O : ops M) (R : M -> abs -> Prop) (main0 : M).
  Context (cap ain aout : Z) (G : Z -> Z -> Prop).
  (** Ain takes at most half of the cache (the default is a quarter). *)
  Context (Hain : 0 <= ain) (Haout : 0 <= aout) (Hcap : 2 * ain <= cap).
  Context (HS : simulation pol O (cap - ain) 0 (req_ok 0) R) (HR0 : R main0 (abs_init AdmNone)).
  (** What the main cache does when asked to evict while empty: Clock follows a
      null pointer. *)
  Context (HE : forall ms t r, R ms (mkAbs t ∅ AdmNone) -> op_evict O ms r = Err NullDeref).
  Notation OO := (lptq_ops O).
  Notation s0 := (lptq_init cap ain aout main0).
  Notation ok := (ltok R G cap ain aout).

  Lemma lp_in s li lo t m : ok s li lo t m -> (forall id, lt_in_ain s id <-> id ∈ ids li) /\
    (forall id, lt_in_aout s id <-> id ∈ ids lo) /\ (forall id, lt_in_am O s id <-> is_Some (m !! id)).
  Proof using HS.
    intros []. unfold lt_in_ain, lt_in_aout, lt_in_am. split_and!.
    - apply (in_q fifo_ops _ _ _ _ lk_in). by left.
    - apply (in_q fifo_ops _ _ _ _ lk_out). by left.
    - intros id. unfold resident. split.
      + intros HR. destruct (HR (mkReq id 0 0 0 0) eq_refl) as (s' & Hf).
        rewrite (sim_find_false _ _ _ _ _ _ HS _ _ _ lk_am) in Hf. injection Hf as _ Hf. by apply bool_decide_eq_true in Hf.
      + intros Hid r <-. exists (lt_am s). rewrite (sim_find_false _ _ _ _ _ _ HS _ _ _ lk_am). cbn.
        by rewrite bool_decide_eq_true_2.
  Qed.

  Lemma lp_res s li lo t m : ok s li lo t m ->
    (forall id, resident OO s id <-> id ∈ ids li \/ is_Some (m !! id)) /\
    (forall id, absent OO s id <-> ~ (id ∈ ids li \/ is_Some (m !! id))).
  Proof using HS.
    intros HD. unfold resident, absent. cbn [op_find lptq_ops].
    assert (HF : forall r, lptq_find O s r false = Ok (s, bool_decide (r_id r ∈ ids li \/ is_Some (m !! r_id r))))
      by (intros r; eapply lk_find_false; [exact HS|exact HD]).
    split; intros id; split.
    - intros HR. destruct (HR (mkReq id 0 0 0 0) eq_refl) as (s' & Hf). rewrite HF in Hf.
      injection Hf as _ Hf. by apply bool_decide_eq_true in Hf.
    - intros Hid r <-. exists s. rewrite HF. by rewrite bool_decide_eq_true_2.
    - intros HR. destruct (HR (mkReq id 0 0 0 0) eq_refl) as (s' & Hf). rewrite HF in Hf.
      injection Hf as _ Hf. by apply bool_decide_eq_false in Hf.
    - intros Hid r <-. exists s. rewrite HF. by rewrite bool_decide_eq_false_2.
  Qed.

  Lemma lp_nobj s li lo t m : ok s li lo t m ->
    op_nobj OO s = Z.of_nat (length li + size m) /\ op_occupied OO s = bytes 0 li + msum 0 m.
  Proof using HS.
    intros []. cbn. unfold q_nobj, q_occ. rewrite (qok_nobj _ _ _ _ lk_in), (sim_nobj _ _ _ _ _ _ HS _ _ lk_am).
    rewrite (qok_occ _ _ _ _ lk_in), (sim_occ _ _ _ _ _ _ HS _ _ lk_am). cbn [a_m]. split; lia.
  Qed.

  Lemma lp_step s li lo t m fuel c : ok s li lo t m -> comp_call G 0 c ->
    (length li + size m <= fuel)%nat ->
    (exists s' o li' lo' t' m', step OO fuel s c = Ok (s', o) /\ ok s' li' lo' t' m' /\
       (length li' + size m' <= length li + size m + 1)%nat) \/
    ((exists r, c = CEvict r) /\ step OO fuel s c = Err NullDeref).
  Proof using HS Hain Haout Hcap HE.
    intros H Hc Hf. destruct c as [r|r u|r|id|r|r]; cbn [comp_call] in Hc; try done; cbn [step].
    - destruct Hc as [Hr HG]. left.
      destruct (lk_get pol O R G cap ain aout Hain Haout Hcap HS s li lo t m r fuel H Hr HG Hf)
        as (s' & li' & lo' & t' & m' & -> & H' & Hl & _). cbn [rbind].
      eexists s', _, li', lo', t', m'. split_and!; done.
    - left. cbn [op_find lptq_ops]. destruct u.
      + destruct (lk_find_true pol O R G cap ain aout HS s li lo t m r H) as (s' & b & lo' & t' & m' & -> & H' & _ & _ & Hl & _).
        cbn [rbind]. eexists s', _, li, lo', t', m'. split_and!; try done. lia.
      + rewrite (lk_find_false pol O R G cap ain aout HS _ _ _ _ _ _ H). cbn [rbind].
        eexists s, _, li, lo, t, m. split_and!; try done. lia.
    - left. cbn [op_remove lptq_ops].
      destruct (lk_remove pol O R G cap ain aout HS s li lo t m id H) as (s' & -> & H'). cbn [rbind].
      eexists s', _, _, _, _, _. split_and!; try done. pose proof (length_del_le id li).
      assert (size (delete id m) <= size m)%nat; [|lia]. apply size_del_le.
    - destruct (decide (op_nobj OO s <= 0)).
      { left. eexists s, _, li, lo, t, m. split_and!; try done. lia. }
      cbn [op_evict lptq_ops].
      destruct (lk_evict pol O R G cap ain aout Hain Haout Hcap HS s li lo t m r H)
        as [(Hb & s1 & li1 & v & o & lo1 & -> & -> & H1 & _)|[(Hb & Hne & s1 & v & Hv & _ & _ & -> & H1 & _)|(Hb & -> & ->)]].
      + left. cbn [rbind]. eexists s1, _, li1, lo1, t, m. split_and!; try done. rewrite app_length. lia.
      + left. cbn [rbind]. eexists s1, _, li, lo, t, _. split_and!; try done.
        assert (size (delete v m) <= size m)%nat; [|lia]. apply size_del_le.
      + right. split; [by exists r|]. rewrite (HE _ _ _ (lk_am _ _ _ _ _ _ _ _ _ _ H)). done.
  Qed.

  Lemma lp_run cs : forall s li lo t m fuel, ok s li lo t m -> Forall (comp_call G 0) cs ->
    (length li + size m + length cs <= fuel)%nat ->
    (exists s' os li' lo' t' m', run OO fuel s cs = Ok (s', os) /\ ok s' li' lo' t' m' /\
       (length li' + size m' <= length li + size m + length cs)%nat) \/
    (Exists (fun c => exists r, c = CEvict r) cs /\ run OO fuel s cs = Err NullDeref).
  Proof using HS Hain Haout Hcap HE.
    induction cs as [|c cs IH]; intros s li lo t m fuel H Hc Hf.
    - left. eexists s, [], li, lo, t, m. split_and!; try done. cbn. lia.
    - apply Forall_cons in Hc as [Hc Hcs]. cbn [length] in Hf. cbn [run].
      destruct (lp_step s li lo t m fuel c H Hc ltac:(lia)) as [(s1 & o & li1 & lo1 & t1 & m1 & -> & H1 & Hl)|[He ->]].
      + cbn [rbind]. destruct (IH s1 li1 lo1 t1 m1 fuel H1 Hcs ltac:(lia))
          as [(s' & os & li' & lo' & t' & m' & -> & H' & Hl')|[He ->]].
        * left. cbn [rbind length]. eexists s', _, li', lo', t', m'. split_and!; try done. lia.
        * right. cbn [rbind]. split; [by apply Exists_cons_tl|done].
      + right. cbn [rbind]. split; [by apply Exists_cons_hd|done].
  Qed.

  Lemma lp_start : ok s0 [] [] 0 ∅.
  Proof using HS Hain Haout Hcap HR0. by apply (lk_init R G cap ain aout Hain Haout Hcap). Qed.

  Lemma lp_reach s : comp_reaches OO s0 (comp_call G 0) s -> exists li lo t m, ok s li lo t m.
  Proof using HS Hain Haout Hcap HR0 HE.
    intros (cs & fuel & os & Hcs & Hf & Hr).
    destruct (lp_run cs _ _ _ _ _ fuel lp_start Hcs) as [(s' & os' & li & lo & t & m & Hr' & H' & _)|[_ Hr']];
      [rewrite map_size_empty; cbn; lia| |]; rewrite Hr in Hr'; [|done]. injection Hr' as <- <-. by exists li, lo, t, m.
  Qed.

  (** Every program of gets, finds and removes completes. *)
  Theorem C76_completes_partial : forall cs fuel, Forall (comp_call_noevict G 0) cs -> (length cs <= fuel)%nat ->
    exists s os, run OO fuel s0 cs = Ok (s, os).
  Proof using HS Hain Haout Hcap HR0 HE.
    intros cs fuel Hcs Hf.
    destruct (lp_run cs _ _ _ _ _ fuel lp_start) as [(s' & os & _ & _ & _ & _ & Hr & _)|[He _]].
    - apply (Forall_impl _ _ _ Hcs). by intros c [? _].
    - rewrite map_size_empty. cbn. lia.
    - by exists s', os.
    - exfalso. apply Exists_exists in He as (c & Hc & r & ->). rewrite Forall_forall in Hcs.
      by apply Hcs in Hc as [_ ?].
  Qed.

  (** The three queues share no id; the bounds of the queues and of the whole;
      the counters are the number of resident objects and their bytes, every
      size being one the client asked for that id. *)
  Theorem C76_invariant : forall s, comp_reaches OO s0 (comp_call G 0) s ->
    (forall id, ~ (lt_in_ain s id /\ lt_in_aout s id)) /\
    (forall id, ~ (lt_in_ain s id /\ lt_in_am O s id)) /\
    (forall id, ~ (lt_in_aout s id /\ lt_in_am O s id)) /\
    (forall id, resident OO s id <-> lt_in_ain s id \/ lt_in_am O s id) /\
    0 <= op_occupied OO s <= cap /\
    op_occupied fifo_ops (lt_out s) <= aout /\
    op_occupied O (lt_am s) <= cap - ain /\
    exists L, ledger OO L G s /\ op_occupied OO s = total_bytes L.
  Proof using HS Hain Haout Hcap HR0 HE.
    intros s (li & lo & t & m & H)%lp_reach. pose proof (lp_in _ _ _ _ _ H) as (Hi & Ho & Hm).
    pose proof (lp_res _ _ _ _ _ H) as (HR & HA). pose proof (lp_nobj _ _ _ _ _ H) as (Hn & Hocc).
    pose proof (lk_mb R G cap ain aout _ _ _ _ _ H) as [Hmb Hib]. pose proof H as [].
    split_and!; try lia.
    - intros id. rewrite Hi, Ho. intros [? ?]. by apply (lk_io id).
    - intros id. rewrite Hi, Hm. intros [H1 [e H2]]. by rewrite (lk_im id H1) in H2.
    - intros id. rewrite Ho, Hm. intros [H1 [e H2]]. by rewrite (lk_om id H1) in H2.
    - intros id. by rewrite Hi, Hm.
    - cbn. unfold q_occ. by rewrite (qok_occ _ _ _ _ lk_out).
    - rewrite (sim_occ _ _ _ _ _ _ HS _ _ lk_am). cbn [a_m]. lia.
    - set (Lm := prod_map id e_size <$> map_to_list m).
      assert (Hids : Lm.*1 = (map_to_list m).*1).
      { unfold Lm. rewrite <- list_fmap_compose. by apply list_fmap_ext; intros ? []. }
      assert (Hin : forall id, is_Some (m !! id) <-> id ∈ (map_to_list m).*1).
      { intros id. rewrite elem_of_list_fmap. split.
        - intros [e He]. exists (id, e). split; [done|]. by apply elem_of_map_to_list.
        - intros ([j e] & -> & Hj). apply elem_of_map_to_list in Hj. eauto. }
      exists (szs li ++ Lm). split.
      + unfold ledger. rewrite fmap_app, szs_ids, Hids, app_length, szs_length. split_and!.
        * apply NoDup_app. split_and!; [apply lk_in| |apply NoDup_fst_map_to_list].
          intros id H1 H2%Hin. rewrite (lk_im id H1) in H2. by destruct H2.
        * intros id. by rewrite HR, elem_of_app, Hin.
        * intros id. by rewrite HA, elem_of_app, Hin.
        * rewrite Hn. unfold Lm. rewrite fmap_length. done.
        * apply Forall_app. split; [by apply szs_G|]. unfold Lm. apply Forall_fmap, Forall_forall.
          intros [j e] Hj. apply elem_of_map_to_list in Hj. cbn. by apply lk_gm.
      + rewrite Hocc, (szs_bytes 0 li). unfold total_bytes. rewrite foldr_app.
        assert (E : msum 0 m = foldr (fun x acc => x.2 + acc) 0 Lm) by apply msum_list.
        rewrite E. clear. generalize (foldr (fun (x : Z * Z) acc => x.2 + acc) 0 Lm). intros z.
        induction (szs li) as [|x l IH]; cbn; lia.
  Qed.

  (** A lookup without update changes nothing; a get hits exactly on a resident
      object, and a hit keeps all three queues' members; a missed object that fits
      Ain goes to Am if it was a ghost (and is a ghost no more), otherwise to Ain;
      an object larger than Ain is not cached and evicts nothing. *)
  Theorem C76_get : forall s, comp_reaches OO s0 (comp_call G 0) s ->
    forall r fuel, req_ok 0 r -> G (r_id r) (r_size r) -> op_nobj OO s <= Z.of_nat fuel ->
    (exists b, op_find OO s r false = Ok (s, b)) /\
    exists s' h, cache_get_base OO fuel s r = Ok (s', h) /\
      (h = true <-> resident OO s (r_id r)) /\
      (h = true -> forall id, (lt_in_ain s' id <-> lt_in_ain s id) /\ (lt_in_aout s' id <-> lt_in_aout s id) /\
                              (lt_in_am O s' id <-> lt_in_am O s id)) /\
      (h = false -> ain < r_size r -> forall id, resident OO s' id <-> resident OO s id) /\
      (h = false -> r_size r <= ain ->
         (forall id, id <> r_id r -> (lt_in_ain s' id -> lt_in_ain s id) /\ (lt_in_am O s' id -> lt_in_am O s id)) /\
         ~ lt_in_aout s' (r_id r) /\
         (~ lt_in_aout s (r_id r) -> lt_in_ain s' (r_id r)) /\
         (lt_in_aout s (r_id r) -> lt_in_am O s' (r_id r))).
  Proof using HS Hain Haout Hcap HR0 HE.
    intros s (li & lo & t & m & H)%lp_reach r fuel Hr HG Hf.
    pose proof (lp_in _ _ _ _ _ H) as (Hi & Ho & Hm).
    pose proof (lp_res _ _ _ _ _ H) as (HR & HA). pose proof (lp_nobj _ _ _ _ _ H) as (Hn & Hocc).
    split. { eexists. apply (lk_find_false pol O R G cap ain aout HS _ _ _ _ _ _ H). }
    destruct (lk_get pol O R G cap ain aout Hain Haout Hcap HS s li lo t m r fuel H Hr HG ltac:(lia))
      as (s' & li' & lo' & t' & m' & He & H' & _ & Hhit & Hbig & Hmiss).
    pose proof (lp_in _ _ _ _ _ H') as (Hi' & Ho' & Hm').
    pose proof (lp_res _ _ _ _ _ H') as (HR' & HA').
    eexists _, _. split; [exact He|]. rewrite HR. split_and!.
    - apply bool_decide_eq_true.
    - intros Hb%bool_decide_eq_true id. destruct (Hhit Hb) as (-> & -> & Hid).
      by rewrite Hi', Hi, Ho', Ho, Hm', Hm, Hid.
    - intros Hb%bool_decide_eq_false Hs id. destruct (Hbig Hb Hs) as (-> & ->). by rewrite HR', HR.
    - intros Hb%bool_decide_eq_false Hs. destruct (Hmiss Hb Hs) as (Hlo' & Hcase).
      destruct (decide (r_id r ∈ ids lo)) as [Hg|Hg].
      + destruct Hcase as ((d & Hd) & Hin & Hsub). split_and!.
        * intros id Hne. rewrite Hi', Hi, Hm', Hm. split; [|by apply Hsub].
          intros Hid. rewrite Hd, ids_app. apply elem_of_app. by left.
        * by rewrite Ho'.
        * intros Hng. exfalso. by apply Hng, Ho.
        * intros _. by apply Hm'.
      + destruct Hcase as ((l1 & d & -> & Hd) & Hsub). split_and!.
        * intros id Hne. rewrite Hi', Hi, Hm', Hm. split.
          -- intros [->|Hid]%elem_of_cons; [done|]. rewrite Hd, ids_app. apply elem_of_app. by left.
          -- intros [e Hx]. exists e. by eapply lookup_weaken.
        * by rewrite Ho'.
        * intros _. apply Hi'. left.
        * intros Hgh. exfalso. by apply Hg, Ho.
  Qed.

  (** remove takes the id out of all three queues and touches nothing else.
      Its answer is true also for a mere ghost. *)
  Theorem C76_remove : forall s, comp_reaches OO s0 (comp_call G 0) s -> forall id,
    exists s' b, op_remove OO s id = Ok (s', b) /\
      (b = true <-> resident OO s id \/ lt_in_aout s id) /\
      ~ lt_in_ain s' id /\ ~ lt_in_aout s' id /\ ~ lt_in_am O s' id /\
      forall j, j <> id -> (lt_in_ain s' j <-> lt_in_ain s j) /\ (lt_in_aout s' j <-> lt_in_aout s j) /\
                           (lt_in_am O s' j <-> lt_in_am O s j).
  Proof using HS Hain Haout Hcap HR0 HE.
    intros s (li & lo & t & m & H)%lp_reach id.
    pose proof (lp_in _ _ _ _ _ H) as (Hi & Ho & Hm). pose proof (lp_res _ _ _ _ _ H) as (HR & HA).
    destruct (lk_remove pol O R G cap ain aout HS s li lo t m id H) as (s' & He & H').
    pose proof (lp_in _ _ _ _ _ H') as (Hi' & Ho' & Hm').
    eexists _, _. split; [exact He|]. rewrite bool_decide_eq_true, HR, Ho, Hi', Ho', Hm', !elem_ids_del, lookup_delete_is_Some.
    split_and!; try tauto. intros j Hj. rewrite Hi', Ho', Hm', !elem_ids_del, lookup_delete_is_Some, Hi, Ho, Hm.
    assert (id <> j) by done. tauto.
  Qed.

  (** Eviction takes exactly one object: the one Ain would evict when Ain is
      over its size, which then becomes a ghost if it fits; otherwise the one
      Am would evict.  It fails exactly when Ain is within its size and Am is
      empty. *)
  Theorem C76_evict : forall s, comp_reaches OO s0 (comp_call G 0) s -> forall r,
    (op_occupied fifo_ops (lt_in s) > ain ->
       exists v s', op_to_evict fifo_ops (lt_in s) r = Ok (lt_in s, Some v) /\
         op_evict OO s r = Ok s' /\ lt_in_ain s v /\
         (forall j, resident OO s' j <-> resident OO s j /\ j <> v) /\
         (forall j, lt_in_aout s' j -> j = v \/ lt_in_aout s j) /\
         ((forall z, G v z -> z <= aout) -> lt_in_aout s' v)) /\
    (op_occupied fifo_ops (lt_in s) <= ain -> (exists id, lt_in_am O s id) ->
       exists v s', (exists am, op_to_evict O (lt_am s) r = Ok (am, Some v)) /\
         op_evict OO s r = Ok s' /\ lt_in_am O s v /\
         (forall j, resident OO s' j <-> resident OO s j /\ j <> v) /\
         (forall j, lt_in_aout s' j <-> lt_in_aout s j)) /\
    (op_occupied fifo_ops (lt_in s) <= ain -> (forall id, ~ lt_in_am O s id) ->
       op_evict OO s r = Err NullDeref).
  Proof using HS Hain Haout Hcap HR0 HE.
    intros s (li & lo & t & m & H)%lp_reach r.
    pose proof (lp_in _ _ _ _ _ H) as (Hi & Ho & Hm). pose proof (lp_res _ _ _ _ _ H) as (HR & HA). pose proof H as [].
    assert (Hoc : op_occupied fifo_ops (lt_in s) = bytes 0 li) by apply lk_in.
    rewrite Hoc. cbn [op_to_evict op_evict fifo_ops lptq_ops].
    destruct (lk_evict pol O R G cap ain aout Hain Haout Hcap HS s li lo t m r H)
      as [(Hb & s1 & li1 & v & o & lo1 & Hli & He & H1 & _ & Hsub & Hgh)|
         [(Hb & Hne & s1 & v & Hv & _ & Ht & He & H1 & _)|(Hb & -> & He)]].
    - split_and!; [|lia|lia]. intros _. exists v, s1.
      pose proof (lp_in _ _ _ _ _ H1) as (Hi1 & Ho1 & Hm1). pose proof (lp_res _ _ _ _ _ H1) as (HR1 & HA1).
      assert (Hv : v ∈ ids li) by (rewrite Hli, ids_app; apply elem_of_app; right; left).
      split_and!; try done.
      + apply (qok_to_evict ain 0 _ li1 v o). rewrite <- Hli. apply H.
      + by apply Hi.
      + intros j. rewrite HR1, HR. pose proof (qok_nd _ _ _ _ lk_in) as Hnd. rewrite Hli in Hnd.
        pose proof (NoDup_ids_mid li1 v o [] Hnd) as (Hvn & _). pose proof (lk_im v Hv) as Hvm.
        rewrite Hli, ids_app, elem_of_app. cbn. rewrite elem_of_list_singleton. split.
        * intros [Hj|[e Hj]]; (split; [eauto|]); intros ->; [done|congruence].
        * intros [[[Hj|Hj]|Hj] Hne]; [by left|done|by right].
      + intros j Hj%Ho1%Hsub. by rewrite Ho.
      + intros HG. apply Ho1, Hgh, HG. apply (allG_elem _ _ _ _ lk_gi).
        rewrite Hli. apply elem_of_app. right. left.
    - split_and!; [lia| |].
      + intros _ _. exists v, s1.
        pose proof (lp_in _ _ _ _ _ H1) as (Hi1 & Ho1 & Hm1). pose proof (lp_res _ _ _ _ _ H1) as (HR1 & HA1).
        split_and!; try done.
        * by apply Hm.
        * intros j. rewrite HR1, HR, lookup_delete_is_Some. split.
          -- intros [Hj|[Hne' Hj]]; (split; [eauto|]); [|done]. intros ->. rewrite (lk_im v Hj) in Hv. by destruct Hv.
          -- intros [[Hj|Hj] Hne']; [by left|right]. by split.
        * intros j. by rewrite Ho1, Ho.
      + intros _ Hno. exfalso. by apply (Hno v), Hm.
    - split_and!; [lia| |].
      + intros _ (id & Hid%Hm). rewrite lookup_empty in Hid. by destruct Hid.
      + intros _ _. rewrite He. by rewrite (HE _ _ _ lk_am).
  Qed.
End Props.

(** LP_TwoQ itself: the main cache is a Clock with counters up to 1, and the
    hypotheses above hold of it. *)
Theorem C76_clock_main : forall cap ain, 0 <= ain -> 2 * ain <= cap ->
  simulation pol_any (clock_ops 1) (cap - ain) 0 (req_ok 0) (crel 1 (cap - ain) 0) /\
  crel 1 (cap - ain) 0 (clock_init (cap - ain) AdmNone) (abs_init AdmNone) /\
  (forall ms t r, crel 1 (cap - ain) 0 ms (mkAbs t ∅ AdmNone) -> op_evict (clock_ops 1) ms r = Err NullDeref).
Proof.
  intros cap ain H1 H2. split_and!.
  - apply clock_sim. lia.
  - apply clock_init_rel.
  - intros ms t r (_ & [Hnd Hq] & _). cbn. unfold clock_evict.
    assert (q_q ms = []) as ->.
    { destruct (q_q ms) as [|x q]; [done|]. exfalso. cbn in Hq.
      assert (Hx : is_Some ((∅ : gmap Z entry) !! x)) by (apply Hq; left). rewrite lookup_empty in Hx. by destruct Hx. }
    done.
Qed.

(** So, for LP_TwoQ itself: every program of gets, finds and removes completes,
    and after it no queue shares an id with another and at most the cache size is
    occupied. *)
Theorem C76_lptwoq : forall cap ain aout G, 0 <= ain -> 0 <= aout -> 2 * ain <= cap ->
  let O := lptq_ops (clock_ops 1) in
  let s0 := lptq_init cap ain aout (clock_init (cap - ain) AdmNone) in
  forall cs fuel, Forall (comp_call_noevict G 0) cs -> (length cs <= fuel)%nat ->
  exists s os, run O fuel s0 cs = Ok (s, os) /\
    0 <= op_occupied O s <= cap /\
    (forall id, ~ (lt_in_ain s id /\ lt_in_aout s id)) /\
    (forall id, ~ (lt_in_ain s id /\ lt_in_am (clock_ops 1) s id)) /\
    (forall id, ~ (lt_in_aout s id /\ lt_in_am (clock_ops 1) s id)) /\
    (forall id, resident O s id <-> lt_in_ain s id \/ lt_in_am (clock_ops 1) s id).
Proof.
  intros cap ain aout G H1 H2 H3 O s0 cs fuel Hcs Hf. destruct (C76_clock_main cap ain H1 H3) as (HS & HR & HE).
  destruct (C76_completes_partial _ _ _ _ cap ain aout G H1 H2 H3 HS HR HE cs fuel Hcs Hf) as (s & os & Hr).
  exists s, os. split; [exact Hr|].
  destruct (C76_invariant _ _ _ _ cap ain aout G H1 H2 H3 HS HR HE s) as (A & B & C & D & E & _); [|exact (conj E (conj A (conj B (conj C D))))].
  exists cs, fuel, os. split_and!; [|done|done]. apply (Forall_impl _ _ _ Hcs). by intros c [? _].
Qed.

(** The hypotheses are met: Ain overflows, ghosts are remembered, a ghost hit
    promotes to Am, a hit in Am saves an object from eviction, and Am and Ain both
    evict.  Final Ain, Aout, Am (head first), and the answers. *)
Definition lg (id : Z) : call := CGet (mkReq id 1 0 0 0).
Definition lp0 (cap ain aout : Z) : lptq qstate := lptq_init cap ain aout (clock_init (cap - ain) AdmNone).
Example C76_lptwoq_ex :
  let cs := [lg 1; lg 2; lg 3; lg 4; lg 5; lg 1; lg 1; lg 2; lg 3; CRemove 3; lg 4; lg 6; CEvict (mkReq 0 0 0 0 0)] in
  Forall (comp_call (fun _ z => z = 1) 0) cs /\
  (let! (s, os) := run (lptq_ops (clock_ops 1)) 20 (lp0 4 1 2) cs in
     Ok (q_q (lt_in s), q_q (lt_out s), q_q (lt_am s), os)) =
  Ok ([6], [5], [1; 4],
      [OBool false; OBool false; OBool false; OBool false; OBool false; OBool false; OBool true; OBool false;
       OBool false; OBool true; OBool false; OBool false; OUnit]).
Proof.
  split; [|vm_compute; reflexivity].
  repeat (apply Forall_cons; split; [cbn; unfold req_ok; cbn; lia|]). constructor.
Qed.

(** Refuted: a direct evict on a non-empty cache can follow a null pointer,
    although the parameters are the default ones (Ain a quarter). *)
Theorem C76_evict_refuted :
  exists cs, Forall (comp_call (fun _ z => z = 1) 0) cs /\
    run (lptq_ops (clock_ops 1)) 9 (lp0 8 2 4) cs = Err NullDeref.
Proof.
  exists [lg 1; CEvict (mkReq 0 0 0 0 0)]. split; [|vm_compute; reflexivity].
  repeat (apply Forall_cons; split; [cbn; unfold req_ok; cbn; lia|]). constructor.
Qed.

(** Refuted: with Ain larger than half the cache (a legal parameter) plain gets
    crash. *)
Theorem C76_large_ain_refuted :
  exists cs, Forall (comp_call_noevict (fun _ z => z = 6) 0) cs /\
    run (lptq_ops (clock_ops 1)) 9 (lp0 10 6 5) cs = Err NullDeref.
Proof.
  exists [CGet (mkReq 1 6 0 0 0); CGet (mkReq 2 6 0 0 0)]. split; [|vm_compute; reflexivity].
  repeat (apply Forall_cons; split; [unfold comp_call_noevict; cbn; unfold req_ok; cbn; lia|]). constructor.
Qed.

(** Refuted (C05): remove answers true for an object that is only remembered as a
    ghost. *)
Theorem C76_remove_ghost_refuted :
  (let! (s, os) := run (lptq_ops (clock_ops 1)) 20 (lp0 4 1 2)
      [lg 1; lg 2; lg 3; lg 4; lg 5; CFind (mkReq 1 1 0 0 0) false; CRemove 1] in Ok os) =
  Ok [OBool false; OBool false; OBool false; OBool false; OBool false; OBool false; OBool true].
Proof. vm_compute. reflexivity. Qed.

(** Refuted (C07): to_evict aborts whatever the state. *)
Theorem C76_to_evict_refuted : forall (s : lptq qstate) r,
  op_to_evict (lptq_ops (clock_ops 1)) s r = Err AssertFail.
Proof. done. Qed.

(** Refuted: a client that calls insert directly can bring one id into Ain and
    Aout at once. *)
Theorem C76_direct_insert_refuted :
  (let! (s, os) := run (lptq_ops (clock_ops 1)) 20 (lp0 4 1 2)
      [lg 1; lg 2; lg 3; lg 4; lg 5; CRemove 5; CInsert (mkReq 1 1 0 0 0)] in
     Ok (q_q (lt_in s), q_q (lt_out s))) = Ok ([1; 4; 3; 2], [1]).
Proof. vm_compute. reflexivity. Qed.

(** LP_TwoQ is 2Q with another main queue and nothing else: around an LRU it
    gives the answers of TwoQ.c on every client program, and completes on the same
    programs. *)
Definition tq_view (s : twoq) : lptq qstate :=
  mkLT (t_in s) (t_out s) (t_am s) (t_ghost s) (t_size s) (t_nreq s).

Definition agree {A} (x : res (twoq * A)) (y : res (lptq qstate * A)) : Prop :=
  match x, y with
  | Ok (s, a), Ok (s', a') => s' = tq_view s /\ a' = a
  | Err _, Err _ => True
  | _, _ => False
  end.
Definition agree1 (x : res twoq) (y : res (lptq qstate)) : Prop :=
  match x, y with
  | Ok s, Ok s' => s' = tq_view s
  | Err _, Err _ => True
  | _, _ => False
  end.

Section Same.
  Notation O2 := (lptq_ops lru_ops).
  Lemma agree_find s r u : agree (op_find twoq_ops s r u) (op_find O2 (tq_view s) r u).
  Proof.
    destruct s as [i o m g z n]. cbn. unfold twoq_find, lptq_find, t_set_in, t_set_ghost, t_set_out, t_set_am. cbn.
    destruct u; destruct (fifo_find i r false) as [[i' []]|]; cbn; try done.
    - destruct (q_remove o (r_id r)) as [[o' []]|]; cbn; try done; destruct (lru_find m r true) as [[m' b]|]; done.
    - by destruct (lru_find m r false) as [[m' b]|].
  Qed.
  Lemma agree_insert s r : agree1 (op_insert twoq_ops s r) (op_insert O2 (tq_view s) r).
  Proof.
    destruct s as [i o m g z n]. cbn. unfold twoq_insert, lptq_insert, t_set_in, t_set_ghost, t_set_am, sub_get. cbn.
    destruct g; [by destruct (cache_get_base _ _ _ _) as [[m' b]|]|by destruct (q_insert i r)].
  Qed.
  Lemma agree_evict s r : agree1 (op_evict twoq_ops s r) (op_evict O2 (tq_view s) r).
  Proof.
    destruct s as [i o m g z n]. cbn. unfold twoq_evict, lptq_evict, t_set_in, t_set_out, t_set_am. cbn.
    destruct (decide _); [|by destruct (q_evict_tail m r)].
    destruct (last (q_q i)) as [v|]; [|done]. destruct (c_tbl (q_c i) !! v); [|done].
    destruct (sub_get _ _ _) as [[g' b]|]; [|done]. cbn. by destruct (q_evict_tail i r).
  Qed.
  Lemma agree_remove s id : agree (op_remove twoq_ops s id) (op_remove O2 (tq_view s) id).
  Proof.
    destruct s as [i o m g z n]. cbn. unfold twoq_remove, lptq_remove, t_set_in, t_set_out, t_set_am. cbn.
    destruct (q_remove i id) as [[i' []]|]; cbn; try done. destruct (q_remove o id) as [[o' []]|]; cbn; try done.
    by destruct (q_remove m id) as [[m' b]|].
  Qed.
  Lemma agree_loop r fuel : forall s, agree1 (evict_loop twoq_ops fuel s r) (evict_loop O2 fuel (tq_view s) r).
  Proof.
    induction fuel as [|n IH]; intros s; cbn [evict_loop]; cbn [op_occupied op_md op_size twoq_ops lptq_ops lru_ops tq_view lt_in lt_am lt_size];
      destruct (decide _); try done.
    pose proof (agree_evict s r) as H. destruct (op_evict twoq_ops s r) as [s1|], (op_evict O2 (tq_view s) r) as [s2|]; try done.
    cbn in H. subst s2. apply IH.
  Qed.
  Lemma agree_step fuel s c : agree (step twoq_ops fuel s c) (step O2 fuel (tq_view s) c).
  Proof.
    destruct c as [r|r u|r|id|r|r]; cbn [step].
    - unfold cache_get_base. change (op_tick O2 (tq_view s)) with (tq_view (op_tick twoq_ops s)).
      generalize (op_tick twoq_ops s). intros s1. pose proof (agree_find s1 r true) as H.
      destruct (op_find twoq_ops s1 r true) as [[s2 b]|], (op_find O2 (tq_view s1) r true) as [[s3 b3]|]; try done.
      destruct H as [-> ->]. cbn [rbind]. destruct b; [done|]. cbn. destruct (bool_decide _); [|done].
      pose proof (agree_loop r fuel s2) as H.
      destruct (evict_loop twoq_ops fuel s2 r) as [s4|], (evict_loop O2 fuel (tq_view s2) r) as [s5|]; try done.
      cbn in H. subst s5. cbn [rbind]. pose proof (agree_insert s4 r) as H. cbn in H.
      destruct (twoq_insert s4 r) as [s6|], (lptq_insert lru_ops (tq_view s4) r) as [s7|]; done.
    - pose proof (agree_find s r u) as H.
      destruct (op_find twoq_ops s r u) as [[s2 b]|], (op_find O2 (tq_view s) r u) as [[s3 b3]|]; try done.
      by destruct H as [-> ->].
    - pose proof (agree_find s r false) as H.
      destruct (op_find twoq_ops s r false) as [[s2 b]|], (op_find O2 (tq_view s) r false) as [[s3 b3]|]; try done.
      destruct H as [-> ->]. cbn [rbind]. destruct b; [done|].
      cbn [op_occupied op_md op_size twoq_ops lptq_ops lru_ops tq_view lt_in lt_am lt_size]. destruct (decide _); [done|].
      pose proof (agree_insert s r) as H. cbn in *.
      destruct (twoq_insert s r) as [s6|], (lptq_insert lru_ops _ r) as [s7|]; done.
    - pose proof (agree_remove s id) as H.
      destruct (op_remove twoq_ops s id) as [[s2 b]|], (op_remove O2 (tq_view s) id) as [[s3 b3]|]; try done.
      by destruct H as [-> ->].
    - change (op_nobj O2 (tq_view s)) with (op_nobj twoq_ops s). destruct (decide _); [done|].
      pose proof (agree_evict s r) as H. destruct (op_evict twoq_ops s r) as [s1|], (op_evict O2 (tq_view s) r) as [s2|]; done.
    - change (op_nobj O2 (tq_view s)) with (op_nobj twoq_ops s). by destruct (decide _).
  Qed.
  Lemma agree_run fuel cs : forall s, agree (run twoq_ops fuel s cs) (run O2 fuel (tq_view s) cs).
  Proof.
    induction cs as [|c cs IH]; intros s; [done|]. cbn [run]. pose proof (agree_step fuel s c) as H.
    destruct (step twoq_ops fuel s c) as [[s1 o]|], (step O2 fuel (tq_view s) c) as [[s2 o2]|]; try done.
    destruct H as [-> ->]. cbn [rbind]. specialize (IH s1).
    destruct (run twoq_ops fuel s1 cs) as [[s3 os]|], (run O2 fuel (tq_view s1) cs) as [[s4 os4]|]; try done.
    destruct IH as [-> ->]. done.
  Qed.
End Same.

Theorem C76_same_as_twoq : forall cmd cap ain aout fuel cs,
  let x := run twoq_ops fuel (twoq_init cmd cap ain aout) cs in
  let y := run (lptq_ops lru_ops) fuel (lptq_init cap ain aout (lru_init cmd (cap - ain) AdmNone)) cs in
  ((exists s os, x = Ok (s, os)) <-> (exists s os, y = Ok (s, os))) /\
  forall s os s' os', x = Ok (s, os) -> y = Ok (s', os') ->
    os' = os /\ lt_in s' = t_in s /\ lt_out s' = t_out s /\ lt_am s' = t_am s.
Proof.
  intros cmd cap ain aout fuel cs x y.
  pose proof (agree_run fuel cs (twoq_init cmd cap ain aout)) as H.
  change (tq_view _) with (lptq_init cap ain aout (lru_init cmd (cap - ain) AdmNone)) in H.
  fold x y in H. destruct x as [[s os]|], y as [[s' os']|]; try done.
  - destruct H as [-> ->]. split; [naive_solver|]. intros ? ? ? ? [= <- <-] [= <- <-]. done.
  - split; [naive_solver|]. naive_solver.
Qed.
