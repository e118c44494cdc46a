(** C69: flashProb, a RAM tier (LRU or FIFO) in front of any disk cache that keeps
    the contract of a single-queue cache (proved for the two it accepts, FIFO and
    Clock). *)
From stdpp Require Import gmap list numbers fin_maps.
From Verif Require Import Base Driver Abs AbsFacts Sim ModelQueue QueueFacts SimQueue ClockFacts SimClock
  QList SpecApi SpecComp CompFacts ModelTwoQ ModelS3FIFO S3Facts PropsS3FIFO ModelQDLP QDLPFacts PropsQDLP ModelFlash FlashFacts.
Open Scope Z_scope.

(** In which tier an object is. *)
Definition in_ram {M} (lru : bool) (s : fp M) (id : Z) : Prop := resident (if lru then lru_ops else fifo_ops) (f_ram s) id.
Definition on_disk {M} (O : ops M) (s : fp M) (id : Z) : Prop := resident O (f_disk s) id.

(** The client calls: get, find and remove always; evict when all objects have a
    positive size (otherwise it can crash: [C69_evict_refuted]). *)
Definition fp_call (G : Z -> Z -> Prop) (rmd : Z) (c : call) : Prop :=
  comp_call G rmd c /\ match c with CEvict _ => forall id z, G id z -> 0 < z | _ => True end.

Section Props.
  Context {M : Type} (pol : policy) (O : ops M) (R : M -> abs -> Prop) (disk0 : M).
  Context (lru : bool) (rnd : Z -> Z * Z) (stale : Z -> res Z) (inv : Z).
  Context (G : Z -> Z -> Prop) (cap rsz rmd seed : Z) (adm : admissioner).
  Context (Hrsz : 0 <= rsz <= cap) (Hrmd : 0 <= rmd).
  Context (HS : simulation pol O (cap - rsz) 0 (req_ok 0) R) (HR0 : R disk0 (abs_init AdmNone)).
  (** The freed object that flashProb_evict reads is still readable (otherwise:
      [C69_freed_refuted]); inv_prob is not 0 (otherwise: [C69_prob_refuted]). *)
  Context (Hstale : forall z, exists z', stale z = Ok z') (Hinv : inv <> 0).
  Notation F := (fp_ops O lru rnd stale inv).
  Notation s0 := (fp_init cap rsz rmd adm disk0 seed).
  Notation ok := (fok R G cap rsz rmd).

  Lemma fp_in s lr t m : ok s lr t m ->
    (forall id, in_ram lru s id <-> id ∈ ids lr) /\ (forall id, on_disk O s id <-> is_Some (m !! id)).
  Proof using All.
    intros []. unfold in_ram, on_disk. split.
    - destruct lru.
      + apply (in_q lru_ops _ _ _ _ fok_r). by right.
      + apply (in_q fifo_ops _ _ _ _ fok_r). by left.
    - intros id. unfold resident. split.
      + intros HR. destruct (HR (mkReq id 0 0 0 0) eq_refl) as (s' & Hf).
        rewrite (sim_find_false _ _ _ _ _ _ HS _ _ _ fok_d) in Hf. injection Hf as _ Hf. by apply bool_decide_eq_true in Hf.
      + intros Hid r <-. exists (f_disk s). rewrite (sim_find_false _ _ _ _ _ _ HS _ _ _ fok_d). cbn.
        by rewrite bool_decide_eq_true_2.
  Qed.

  Lemma fp_res s lr t m : ok s lr t m ->
    (forall id, resident F s id <-> id ∈ ids lr \/ is_Some (m !! id)) /\
    (forall id, absent F s id <-> ~ (id ∈ ids lr \/ is_Some (m !! id))).
  Proof using All.
    intros HD. unfold resident, absent. cbn [op_find fp_ops].
    assert (HF : forall r, fp_find O lru s r false = Ok (s, bool_decide (r_id r ∈ ids lr \/ is_Some (m !! r_id r))))
      by (intros r; by eapply (fok_find_false pol)).
    split; intros id; split.
    - intros HR. destruct (HR (mkReq id 0 0 0 0) eq_refl) as (s' & Hf). rewrite HF in Hf.
      injection Hf as _ Hf. by apply bool_decide_eq_true in Hf.
    - intros Hid r <-. exists s. rewrite HF. by rewrite bool_decide_eq_true_2.
    - intros HR. destruct (HR (mkReq id 0 0 0 0) eq_refl) as (s' & Hf). rewrite HF in Hf.
      injection Hf as _ Hf. by apply bool_decide_eq_false in Hf.
    - intros Hid r <-. exists s. rewrite HF. by rewrite bool_decide_eq_false_2.
  Qed.

  Lemma fp_nobj s lr t m : ok s lr t m ->
    op_nobj F s = Z.of_nat (length lr + size m) /\ op_occupied F s = bytes rmd lr + msum 0 m /\
    op_occupied O (f_disk s) = msum 0 m /\ q_occ (f_ram s) = bytes rmd lr.
  Proof using All.
    intros []. cbn. destruct (ram_ins lru) as (_ & _ & _ & -> & ->).
    unfold q_nobj, q_occ. rewrite (qok_nobj _ _ _ _ fok_r), (qok_occ _ _ _ _ fok_r).
    rewrite (sim_nobj _ _ _ _ _ _ HS _ _ fok_d), (sim_occ _ _ _ _ _ _ HS _ _ fok_d). cbn. split_and!; lia.
  Qed.

  Lemma fp_pos s lr t m : ok s lr t m -> (forall id z, G id z -> 0 < z) ->
    0 < op_nobj F s -> bytes rmd lr + msum 0 m > 0.
  Proof using All.
    intros HD HG Hn. destruct (fp_nobj _ _ _ _ HD) as [Hn' _]. rewrite Hn' in Hn.
    pose proof HD as []. assert (0 <= msum 0 m) by apply fok_ok.
    destruct lr as [|x lr].
    - cbn in Hn. destruct (decide (m = ∅)) as [->|Hne]; [rewrite map_size_empty in Hn; lia|].
      apply map_choose in Hne as (id & e & He). rewrite <- (insert_delete _ _ _ He).
      rewrite msum_insert by apply lookup_delete.
      pose proof (fok_Gd _ _ He) as HGe. apply HG in HGe.
      assert (0 <= msum 0 (delete id m)).
      { apply msum_nonneg; [lia|]. intros j e'. rewrite lookup_delete_Some. intros [_ Hj].
        pose proof (fok_Gd _ _ Hj) as HGj. apply HG in HGj. lia. }
      change (bytes rmd []) with 0. lia.
    - rewrite bytes_cons. apply Forall_cons in fok_Gr as [H1 H2]. apply HG in H1.
      assert (0 <= bytes rmd lr).
      { apply bytes_nonneg; [done|]. pose proof (qok_osz _ _ _ _ fok_r) as Hq. by apply Forall_cons in Hq as [_ ?]. }
      lia.
  Qed.

  Lemma fp_step s lr t m fuel c : ok s lr t m -> fp_call G rmd c -> (2 * length lr + size m <= fuel)%nat ->
    exists s' o lr' t' m', step F fuel s c = Ok (s', o) /\ ok s' lr' t' m' /\
      (length lr' + size m' <= length lr + size m + 1)%nat /\
      (forall id, is_Some (m' !! id) -> is_Some (m !! id) \/ id ∈ ids lr) /\
      (forall id, id ∈ ids lr' -> id ∈ ids lr \/ exists r, c = CGet r /\ r_id r = id).
  Proof using All.
    intros HD [Hc Hev] Hfu. destruct c as [r|r u|r|id|r|r]; cbn [comp_call] in Hc; try done; cbn [step].
    - destruct Hc as [Hr HG].
      edestruct (fok_get pol O R lru rnd stale inv G cap rsz rmd) as (s' & lr' & t' & m' & -> & HD' & Hl & Hhit & Hmiss); try done.
      cbn [rbind]. eexists s', _, lr', t', m'. split; [done|]. split; [done|]. split; [done|].
      destruct (decide (r_id r ∈ ids lr \/ is_Some (m !! r_id r))) as [Hin|Hn].
      + destruct (Hhit Hin) as (_ & E1 & E2). split; intros id Hid; left; [by apply E2|by apply E1].
      + destruct (Hmiss Hn) as (_ & Hk). destruct (decide _).
        * destruct Hk as (_ & H1 & H2 & _). split; [done|]. intros id Hid. apply H1 in Hid as [->|?]; [right; eauto|by left].
        * destruct Hk as [-> ->]. split; intros; by left.
    - cbn [op_find fp_ops]. destruct u.
      + edestruct (fok_find_true pol O R lru rnd stale inv G cap rsz rmd) as (s' & lr' & t' & m' & -> & HD' & E1 & Hl & E2 & Hs & _); try done.
        cbn [rbind]. eexists s', _, lr', t', m'. split; [done|]. split; [done|]. split; [lia|].
        split; intros id Hid; left; [by apply E2|by apply E1].
      + erewrite (fok_find_false pol) by done. cbn [rbind]. eexists s, _, lr, t, m. split_and!; try done; [lia|intros; by left|intros; by left].
    - cbn [op_remove fp_ops].
      edestruct (fok_remove pol O R lru rnd stale inv G cap rsz rmd) as (s' & -> & HD'); try done. cbn [rbind].
      eexists s', _, _, _, _. split; [done|]. split; [exact HD'|].
      pose proof (length_del_le id lr). pose proof (size_delete_le m id).
      split_and!; [lia| |]; intros j Hj; left; [|by apply del_sub in Hj].
      apply lookup_delete_is_Some in Hj. tauto.
    - destruct (decide (op_nobj F s <= 0)).
      { eexists s, _, lr, t, m. split_and!; try done; [lia|intros; by left|intros; by left]. }
      cbn [op_evict fp_ops].
      edestruct (fok_evict_w pol O R lru rnd stale inv G cap rsz rmd) as (s1 & lr1 & t1 & m1 & -> & HD1 & _ & (d & Ed) & Hm & _ & Hl & _); try done.
      { eapply fp_pos; [done..|lia]. }
      cbn [rbind]. eexists s1, _, lr1, t1, m1. split_and!; try done; [lia|].
      intros id Hid. left. rewrite Ed, ids_app. apply elem_of_app. by left.
  Qed.

  Lemma fp_run cs : forall s lr t m fuel, ok s lr t m -> Forall (fp_call G rmd) cs ->
    (2 * (length lr + size m + length cs) <= fuel)%nat ->
    exists s' os lr' t' m', run F fuel s cs = Ok (s', os) /\ ok s' lr' t' m' /\
      (length lr' + size m' <= length lr + size m + length cs)%nat.
  Proof using All.
    induction cs as [|c cs IH]; intros s lr t m fuel HD Hc Hf.
    - exists s, [], lr, t, m. split_and!; try done. cbn. lia.
    - apply Forall_cons in Hc as [Hc Hcs]. cbn [length] in Hf. cbn [run].
      destruct (fp_step s lr t m fuel c HD Hc ltac:(lia)) as (s1 & o & lr1 & t1 & m1 & -> & H1 & Hl & _).
      cbn [rbind]. destruct (IH s1 lr1 t1 m1 fuel H1 Hcs ltac:(lia)) as (s' & os & lr' & t' & m' & -> & H' & Hl').
      cbn [rbind length]. exists s', (o :: os), lr', t', m'. split_and!; try done. lia.
  Qed.

  Lemma fp_from_init cs fuel : Forall (fp_call G rmd) cs -> (2 * length cs <= fuel)%nat ->
    exists s os lr t m, run F fuel s0 cs = Ok (s, os) /\ ok s lr t m /\ (length lr + size m <= length cs)%nat.
  Proof using All.
    intros Hcs Hf. destruct (fp_run cs s0 [] 0 ∅ fuel) as (s & os & lr & t & m & Hr & HD & Hl).
    - by eapply (fok_init pol O R lru rnd stale inv G cap rsz rmd).
    - done.
    - rewrite map_size_empty. cbn. lia.
    - rewrite map_size_empty in Hl. exists s, os, lr, t, m. by split_and!.
  Qed.

  (** Every program completes (for the whole program together, two evictions per
      call are enough). *)
  Theorem C69_completes : forall cs fuel, Forall (fp_call G rmd) cs -> (2 * length cs <= fuel)%nat ->
    exists s os, run F fuel s0 cs = Ok (s, os).
  Proof using All.
    intros cs fuel Hcs Hf. destruct (fp_from_init cs fuel Hcs Hf) as (s & os & _ & _ & _ & Hr & _). by exists s, os.
  Qed.

  Section After.
    Context (cs : list call) (fuel : nat) (s : fp M) (os : list obs).
    Context (Hcs : Forall (fp_call G rmd) cs) (Hfu : (2 * length cs <= fuel)%nat)
            (Hrun : run F fuel s0 cs = Ok (s, os)).

    Lemma fp_after : exists lr t m, ok s lr t m /\ (length lr + size m <= length cs)%nat.
    Proof using All.
      destruct (fp_from_init cs fuel Hcs Hfu) as (s' & os' & lr & t & m & Hr & HD & Hl).
      rewrite Hrun in Hr. injection Hr as <- <-. by exists lr, t, m.
    Qed.

    (** No id is in both tiers; the two together stay within the cache size, up to
        the metadata of one RAM object ([C69_metadata_refuted]), and the disk tier
        within its share; the counters are the number of resident objects and their
        bytes, every size being one that the client asked for that id. *)
    Theorem C69_invariant :
      (forall id, ~ (in_ram lru s id /\ on_disk O s id)) /\
      (forall id, resident F s id <-> in_ram lru s id \/ on_disk O s id) /\
      0 <= op_occupied F s <= cap + rmd /\
      0 <= op_occupied O (f_disk s) <= cap - rsz /\
      exists L, ledger F L G s /\
        exists k : nat, (k <= length L)%nat /\ op_occupied F s = total_bytes L + rmd * Z.of_nat k /\
          op_occupied (if lru then lru_ops else fifo_ops) (f_ram s) = total_bytes (take k L) + rmd * Z.of_nat k /\
          forall id, in_ram lru s id <-> id ∈ (take k L).*1.
    Proof using All.
      destruct fp_after as (lr & t & m & HD & _). pose proof (fp_in _ _ _ _ HD) as (Hi & Hm).
      pose proof (fp_res _ _ _ _ HD) as (HR & HA). pose proof (fp_nobj _ _ _ _ HD) as (Hn & Hocc & Hod & Hor). pose proof HD as [].
      assert (0 <= bytes rmd lr) by (apply bytes_nonneg; [done|apply fok_r]).
      assert (0 <= msum 0 m <= cap - rsz) by apply fok_ok.
      split_and!; try lia.
      - intros id. rewrite Hi, Hm. intros [H1 [e H2]]. by rewrite (fok_rd id H1) in H2.
      - intros id. by rewrite Hi, Hm, HR.
      - set (Lm := prod_map id e_size <$> map_to_list m).
        assert (Hids : Lm.*1 = (map_to_list m).*1).
        { unfold Lm. rewrite <- list_fmap_compose. by apply list_fmap_ext; intros ? []. }
        assert (Htk : take (length lr) (szs lr ++ Lm) = szs lr).
        { rewrite take_app_le by (rewrite szs_length; lia). apply take_ge. by rewrite szs_length. }
        exists (szs lr ++ Lm). split.
        + unfold ledger. rewrite fmap_app, szs_ids, Hids, app_length, szs_length. split_and!.
          * apply NoDup_app. split_and!; [apply fok_r| |apply NoDup_fst_map_to_list].
            intros id H1 H2. apply elem_of_list_fmap in H2 as ([j e] & -> & Hj).
            apply elem_of_map_to_list in Hj. cbn in *. by rewrite (fok_rd j H1) in Hj.
          * intros id. rewrite HR, elem_of_app. apply or_iff_compat_l.
            rewrite elem_of_list_fmap. split.
            -- intros [e He]. exists (id, e). split; [done|]. by apply elem_of_map_to_list.
            -- intros ([j e] & -> & Hj). apply elem_of_map_to_list in Hj. eauto.
          * intros id. rewrite HA, elem_of_app. apply not_iff_compat, or_iff_compat_l.
            rewrite elem_of_list_fmap. split.
            -- intros [e He]. exists (id, e). split; [done|]. by apply elem_of_map_to_list.
            -- intros ([j e] & -> & Hj). apply elem_of_map_to_list in Hj. eauto.
          * rewrite Hn. unfold Lm. rewrite fmap_length. done.
          * apply Forall_app. split; [by apply szs_G|]. unfold Lm. apply Forall_fmap, Forall_forall.
            intros [j e] Hj. apply elem_of_map_to_list in Hj. cbn. by apply fok_Gd.
        + exists (length lr). split; [rewrite app_length, szs_length; lia|]. rewrite Htk. split_and!.
          * rewrite Hocc, (szs_bytes rmd lr). unfold total_bytes. rewrite foldr_app.
            assert (E : msum 0 m = foldr (fun x acc => x.2 + acc) 0 Lm) by apply msum_list.
            rewrite E. clear. generalize (foldr (fun (x : Z * Z) acc => x.2 + acc) 0 Lm). intros z.
            assert (Hg : forall l : list (Z * Z), foldr (fun x acc => x.2 + acc) z l = foldr (fun x acc => x.2 + acc) 0 l + z)
              by (induction l as [|x l IH]; cbn; lia).
            rewrite Hg. lia.
          * transitivity (q_occ (f_ram s)); [by destruct lru|]. rewrite Hor. apply szs_bytes.
          * intros id. by rewrite Hi, szs_ids.
    Qed.

    (** A lookup without update changes nothing; a get hits exactly on a resident
        object, and a hit moves no object between the tiers (a disk hit does not
        promote); a missed object that the outer cache's admission policy accepts
        and that is no larger than the cache goes into the RAM tier, and otherwise
        nothing moves; nothing else appears, and when there is room, nothing leaves
        or moves. *)
    Theorem C69_get : forall r, req_ok rmd r -> G (r_id r) (r_size r) ->
      (exists b, op_find F s r false = Ok (s, b)) /\
      exists s' h, cache_get_base F fuel s r = Ok (s', h) /\
        (h = true <-> resident F s (r_id r)) /\
        (h = true -> forall id, (in_ram lru s' id <-> in_ram lru s id) /\ (on_disk O s' id <-> on_disk O s id)) /\
        (h = false -> (admit (c_adm (f_c s)) r).2 = false \/ cap < r_size r ->
           forall id, (in_ram lru s' id <-> in_ram lru s id) /\ (on_disk O s' id <-> on_disk O s id)) /\
        (h = false -> (admit (c_adm (f_c s)) r).2 = true -> r_size r <= cap ->
           in_ram lru s' (r_id r) /\
           (forall id, in_ram lru s' id -> id = r_id r \/ in_ram lru s id) /\
           (forall id, on_disk O s' id -> resident F s id) /\
           (op_occupied F s + r_size r <= cap -> forall id, (in_ram lru s id -> in_ram lru s' id) /\ (on_disk O s' id <-> on_disk O s id))) /\
        c_adm (f_c s') = if h then c_adm (f_c s) else (admit (c_adm (f_c s)) r).1.
    Proof using All.
      intros r Hr HG. destruct fp_after as (lr & t & m & HD & Hl).
      pose proof (fp_in _ _ _ _ HD) as (Hi & Hm). pose proof (fp_res _ _ _ _ HD) as (HR & HA).
      pose proof (fp_nobj _ _ _ _ HD) as (_ & Hocc & _).
      split. { eexists. by eapply (fok_find_false pol). }
      edestruct (fok_get pol O R lru rnd stale inv G cap rsz rmd Hrsz Hrmd HS Hstale Hinv s lr t m r fuel HD Hr HG ltac:(lia))
        as (s' & lr' & t' & m' & He & HD' & _ & Hhit & Hmiss).
      pose proof (fp_in _ _ _ _ HD') as (Hi' & Hm').
      exists s', (bool_decide (r_id r ∈ ids lr \/ is_Some (m !! r_id r))). split; [exact He|]. rewrite HR.
      destruct (decide (r_id r ∈ ids lr \/ is_Some (m !! r_id r))) as [Hin|Hn].
      - rewrite bool_decide_eq_true_2 by done. destruct (Hhit Hin) as (Ha & E1 & E2). split_and!; try done.
        intros _ id. by rewrite Hi', Hm', Hi, Hm, E1, E2.
      - rewrite bool_decide_eq_false_2 by done. destruct (Hmiss Hn) as (Ha & Hk). split_and!; try done.
        + intros _ Hno id. rewrite decide_False in Hk; [|intros [E1 E2]; destruct Hno as [?|?]; [congruence|lia]].
          destruct Hk as [-> ->]. by rewrite Hi', Hm', Hi, Hm.
        + intros _ Hok Hsz. rewrite decide_True in Hk by done. destruct Hk as (H1 & H2 & H3 & H4).
          split; [by apply Hi'|]. split; [intros id; rewrite Hi', Hi; apply H2|]. split.
          * intros id. rewrite Hm', HR. intros Hid. apply H3 in Hid. tauto.
          * rewrite Hocc. intros Hroom id. destruct (H4 Hroom) as [H5 ->]. rewrite Hi, Hi', Hm', Hm. split; [apply H5|done].
    Qed.

    (** remove takes the id out of both tiers and touches nothing else. *)
    Theorem C69_remove : forall id,
      exists s' b, op_remove F s id = Ok (s', b) /\ (b = true <-> resident F s id) /\
        ~ in_ram lru s' id /\ ~ on_disk O s' id /\
        forall j, j <> id -> (in_ram lru s' j <-> in_ram lru s j) /\ (on_disk O s' j <-> on_disk O s j).
    Proof using All.
      intros id. destruct fp_after as (lr & t & m & HD & Hl).
      pose proof (fp_in _ _ _ _ HD) as (Hi & Hm). pose proof (fp_res _ _ _ _ HD) as (HR & HA).
      edestruct (fok_remove pol O R lru rnd stale inv G cap rsz rmd) as (s' & He & H'); try done.
      pose proof (fp_in _ _ _ _ H') as (Hi' & Hm').
      eexists _, _. split; [exact He|]. rewrite bool_decide_eq_true, HR, Hi', Hm', elem_ids_del, lookup_delete_is_Some.
      split_and!; try tauto. intros j Hj. rewrite Hi', Hm', !elem_ids_del, lookup_delete_is_Some, Hi, Hm. naive_solver.
    Qed.

    (** An evict with any byte cached.  When the RAM tier holds bytes, its own
        victim [v] (least recently used, resp. oldest) leaves it, and the draw
        decides its fate: written to disk when the draw is a multiple of inv_prob
        and the disk can hold it, dropped otherwise; the rest of the disk changes
        only to make room.  When the RAM tier holds none, one object leaves the disk,
        chosen by the disk's policy. *)
    Theorem C69_evict : forall r, op_occupied F s > 0 ->
      exists s', op_evict F s r = Ok s' /\ op_occupied F s' <= op_occupied F s /\
        (q_occ (f_ram s) <> 0 -> exists v z, last (q_q (f_ram s)) = Some v /\ q_q (f_ram s') = removelast (q_q (f_ram s)) /\
           in_ram lru s v /\ (forall id, in_ram lru s' id <-> in_ram lru s id /\ id <> v) /\ G v z /\
           o_size <$> c_tbl (q_c (f_ram s)) !! v = Some z /\
           f_seed s' = (rnd (f_seed s)).2 /\
           ((rnd (f_seed s)).1 mod inv = 0 -> z <= cap - rsz ->
              on_disk O s' v /\ (forall id, on_disk O s' id -> id = v \/ on_disk O s id) /\
              (op_occupied O (f_disk s) + z <= cap - rsz -> forall id, on_disk O s id -> on_disk O s' id)) /\
           ((rnd (f_seed s)).1 mod inv <> 0 \/ cap - rsz < z ->
              ~ resident F s' v /\ forall id, on_disk O s' id <-> on_disk O s id)) /\
        (q_occ (f_ram s) = 0 -> exists v t m, R (f_disk s) (mkAbs t m AdmNone) /\ pol m v /\ on_disk O s v /\
           (forall id, in_ram lru s' id <-> in_ram lru s id) /\
           (forall id, on_disk O s' id <-> on_disk O s id /\ id <> v)).
    Proof using All.
      intros r Hpos. destruct fp_after as (lr & t & m & HD & Hl).
      pose proof (fp_in _ _ _ _ HD) as (Hi & Hm).
      pose proof (fp_nobj _ _ _ _ HD) as (Hn & Hocc & Hod & Hor). rewrite Hocc in Hpos.
      edestruct (fok_evict pol O R lru rnd stale inv G cap rsz rmd) as (s1 & lr1 & t1 & m1 & He & HD1 & _ & Hb & Hc); try done.
      pose proof (fp_in _ _ _ _ HD1) as (Hi' & Hm').
      pose proof (fp_nobj _ _ _ _ HD1) as (_ & Hocc' & _).
      pose proof (fp_res _ _ _ _ HD1) as (HR1 & _).
      exists s1. split; [done|]. split; [lia|]. rewrite Hor.
      destruct (decide (bytes rmd lr = 0)) as [Hz|Hnz]; (split; [intros Hy|intros Hy]); try lia.
      - destruct Hc as (-> & _ & v & Hv & Hp & ->). exists v, t, m. split; [apply HD|]. split; [done|].
        rewrite Hm. split; [done|]. split; intros id; rewrite ?Hi', ?Hi, ?Hm', ?Hm; try done.
        rewrite lookup_delete_is_Some. naive_solver.
      - destruct Hc as (v & o & -> & Hs & Hc). exists v, (o_size o).
        pose proof (fok_r _ _ _ _ _ _ _ _ _ HD1) as Hr1. pose proof HD as [].
        destruct (NoDup_ids_mid lr1 v o [] (qok_nd _ _ _ _ fok_r)) as (Hv1 & _).
        assert (Hin : v ∈ ids (lr1 ++ [(v, o)])) by (rewrite ids_app; apply elem_of_app; right; left).
        rewrite (qok_q _ _ _ _ fok_r), (qok_q _ _ _ _ Hr1), ids_app. cbn [ids fmap list_fmap fst].
        rewrite last_snoc, removelast_snoc. split; [done|]. split; [done|]. split; [by apply Hi|]. split_and!.
        + intros id. rewrite Hi', Hi, ids_app, elem_of_app. cbn [ids fmap list_fmap fst]. rewrite elem_of_list_singleton.
          split; [intros Hx; split; [by left|by intros ->]|intros [[?|?] ?]; done].
        + eapply (allG_elem G (lr1 ++ [(v, o)])); [done|]. apply elem_of_app. right. left.
        + rewrite (proj2 (qok_lookup _ _ _ _ fok_r v o)); [done|]. apply elem_of_app. right. left.
        + done.
        + intros Hx Hfit. rewrite decide_True in Hc by done. destruct Hc as (m2 & e & Hev & ->).
          destruct (evict_to_size pol cap rsz _ _ _ Hev) as [Hss _].
          rewrite Hm', lookup_insert. split; [eauto|]. split.
          * intros id. rewrite Hm', Hm, lookup_insert_is_Some'. intros [->|[e' He']]; [by left|right].
            exists e'. by eapply lookup_weaken.
          * intros Hroom id. rewrite Hm', Hm, lookup_insert_is_Some'. intros Hid. right.
            inversion Hev as [|? ? ? Hno]; subst; [done|]. lia.
        + intros Hx. rewrite decide_False in Hc; [|intros [E1 E2]; destruct Hx as [?|?]; [congruence|lia]]. subst m1.
          split; [|intros id; by rewrite Hm', Hm]. rewrite HR1. intros [?|[e E]]; [done|]. by rewrite (fok_rd v Hin) in E.
    Qed.

    (** The RAM tier is never drained on its own account: as long as the accepted
        objects fit together in the whole cache, none reaches the disk, however
        small the RAM share is. *)
    Theorem C69_disk_unused : forall r s' h, req_ok rmd r -> G (r_id r) (r_size r) ->
      op_occupied F s + r_size r <= cap -> (forall id, ~ on_disk O s id) ->
      cache_get_base F fuel s r = Ok (s', h) -> forall id, ~ on_disk O s' id.
    Proof using All.
      intros r s' h Hr HG Hroom Hno Hg id. destruct (C69_get r Hr HG) as (_ & s1 & h1 & Hg1 & Hres & Hh & Hr1 & Hr2 & _).
      rewrite Hg in Hg1. injection Hg1 as <- <-. destruct h.
      - destruct (Hh eq_refl id) as [_ ->]. apply Hno.
      - destruct ((admit (c_adm (f_c s)) r).2) eqn:Ea.
        + destruct (decide (r_size r <= cap)).
          * destruct (Hr2 eq_refl eq_refl) as (_ & _ & _ & H4); [done|]. destruct (H4 Hroom id) as [_ ->]. apply Hno.
          * destruct (Hr1 eq_refl ltac:(right; lia) id) as [_ ->]. apply Hno.
        + destruct (Hr1 eq_refl ltac:(by left) id) as [_ ->]. apply Hno.
    Qed.
  End After.
End Props.

(** The disk caches flashProb accepts. *)
Theorem C69_disks : forall dsz, 0 <= dsz ->
  (simulation pol_fifo fifo_ops dsz 0 (req_ok 0) (qrel e_ins dsz 0) /\
     qrel e_ins dsz 0 (fifo_init dsz AdmNone) (abs_init AdmNone)) /\
  (forall mf, 0 <= mf -> simulation pol_any (clock_ops mf) dsz 0 (req_ok 0) (crel mf dsz 0) /\
     crel mf dsz 0 (clock_init dsz AdmNone) (abs_init AdmNone)).
Proof.
  intros dsz Hm. destruct (C55_qdlp_mains dsz Hm) as (_ & H2 & H3 & _). by split.
Qed.

(** inv_prob is the truncated inverse: a configured probability above one half
    writes every object that leaves the RAM tier and fits. *)
Theorem C69_prob_rounded : forall num den, 0 < num <= den -> den < 2 * num -> fp_inv_prob num den = 1 /\
  forall x, x mod fp_inv_prob num den = 0.
Proof.
  intros num den H1 H2. assert (fp_inv_prob num den = 1) as ->.
  { unfold fp_inv_prob. symmetry. apply Z.quot_unique with (den - num); lia. }
  split; [done|]. intros x. apply Z.mod_1_r.
Qed.
Theorem C69_prob_inverse : forall num den k, 0 < num -> 0 < k -> den = num * k -> fp_inv_prob num den = k.
Proof. intros num den k H1 H2 ->. unfold fp_inv_prob. symmetry. apply Z.quot_unique with 0; nia. Qed.

(** A generator whose draws are 0, 1, 2, ... and the disk-admit-prob of 1/2. *)
Definition ctr (x : Z) : Z * Z := (x, x + 1).
Definition keep (z : Z) : res Z := Ok z.
Definition freed (_ : Z) : res Z := Err UseAfterFree.
Definition fp_view {M} (O : ops M) (s : fp M) := (q_q (f_ram s), op_occupied O (f_disk s), op_nobj O (f_disk s)).

(** A run with the default tiers, cap 4 and RAM share 1: 1, 3 and 5 go to disk (which
    frees nothing), 2, 4 and 6 are dropped; the disk hit on 1 leaves it there; the
    removes work on the disk tier; evict sends 7 to disk. *)
Example C69_ex :
  let cs := [u1 1; u1 2; u1 3; u1 4; u1 5; u1 6; u1 7; u1 1; CRemove 1; CRemove 5; CEvict (mkReq 0 1 0 0 0)] in
  Forall (fp_call (fun _ z => z = 1) 0) cs /\
  (let! (s, os) := run (fp_ops fifo_ops true ctr keep (fp_inv_prob 1 2)) 40 (fp_init 4 1 0 AdmNone (fifo_init 3 AdmNone) 0) cs in
     Ok (q_q (f_ram s), q_q (f_disk s), f_wr s, os)) =
  Ok ([], [7; 3], 4,
      [OBool false; OBool false; OBool false; OBool false; OBool false; OBool false; OBool false; OBool true;
       OBool true; OBool true; OUnit]).
Proof.
  split; [|vm_compute; reflexivity].
  repeat (apply Forall_cons; split; [split; [cbn; unfold req_ok; cbn; lia|cbn; intros; try done; subst; lia]|]). constructor.
Qed.

(** Refuted (C07 for flashProb): the object written to disk has been freed by the
    remove before its size is read for the statistics. *)
Theorem C69_freed_refuted :
  run (fp_ops fifo_ops true ctr freed (fp_inv_prob 1 2)) 40 (fp_init 4 1 0 AdmNone (fifo_init 3 AdmNone) 0)
    [u1 1; u1 2; u1 3; u1 4; u1 5] = Err UseAfterFree.
Proof. vm_compute. reflexivity. Qed.

(** Refuted ("ram-size-ratio" of the cache is RAM): the RAM tier of share 1 holds
    all 4 bytes of the cache and the disk stays unused. *)
Theorem C69_ram_share_refuted :
  (let! (s, _) := run (fp_ops fifo_ops true ctr keep (fp_inv_prob 1 2)) 40 (fp_init 4 1 0 AdmNone (fifo_init 3 AdmNone) 0)
                    [u1 1; u1 2; u1 3; u1 4] in
     Ok (q_size (f_ram s), q_occ (f_ram s), op_nobj fifo_ops (f_disk s))) = Ok (1, 4, 0).
Proof. vm_compute. reflexivity. Qed.

(** Refuted (C02 for flashProb with consider_obj_metadata): the space check of the
    outer cache leaves out the metadata of the RAM tier. *)
Theorem C69_metadata_refuted :
  (let! (s, _) := run (fp_ops fifo_ops true ctr keep 2) 40 (fp_init 100 10 16 AdmNone (fifo_init 90 AdmNone) 0)
                    [CGet (mkReq 1 100 0 0 0)] in
     Ok (op_occupied (fp_ops fifo_ops true ctr keep 2) s, op_size (fp_ops fifo_ops true ctr keep 2) s)) = Ok (116, 100).
Proof. vm_compute. reflexivity. Qed.

(** Refuted (C07 for flashProb with disk-admit-prob above 1): inv_prob is 0 and the
    first eviction divides by it. *)
Theorem C69_prob_refuted :
  fp_inv_prob 2 1 = 0 /\
  run (fp_ops fifo_ops true ctr keep (fp_inv_prob 2 1)) 40 (fp_init 4 1 0 AdmNone (fifo_init 3 AdmNone) 0)
    [u1 1; u1 2; u1 3; u1 4; u1 5] = Err DivByZero.
Proof. split; vm_compute; reflexivity. Qed.

(** Refuted (C07 for flashProb's evict): with only objects of size 0 in RAM, evict
    goes to the empty disk tier and crashes there; and to_evict is not implemented. *)
Theorem C69_evict_refuted :
  run (fp_ops fifo_ops true ctr keep 2) 40 (fp_init 4 1 0 AdmNone (fifo_init 3 AdmNone) 0)
    [CGet (mkReq 1 0 0 0 0); CEvict (mkReq 2 1 0 0 0)] = Err NullDeref /\
  run (fp_ops fifo_ops true ctr keep 2) 40 (fp_init 4 1 0 AdmNone (fifo_init 3 AdmNone) 0)
    [u1 1; CToEvict (mkReq 2 1 0 0 0)] = Err AssertFail.
Proof. split; vm_compute; reflexivity. Qed.

(** Refuted ("an evicted RAM object that is admitted goes to disk"): an object that
    fits in the cache but not in the disk share is lost although it was admitted. *)
Theorem C69_large_refuted :
  (let! (s, os) := run (fp_ops fifo_ops true ctr keep 1) 40 (fp_init 4 2 0 AdmNone (fifo_init 2 AdmNone) 0)
                     [CGet (mkReq 1 3 0 0 0); CGet (mkReq 2 3 0 0 0); CFind (mkReq 1 3 0 0 0) false] in
     Ok (fp_view fifo_ops s, f_wr s, os)) = Ok (([2], 0, 0), 3, [OBool false; OBool false; OBool false]).
Proof. vm_compute. reflexivity. Qed.
