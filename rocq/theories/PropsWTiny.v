(** C56: W-TinyLFU, around any main cache that keeps the contract [main_ok]
    (proved for LRU, FIFO, Segmented LRU, and every cache simulated by the
    ledger machine: Clock, Sieve, LFU ...), keeps its window and its main cache
    disjoint and together within the cache size, admits to the window, and evicts
    by the frequency contest of [SpecWTiny.contest]; every client program runs to
    completion. *)
From stdpp Require Import gmap list numbers fin_maps.
From Verif Require Import Base Driver Abs AbsFacts Sim ModelQueue QueueFacts SimQueue ClockFacts SimClock SimSieve
  QList SpecApi SpecComp CompFacts ModelTwoQ ModelS3FIFO S3Facts ModelFilter ModelSLRU SpecSLRU
  ModelWTiny SpecWTiny WTinyFacts WTinyMains ModelLFU SimLFU SimMRU PropsS3FIFO.
Open Scope Z_scope.

(** Where an object is. *)
Definition w_in_win {M} (s : wt M) (id : Z) : Prop := resident lru_ops (w_lru s) id.
Definition w_in_main {M} (O : ops M) (s : wt M) (id : Z) : Prop := resident O (w_main s) id.

(** The client calls: get and find always; remove when the main cache supports
    it; evict when all objects have a positive size (otherwise it can crash:
    [C56_wtiny_evict_refuted]). *)
Definition wt_call (rem : bool) (G : Z -> Z -> Prop) (c : call) : Prop :=
  comp_call G 0 c /\
  match c with CEvict _ => forall id z, G id z -> 0 < z | CRemove _ => rem = true | _ => True end.

Lemma zsum_list (L : gmap Z Z) : zsum L = total_bytes (map_to_list L).
Proof.
  unfold zsum, map_fold, total_bytes, compose. induction (map_to_list L) as [|[j z] l IH]; [done|]. cbn. by rewrite IH.
Qed.

Lemma zsum_pos (G : Z -> Z -> Prop) (L : gmap Z Z) : (forall id z, G id z -> 0 < z) ->
  (forall id z, L !! id = Some z -> G id z) -> L <> ∅ -> 0 < zsum L.
Proof.
  intros HG HL Hne. apply map_choose in Hne as (id & z & Hz). rewrite <- (insert_delete _ _ _ Hz).
  rewrite zsum_insert by apply lookup_delete.
  assert (0 <= zsum (delete id L)).
  { apply zsum_nonneg. intros j y. rewrite lookup_delete_Some. intros [_ Hj]. apply HL, HG in Hj. lia. }
  apply HL, HG in Hz. lia.
Qed.

Lemma bytes_gt (G : Z -> Z -> Prop) l : (forall id z, G id z -> 0 < z) -> allG G l -> l <> [] -> 0 < bytes 0 l.
Proof.
  intros HG Hl Hne. assert (Hn : forall l', allG G l' -> 0 <= bytes 0 l').
  { induction l' as [|x l' IH]; intros Hl'; [done|]. apply Forall_cons in Hl' as [H1 H2].
    rewrite bytes_cons. specialize (IH H2). apply HG in H1. cbn in H1. lia. }
  destruct l as [|x l]; [done|]. apply Forall_cons in Hl as [H1 H2]. rewrite bytes_cons.
  apply HG in H1. specialize (Hn _ H2). cbn in H1. lia.
Qed.

Section C56.
  Context {M : Type} (O : ops M) (h1 h2 : Z -> Z) (msz : Z) (good fitm : Z -> Prop) (over plain rem : bool)
          (MR : M -> gmap Z Z -> Prop).
  Context (G : Z -> Z -> Prop) (cap wsz : Z) (main0 : M) (k0 : cbf) (adm : admissioner).
  Context (HM : main_ok O msz good fitm over plain rem MR).
  Context (Hgood : forall id z, G id z -> good z).
  (** Either the main cache can be given more than it has room for, or all
      objects have the same size. *)
  Context (Hover : over = true \/ forall i j y z, G i y -> G j z -> y = z).
  Context (Hcap : 0 <= cap) (HM0 : MR main0 ∅) (Hk0 : cbf_wf k0).
  Notation s0 := (wt_init O cap wsz main0 k0 adm).
  Notation wops := (wt_ops O h1 h2).
  Notation ok := (wok fitm MR G cap wsz).

  Lemma wt_in s lw L : ok s lw L -> (forall id, w_in_win s id <-> id ∈ ids lw) /\
    (forall id, w_in_main O s id <-> is_Some (L !! id)).
  Proof using HM.
    intros []. unfold w_in_win, w_in_main. split.
    - apply (in_q lru_ops _ _ _ _ wok_w). by right.
    - intros id. unfold resident. split.
      + intros HR. destruct (HR (mkReq id 0 0 0 0) eq_refl) as (s' & Hf).
        rewrite (mi_find_false _ _ _ _ _ _ _ _ HM _ _ _ wok_m) in Hf. injection Hf as _ Hf. by apply bool_decide_eq_true in Hf.
      + intros Hid r <-. exists (w_main s). rewrite (mi_find_false _ _ _ _ _ _ _ _ HM _ _ _ wok_m).
        by rewrite bool_decide_eq_true_2.
  Qed.

  Lemma wt_res s lw L : ok s lw L ->
    (forall id, resident wops s id <-> id ∈ ids lw \/ is_Some (L !! id)) /\
    (forall id, absent wops s id <-> ~ (id ∈ ids lw \/ is_Some (L !! id))).
  Proof using HM.
    intros HD. unfold resident, absent. cbn [op_find wt_ops].
    pose proof (fun r => wok_find_false O h1 h2 msz good fitm over plain rem MR G cap wsz HM s lw L r HD) as HF.
    split; intros id; split.
    - intros HR. destruct (HR (mkReq id 0 0 0 0) eq_refl) as (s' & Hf). rewrite HF in Hf.
      injection Hf as _ Hf. by apply bool_decide_eq_true in Hf.
    - intros Hid r <-. exists s. rewrite HF. by rewrite bool_decide_eq_true_2.
    - intros HR. destruct (HR (mkReq id 0 0 0 0) eq_refl) as (s' & Hf). rewrite HF in Hf.
      injection Hf as _ Hf. by apply bool_decide_eq_false in Hf.
    - intros Hid r <-. exists s. rewrite HF. by rewrite bool_decide_eq_false_2.
  Qed.

  Lemma wt_pos s lw L : ok s lw L -> (forall id z, G id z -> 0 < z) -> 0 < op_nobj wops s -> bytes 0 lw + zsum L > 0.
  Proof using HM.
    intros HD HG Hn. destruct (wok_occ O h1 h2 msz good fitm over plain rem MR G cap wsz HM s lw L HD) as (_ & _ & E). rewrite E in Hn.
    destruct (wok_nonneg O msz good fitm over plain rem MR G cap wsz HM s lw L HD) as [Hb1 Hb2].
    destruct lw as [|x lw].
    - destruct (decide (L = ∅)) as [->|Hne]; [rewrite map_size_empty in Hn; cbn in Hn; lia|].
      pose proof (zsum_pos G L HG (wok_Gm _ _ _ _ _ _ _ _ HD) Hne). lia.
    - pose proof (bytes_gt G (x :: lw) HG (wok_Gw _ _ _ _ _ _ _ _ HD) ltac:(done)). lia.
  Qed.

  Lemma wt_step s lw L fuel c : ok s lw L -> wt_call rem G c -> (length lw + size L <= fuel)%nat ->
    exists s' o lw' L', step wops fuel s c = Ok (s', o) /\ ok s' lw' L' /\
      (length lw' + size L' <= length lw + size L + 1)%nat.
  Proof using HM Hgood Hover.
    intros HD [Hc Hev] Hfu. destruct c as [r|r u|r|id|r|r]; cbn [comp_call] in Hc; try done; cbn [step].
    - destruct Hc as [Hr HG].
      destruct (wok_get O h1 h2 msz good fitm over plain rem MR G cap wsz HM Hgood Hover s lw L r fuel HD Hr HG Hfu)
        as (s' & lw' & L' & -> & HS' & Hl & _). cbn [rbind]. eexists s', _, lw', L'. by split_and!.
    - cbn [op_find wt_ops]. destruct u.
      + destruct (wok_find_true O h1 h2 msz good fitm over plain rem MR G cap wsz HM Hover s lw L r HD)
          as (s' & lw' & L' & -> & HS' & _ & _ & Hl & _ & _ & Hss & _).
        cbn [rbind]. eexists s', _, lw', L'. split_and!; try done. pose proof (size_sub L' L Hss). lia.
      + rewrite (wok_find_false O h1 h2 msz good fitm over plain rem MR G cap wsz HM s lw L r HD). cbn [rbind].
        eexists s, _, lw, L. split_and!; try done. lia.
    - cbn [op_remove wt_ops].
      destruct (wok_remove O h1 h2 msz good fitm over plain rem MR G cap wsz HM Hover s lw L id Hev HD) as (s' & -> & HS'). cbn [rbind].
      eexists s', _, _, _. split; [done|]. split; [exact HS'|].
      pose proof (length_del_le id lw). pose proof (size_sub (delete id L) L (delete_subseteq _ _)). lia.
    - destruct (decide (op_nobj wops s <= 0)).
      { eexists s, _, lw, L. split_and!; try done. lia. }
      cbn [op_evict wt_ops].
      destruct (wok_evict O h1 h2 msz good fitm over plain rem MR G cap wsz HM Hover r s lw L HD) as
        (s1 & lw1 & L1 & gone & -> & HS1 & _ & _ & _ & Hl & _).
      { eapply wt_pos; [done..|lia]. }
      cbn [rbind]. eexists s1, _, lw1, L1. split_and!; try done. lia.
  Qed.

  Lemma wt_run cs : forall s lw L fuel, ok s lw L -> Forall (wt_call rem G) cs ->
    (length lw + size L + length cs <= fuel)%nat ->
    exists s' os lw' L', run wops fuel s cs = Ok (s', os) /\ ok s' lw' L' /\
      (length lw' + size L' <= length lw + size L + length cs)%nat.
  Proof using HM Hgood Hover.
    induction cs as [|c cs IH]; intros s lw L fuel HD Hc Hf.
    - exists s, [], lw, L. split_and!; try done. cbn. lia.
    - apply Forall_cons in Hc as [Hc Hcs]. cbn [length] in Hf. cbn [run].
      destruct (wt_step s lw L fuel c HD Hc ltac:(lia)) as (s1 & o & lw1 & L1 & -> & H1 & Hl).
      cbn [rbind]. destruct (IH s1 lw1 L1 fuel H1 Hcs ltac:(lia)) as (s' & os & lw' & L' & -> & H' & Hl').
      cbn [rbind length]. exists s', (o :: os), lw', L'. split_and!; try done. lia.
  Qed.

  Lemma wt_from_init cs fuel : Forall (wt_call rem G) cs -> (length cs <= fuel)%nat ->
    exists s os lw L, run wops fuel s0 cs = Ok (s, os) /\ ok s lw L /\ (length lw + size L <= length cs)%nat.
  Proof using HM Hgood Hover Hcap HM0 Hk0.
    intros Hcs Hf. destruct (wt_run cs s0 [] ∅ fuel) as (s & os & lw & L & Hr & HD & Hl).
    - by apply wok_init.
    - done.
    - rewrite map_size_empty. cbn. lia.
    - rewrite map_size_empty in Hl. exists s, os, lw, L. by split_and!.
  Qed.

  (** Every program completes (for the whole program together, one eviction per
      call is enough). *)
  Theorem C56_wtiny_completes : forall cs fuel, Forall (wt_call rem G) cs -> (length cs <= fuel)%nat ->
    exists s os, run wops fuel s0 cs = Ok (s, os).
  Proof using HM Hgood Hover Hcap HM0 Hk0.
    intros cs fuel Hcs Hf. destruct (wt_from_init cs fuel Hcs Hf) as (s & os & _ & _ & Hr & _). by exists s, os.
  Qed.

  Section After.
    Context (cs : list call) (fuel : nat) (s : wt M) (os : list obs).
    Context (Hcs : Forall (wt_call rem G) cs) (Hfu : (length cs <= fuel)%nat)
            (Hrun : run wops fuel s0 cs = Ok (s, os)).

    Lemma wt_after : exists lw L, ok s lw L /\ (length lw + size L <= length cs)%nat.
    Proof using HM Hgood Hover Hcap HM0 Hk0 Hcs Hfu Hrun.
      destruct (wt_from_init cs fuel Hcs Hfu) as (s' & os' & lw & L & Hr & HD & Hl).
      rewrite Hrun in Hr. injection Hr as <- <-. by exists lw, L.
    Qed.

    (** No id is in both parts; the occupied bytes never exceed the configured
        size; the counters are the number of resident objects and their bytes,
        every size being one that the client asked for that id.  A main cache
        that refuses what it has no room for stays within its share. *)
    Theorem C56_wtiny_invariant :
      (forall id, ~ (w_in_win s id /\ w_in_main O s id)) /\
      (forall id, resident wops s id <-> w_in_win s id \/ w_in_main O s id) /\
      0 <= op_occupied wops s <= cap /\
      (over = false -> op_occupied O (w_main s) <= op_size O (w_main s)) /\
      exists L, ledger wops L G s /\ op_occupied wops s = total_bytes L.
    Proof using HM Hgood Hover Hcap HM0 Hk0 Hcs Hfu Hrun.
      destruct wt_after as (lw & L & HD & _). pose proof (wt_in _ _ _ HD) as (Hi & Hm).
      pose proof (wt_res _ _ _ HD) as (HR & HA).
      destruct (wok_occ O h1 h2 msz good fitm over plain rem MR G cap wsz HM s lw L HD) as (Hocc & _ & Hn). pose proof HD as [].
      destruct (wok_nonneg O msz good fitm over plain rem MR G cap wsz HM s lw L HD) as [Hb1 Hb2].
      split_and!; try lia.
      - intros id. rewrite Hi, Hm. intros [H1 [e H2]]. by rewrite (wok_wm id H1) in H2.
      - intros id. by rewrite Hi, Hm, HR.
      - intros Ho. rewrite (mi_occ _ _ _ _ _ _ _ _ HM _ _ wok_m), (mi_size _ _ _ _ _ _ _ _ HM _ _ wok_m).
        by apply (mi_within _ _ _ _ _ _ _ _ HM _ _ wok_m).
      - exists (szs lw ++ map_to_list L).
        assert (HL : forall id, id ∈ (map_to_list L).*1 <-> is_Some (L !! id)).
        { intros id. rewrite elem_of_list_fmap. split.
          - intros ([j e] & -> & Hj). apply elem_of_map_to_list in Hj. eauto.
          - intros [e He]. exists (id, e). split; [done|]. by apply elem_of_map_to_list. }
        split.
        + unfold ledger. rewrite fmap_app, szs_ids, app_length, szs_length. split_and!.
          * apply NoDup_app. split_and!; [apply wok_w| |apply NoDup_fst_map_to_list].
            intros id H1 H2. apply HL in H2 as [e He]. by rewrite (wok_wm id H1) in He.
          * intros id. by rewrite HR, elem_of_app, HL.
          * intros id. by rewrite HA, elem_of_app, HL.
          * rewrite Hn. done.
          * apply Forall_app. split; [by apply szs_G|]. apply Forall_forall.
            intros [j e] Hj. apply elem_of_map_to_list in Hj. cbn. by apply wok_Gm.
        + rewrite Hocc, (szs_bytes 0 lw), zsum_list. unfold total_bytes. rewrite foldr_app.
          generalize (foldr (fun (x : Z * Z) acc => x.2 + acc) 0 (map_to_list L)). intros z. clear.
          induction (szs lw) as [|x l IH]; cbn; lia.
    Qed.

    (** A lookup without update changes nothing.  A get hits exactly on a resident
        object; a hit keeps the window and adds nothing to the main cache, and
        keeps the main cache as well when its own hits drop nothing ([plain]).  A
        missed object is cached exactly when the admissioner accepts it and it
        fits in the cache, the window and the main cache; it is then in the
        window, and when there was room nothing else has left. *)
    Theorem C56_wtiny_get : forall r, req_ok 0 r -> G (r_id r) (r_size r) ->
      (exists b, op_find wops s r false = Ok (s, b)) /\
      exists s' h, cache_get_base wops fuel s r = Ok (s', h) /\
        (h = true <-> resident wops s (r_id r)) /\
        (h = true -> forall id, (w_in_win s' id <-> w_in_win s id) /\ (w_in_main O s' id -> w_in_main O s id) /\
           (plain = true \/ w_in_win s (r_id r) \/ id = r_id r -> w_in_main O s id -> w_in_main O s' id)) /\
        (h = false -> (forall id, resident wops s' id -> id = r_id r \/ resident wops s id) /\
           ((admit (w_adm s) r).2 = true /\ r_size r <= cap /\ r_size r <= wsz /\ fitm (r_size r) ->
             w_in_win s' (r_id r) /\
             (forall id, w_in_win s' id -> id = r_id r \/ w_in_win s id) /\
             (op_occupied wops s + r_size r <= cap -> forall id, resident wops s id -> resident wops s' id)) /\
           (~ ((admit (w_adm s) r).2 = true /\ r_size r <= cap /\ r_size r <= wsz /\ fitm (r_size r)) ->
             forall id, (w_in_win s' id <-> w_in_win s id) /\ (w_in_main O s' id <-> w_in_main O s id))).
    Proof using HM Hgood Hover Hcap HM0 Hk0 Hcs Hfu Hrun.
      intros r Hr HG. destruct wt_after as (lw & L & HD & Hl).
      pose proof (wt_in _ _ _ HD) as (Hi & Hm). pose proof (wt_res _ _ _ HD) as (HR & HA).
      split. { eexists. apply (wok_find_false O h1 h2 msz good fitm over plain rem MR G cap wsz HM s lw L r HD). }
      destruct (wok_get O h1 h2 msz good fitm over plain rem MR G cap wsz HM Hgood Hover s lw L r fuel HD Hr HG ltac:(lia))
        as (s' & lw' & L' & He & HS' & _ & Hhit & Hmiss).
      pose proof (wt_in _ _ _ HS') as (Hi' & Hm'). pose proof (wt_res _ _ _ HS') as (HR' & HA').
      destruct (wok_occ O h1 h2 msz good fitm over plain rem MR G cap wsz HM s lw L HD) as (Hocc & _ & _).
      eexists s', _. split; [exact He|]. rewrite HR. split_and!.
      - apply bool_decide_eq_true.
      - intros Hb%bool_decide_eq_true id. destruct (Hhit Hb) as (E1 & E2 & E3 & E4 & _).
        rewrite Hi', Hm', Hi, Hm, E1, Hi. split_and!; [done| |].
        + intros [z Hz]. exists z. by eapply lookup_weaken.
        + intros Hp Hid. assert (HX : (plain = true \/ L !! r_id r = None) \/ id = r_id r).
          { destruct Hp as [?|[Hw|?]]; [by left; left| |by right]. left. right. by apply (wok_wm _ _ _ _ _ _ _ _ HD). }
          destruct HX as [HX| ->]; [by rewrite (E4 HX)|by apply E3].
      - intros Hb%bool_decide_eq_false. destruct (Hmiss Hb) as (H1 & H2). split_and!.
        + intros id. rewrite HR', HR.
          (* admitted or not: [fitm] need not be decidable *)
          assert (HC : forall id, id ∈ ids lw' \/ is_Some (L' !! id) -> ~ ~ (id = r_id r \/ id ∈ ids lw \/ is_Some (L !! id))).
          { clear id. intros id Hid HN.
            assert (Hnot : ~ ((admit (w_adm s) r).2 = true /\ r_size r <= cap /\ r_size r <= wsz /\ fitm (r_size r))).
            { intros HX. destruct (H1 HX) as ((l0 & d & o & -> & -> & _) & HL & _). apply HN. destruct Hid as [Hid|[z Hz]].
              - unfold ids in Hid. rewrite fmap_cons in Hid. apply elem_of_cons in Hid as [->|Hid]; [by left|].
                right. left. unfold ids. rewrite fmap_app. apply elem_of_app. by left.
              - right. destruct (HL _ _ Hz) as [Hz'|(o' & Ho' & _)]; [right; eauto|]. left.
                by apply (elem_of_list_fmap_1 fst) in Ho'. }
            destruct (H2 Hnot) as [-> ->]. tauto. }
          intros Hid. specialize (HC id Hid).
          destruct (decide (id = r_id r)); [by left|]. right.
          destruct (decide (id ∈ ids lw)); [by left|]. right.
          destruct (L !! id) eqn:E; [by eauto|]. exfalso. apply HC. intros [?|[?|?%is_Some_None]]; done.
        + intros HX. destruct (H1 HX) as ((l0 & d & o & -> & -> & _) & HL & Hroom). rewrite Hi'.
          split_and!.
          * unfold ids. rewrite fmap_cons. left.
          * intros id. rewrite Hi', Hi. unfold ids. rewrite fmap_cons, fmap_app. intros [->|Hid]%elem_of_cons; [by left|].
            right. apply elem_of_app. by left.
          * rewrite Hocc. intros Hf id. destruct (Hroom Hf) as [-> E]. rewrite HR, HR', E. intros [?|?]; [|by right].
            left. by right.
        + intros HX id. destruct (H2 HX) as [-> ->]. by rewrite Hi', Hm', Hi, Hm.
    Qed.

    (** remove takes the id out and touches nothing else (for a main cache with a
        working remove). *)
    Theorem C56_wtiny_remove : rem = true -> forall id,
      exists s' b, op_remove wops s id = Ok (s', b) /\
        (b = true <-> resident wops s id) /\ ~ resident wops s' id /\
        forall j, j <> id -> (w_in_win s' j <-> w_in_win s j) /\ (w_in_main O s' j <-> w_in_main O s j).
    Proof using HM Hgood Hover Hcap HM0 Hk0 Hcs Hfu Hrun.
      intros Hrem id. destruct wt_after as (lw & L & HD & Hl).
      pose proof (wt_in _ _ _ HD) as (Hi & Hm). pose proof (wt_res _ _ _ HD) as (HR & HA).
      destruct (wok_remove O h1 h2 msz good fitm over plain rem MR G cap wsz HM Hover s lw L id Hrem HD) as (s' & He & H').
      pose proof (wt_in _ _ _ H') as (Hi' & Hm'). pose proof (wt_res _ _ _ H') as (HR' & _).
      eexists _, _. split; [exact He|]. rewrite bool_decide_eq_true, HR, HR', !elem_ids_del, lookup_delete_is_Some.
      split_and!; try tauto. intros j Hj. rewrite Hi', Hm', !elem_ids_del, lookup_delete_is_Some, Hi, Hm.
      naive_solver.
    Qed.

    (** An evict with any byte cached runs the contest of [SpecWTiny] on the
        window (most recently used first) and ends with fewer objects and no more
        bytes.  The objects chosen to leave were resident and have left; nothing
        new is resident; no object enters the window; and when the main cache
        drops nothing on its own ([plain]) nothing else has left. *)
    Theorem C56_wtiny_evict : forall r, op_occupied wops s > 0 ->
      exists s' W W' gone, op_evict wops s r = Ok s' /\
        W.*1 = q_q (w_lru s) /\ W'.*1 = q_q (w_lru s') /\
        (forall id z, (id, z) ∈ W -> exists o, c_tbl (q_c (w_lru s)) !! id = Some o /\ o_size o = z) /\
        contest O h1 h2 r W (w_main s) (w_cbf s) gone W' (w_main s') (w_cbf s') /\
        op_occupied wops s' <= op_occupied wops s /\ op_nobj wops s' < op_nobj wops s /\
        (forall id, w_in_win s' id -> w_in_win s id) /\
        (forall id, resident wops s' id -> resident wops s id) /\
        (forall id, id ∈ gone -> resident wops s id /\ ~ resident wops s' id) /\
        (plain = true -> forall id, resident wops s id -> id ∈ gone \/ resident wops s' id).
    Proof using HM Hgood Hover Hcap HM0 Hk0 Hcs Hfu Hrun.
      intros r Hpos. destruct wt_after as (lw & L & HD & Hl).
      pose proof (wt_in _ _ _ HD) as (Hi & Hm). pose proof (wt_res _ _ _ HD) as (HR & HA).
      destruct (wok_occ O h1 h2 msz good fitm over plain rem MR G cap wsz HM s lw L HD) as (Hocc & _ & Hn).
      rewrite Hocc in Hpos.
      destruct (wok_evict O h1 h2 msz good fitm over plain rem MR G cap wsz HM Hover r s lw L HD Hpos) as
        (s' & lw' & L' & gone & He & H' & _ & Hc & Hby & Hle & (d & Hd) & HL & Hg1 & Hg2 & Hpl).
      pose proof (wt_in _ _ _ H') as (Hi' & Hm'). pose proof (wt_res _ _ _ H') as (HR' & _).
      destruct (wok_occ O h1 h2 msz good fitm over plain rem MR G cap wsz HM s' lw' L' H') as (Hocc' & _ & Hn').
      assert (Hsub : forall id, id ∈ ids lw' -> id ∈ ids lw).
      { intros id. rewrite Hd. unfold ids. rewrite fmap_app, elem_of_app. by left. }
      exists s', (szs lw), (szs lw'), gone. rewrite !szs_ids, Hocc, Hocc', Hn, Hn'. split_and!; try done; try lia.
      - symmetry. apply (wok_w _ _ _ _ _ _ _ _ HD).
      - symmetry. apply (wok_w _ _ _ _ _ _ _ _ H').
      - intros id z. unfold szs. rewrite elem_of_list_fmap. intros ([j o] & [= -> ->] & Ho). exists o. split; [|done].
        by apply (qok_lookup _ _ _ _ (wok_w _ _ _ _ _ _ _ _ HD)).
      - intros id. rewrite Hi', Hi. apply Hsub.
      - intros id. rewrite HR', HR. intros [?|[z Hz]]; [left; by apply Hsub|].
        destruct (HL _ _ Hz) as [?|(o & Ho & _)]; [right; eauto|left]. by apply (elem_of_list_fmap_1 fst) in Ho.
      - rewrite Forall_forall in Hg1. intros id Hid. rewrite HR, HR'. split; [by apply Hg1|by apply Hg2].
      - intros Hp id. rewrite HR, HR'. by apply Hpl.
    Qed.
  End After.
End C56.

(** The main caches: the theorems above hold for LRU, FIFO, LFU, Clock, Sieve
    and Segmented LRU, as [WTinyLFU_init] creates them. *)
Theorem C56_wtiny_mains : forall msz, 0 <= msz ->
  (main_ok lru_ops msz (fun _ => True) (fun z => z <= msz) true true true (q_MR msz) /\ q_MR msz (lru_init false msz AdmNone) ∅) /\
  (main_ok fifo_ops msz (fun _ => True) (fun z => z <= msz) true true true (q_MR msz) /\ q_MR msz (fifo_init msz AdmNone) ∅) /\
  (main_ok lfu_ops msz (fun _ => True) (fun z => z <= msz) false true true (sim_MR (lrel msz 0) msz) /\
     sim_MR (lrel msz 0) msz (lfu_init false msz AdmNone) ∅) /\
  (forall mf, 0 <= mf -> main_ok (clock_ops mf) msz (fun _ => True) (fun z => z <= msz) false true true (sim_MR (crel mf msz 0) msz) /\
     sim_MR (crel mf msz 0) msz (clock_init msz AdmNone) ∅) /\
  (main_ok sieve_ops msz (fun _ => True) (fun z => z <= msz) false true true (sim_MR (SimSieve.srel msz 0) msz) /\
     sim_MR (SimSieve.srel msz 0) msz (sieve_init false msz AdmNone) ∅) /\
  (forall ms, Forall (fun m => 0 <= m) ms -> (0 < length ms)%nat ->
     main_ok slru_ops msz (fun z => 0 < z < 2 ^ 32) (fun z => 0 < z < 2 ^ 32 /\ z <= msz /\ z <= ms !!! 0%nat) false false false
       (sl_MR ms msz) /\
     sl_MR ms msz (slru_init false msz ms AdmNone) ∅).
Proof.
  intros msz Hm.
  assert (HI : forall M (R : M -> abs -> Prop) m, R m (abs_init AdmNone) -> sim_MR R msz m ∅).
  { intros M R m HR. exists 0, ∅. split; [exact HR|]. split; [by apply abs_init_ok|]. by rewrite fmap_empty. }
  split_and!.
  - apply main_of_queue. by right.
  - apply q_MR_init.
  - apply main_of_queue. by left.
  - apply q_MR_init.
  - apply main_of_sim with (pol := pol_lfu). apply lfu_sim.
  - apply HI. by apply lfu_init_rel.
  - intros mf Hmf. split; [eapply main_of_sim, clock_sim; done|]. apply HI, clock_init_rel.
  - eapply main_of_sim, sieve_sim.
  - apply HI, sieve_init_rel.
  - intros ms H1 H2. split; [by apply main_of_slru|]. by apply sl_MR_init.
Qed.

Definition wt_h1 (x : Z) : Z := x.
Definition wt_h2 (_ : Z) : Z := 1.
Definition wt_g (id z : Z) : call := CGet (mkReq id z 0 0 0).
Definition wt_lru_run (cap wsz : Z) (cs : list call) : res (list Z * list Z * Z * Z * list obs) :=
  let! (s, os) := run (wt_ops lru_ops wt_h1 wt_h2) 40
      (wt_init lru_ops cap wsz (lru_init false (cap - wsz) AdmNone) (cbf_init 1 32) AdmNone) cs in
  Ok (q_q (w_lru s), q_q (w_main s), q_occ (w_lru s), q_occ (w_main s), os).

(** A run with an LRU main cache in which 5 loses its contest, 4 wins one (it had
    been requested again after losing one), and objects are removed. *)
Example C56_wtiny_ex :
  let cs := [u1 1; u1 2; u1 3; u1 4; u1 5; u1 6; u1 4; u1 7; u1 8; CFind (mkReq 4 1 0 0 0) true; CRemove 2; u1 9] in
  Forall (wt_call true (fun _ z => z = 1)) cs /\
  cbf_wf (cbf_init 1 32) /\
  wt_lru_run 5 2 cs =
  Ok ([9; 8], [4; 3], 2, 2,
      [OBool false; OBool false; OBool false; OBool false; OBool false; OBool false; OBool false; OBool false;
       OBool false; OBool true; OBool true; OBool false]).
Proof.
  split; [|split; [by apply cbf_init_wf|vm_compute; reflexivity]].
  repeat (apply Forall_cons; split; [split; [cbn; unfold req_ok; cbn; try lia|done]; done|]). constructor.
Qed.

(** The same with the default main cache, Segmented LRU with sizes 1:3. *)
Example C56_wtiny_slru_ex :
  let cs := [u1 1; u1 2; u1 3; u1 4; u1 5; u1 6; u1 7; u1 8; u1 3; u1 3; u1 9] in
  Forall (wt_call false (fun _ z => z = 1)) cs /\
  (let! (s, os) := run (wt_ops slru_ops wt_h1 wt_h2) 40
      (wt_init slru_ops 6 2 (slru_init false 4 [1; 3] AdmNone) (cbf_init 1 32) AdmNone) cs in
    Ok (q_q (w_lru s), sl_q (w_main s), os)) =
  Ok ([9; 8], [[1]; [3; 4; 2]],
      [OBool false; OBool false; OBool false; OBool false; OBool false; OBool false; OBool false; OBool false;
       OBool true; OBool true; OBool false]).
Proof.
  split; [|vm_compute; reflexivity].
  repeat (apply Forall_cons; split; [split; [cbn; unfold req_ok; cbn; try lia|done]; done|]). constructor.
Qed.

(** Refuted: neither part stays within its share.  The window of 2 bytes fills
    the whole cache of 5; and an LRU main cache of 5 bytes holds 8. *)
Theorem C56_wtiny_share_refuted :
  wt_lru_run 5 2 [u1 1; u1 2; u1 3; u1 4; u1 5] =
    Ok ([5; 4; 3; 2; 1], [], 5, 0, [OBool false; OBool false; OBool false; OBool false; OBool false]) /\
  wt_lru_run 10 5 [u1 1; u1 2; u1 3; u1 4; u1 5; wt_g 6 5; wt_g 7 5; wt_g 6 5; u1 8] =
    Ok ([8], [6; 5; 4; 3], 1, 8,
        [OBool false; OBool false; OBool false; OBool false; OBool false; OBool false; OBool false; OBool false; OBool false]).
Proof. split; vm_compute; reflexivity. Qed.

(** Refuted (the point of the frequency filter): hits in the window are not
    counted.  Object 5 is requested five times while 1 is requested once; when
    they meet, 5 leaves and 1 stays. *)
Theorem C56_wtiny_frequency_refuted :
  wt_lru_run 5 2 [u1 1; u1 2; u1 3; u1 4; u1 5; u1 5; u1 5; u1 5; u1 5; u1 6; u1 7] =
    Ok ([7; 6], [3; 2; 1], 2, 3,
        [OBool false; OBool false; OBool false; OBool false; OBool false; OBool true; OBool true; OBool true; OBool true;
         OBool false; OBool false]).
Proof. vm_compute. reflexivity. Qed.

(** Refuted (C06 for W-TinyLFU): with fewer than 100 bytes the default window of
    one percent has size 0, and nothing is ever cached. *)
Theorem C56_wtiny_small_refuted :
  wt_lru_run 99 0 [u1 1; u1 1; u1 1] = Ok ([], [], 0, 0, [OBool false; OBool false; OBool false]).
Proof. vm_compute. reflexivity. Qed.

(** Refuted (C07, C36 for W-TinyLFU's evict and to_evict): with only objects of
    size 0 cached evict goes to the empty main cache and crashes; one evict can
    remove two objects (4 takes the place of 1 and then 7 loses to 2); to_evict
    answers NULL; and with consider_obj_metadata the constructor uses a pointer
    that was never set. *)
Theorem C56_wtiny_evict_refuted :
  wt_lru_run 10 5 [wt_g 1 0; CEvict (mkReq 2 1 0 0 0)] = Err NullDeref /\
  wt_lru_run 5 2 [u1 1; u1 2; u1 3; u1 4; u1 5; u1 6; u1 4; u1 7] =
    Ok ([7; 4], [3; 2; 1], 2, 3, [OBool false; OBool false; OBool false; OBool false; OBool false; OBool false; OBool false; OBool false]) /\
  wt_lru_run 5 2 [u1 1; u1 2; u1 3; u1 4; u1 5; u1 6; u1 4; u1 7; CEvict (mkReq 8 1 0 0 0)] =
    Ok ([], [4; 3; 2], 0, 3,
        [OBool false; OBool false; OBool false; OBool false; OBool false; OBool false; OBool false; OBool false; OUnit]) /\
  wt_lru_run 5 2 [u1 1; CToEvict (mkReq 2 1 0 0 0)] = Ok ([1], [], 1, 0, [OBool false; OVictim None]) /\
  (forall cap wsz adm, wt_create lru_ops true cap wsz (lru_init false (cap - wsz) AdmNone) (cbf_init 1 32) adm = Err Uninit).
Proof. split_and!; try (vm_compute; reflexivity). Qed.
