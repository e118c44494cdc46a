(** C48-C50: the numbers of a trace analysis. *)
From stdpp Require Import gmap list numbers fin_maps sorting.
From Verif Require Import Base ModelAnalyzer SpecAnalyzer AnalyzerFacts AnalyzerWin AnalyzerStats
  AnalyzerDecay AnalyzerLink.
Open Scope Z_scope.

(** ** What an acceptable trace provides *)

Lemma trace_ok_start tw tr : trace_ok tw tr ->
  0 < tw /\ StronglySorted (fun a b => a_time a <= a_time b) tr /\
  Forall (fun q => start_of tr <= a_time q < start_of tr + 2 ^ 31) tr /\
  (rel (start_of tr) <$> head tr) = Some 0.
Proof.
  intros (Htw & q0 & rest & -> & Hs & Hb). split; [done|]. split; [done|].
  unfold start_of. cbn [head default fmap option_fmap option_map]. unfold id.
  split; [|unfold rel; f_equal; lia].
  assert (Hlo : Forall (fun q => a_time q0 <= a_time q) (q0 :: rest)).
  { apply StronglySorted_inv in Hs as [_ H]. constructor; [lia|done]. }
  rewrite Forall_forall in Hb, Hlo |- *. intros q Hq. specialize (Hb q Hq). specialize (Hlo q Hq).
  cbn in Hb, Hlo. split; [done|].
  assert (rel (a_time q0) q < (win tw (a_time q0) q + 1) * tw) by (apply div_window; unfold win; lia).
  unfold rel in *. lia.
Qed.

Lemma trace_ok_facts tw tr : trace_ok tw tr ->
  let t0 := start_of tr in let es := meanings tw t0 [] tr in
  rising 0 (ewin tw <$> es) /\ (e_time <$> head es) = Some 0 /\ Forall rt_ok es /\
  Forall (fun e => 0 <= e_create e <= e_time e /\ e_time e < 2 ^ 31) es.
Proof.
  intros Hok t0 es. destruct (trace_ok_start tw tr Hok) as (Htw & Hs & Hr & Hh).
  split; [|split].
  - unfold es. rewrite ms_win. apply ms_rising; [done|done|].
    eapply Forall_impl; [exact Hr|]. cbn. intros q Hq. unfold win, rel, t0.
    apply Z.div_pos; lia.
  - unfold es, t0. destruct tr as [|q tr]; [done|]. done.
  - unfold es. apply ms_rt_ok; try done; [constructor|].
    rewrite Forall_forall. intros; constructor.
Qed.

Lemma a_step_sumo tw t0 k q k' e : a_step tw t0 k q = Ok (k', e) ->
  0 <= k_sumo k < 2 ^ 64 -> 0 <= k_sumo k' < 2 ^ 64.
Proof.
  unfold a_step. intros H Hk.
  destruct (win_advance _ _ _ _ _) as [[idx nx]|] ; [|done]. cbn [rbind] in H.
  destruct (decide _); [done|]. destruct (k_map k !! a_id q) as [o|].
  - destruct (decide _); [done|]. destruct (decide _); [done|]. by injection H as <- _.
  - injection H as <- _. cbn [k_sumo]. unfold u64. apply Z.mod_pos_bound. lia.
Qed.
Lemma a_loop_sumo tw t0 qs : forall k k' es, a_loop tw t0 k qs = Ok (k', es) ->
  0 <= k_sumo k < 2 ^ 64 -> 0 <= k_sumo k' < 2 ^ 64.
Proof.
  induction qs as [|q qs IH]; intros k k' es H Hk; cbn [a_loop] in H; [by injection H as <- _|].
  destruct (a_step tw t0 k q) as [[k1 e]|] eqn:E; [|done]. cbn [rbind] in H.
  destruct (a_loop tw t0 k1 qs) as [[k2 es']|] eqn:E2; [|done]. cbn [rbind] in H.
  injection H as <- _. eapply IH; [done|]. by eapply a_step_sumo.
Qed.

Lemma objects_length tr : (length (objects tr) <= length tr)%nat.
Proof.
  unfold objects. induction tr as [|q tr IH]; [done|]. cbn [fmap list_fmap remove_dups length].
  destruct (decide_rel elem_of (a_id q) (a_id <$> tr)); cbn [length]; lia.
Qed.
Lemma cnt_fmap {A B} (g : A -> B) (f : B -> bool) l : cnt f (g <$> l) = cnt (fun x => f (g x)) l.
Proof. induction l as [|x l IH]; [done|]. cbn [fmap list_fmap]. by rewrite !cnt_cons, <- IH. Qed.
Lemma cnt_prop {A} (P : A -> Prop) `{forall x, Decision (P x)} (f : A -> bool) l :
  (forall x, x ∈ l -> f x = true <-> P x) -> cnt f l = Z.of_nat (length (filter P l)).
Proof.
  induction l as [|x l IH]; intros Hf; [done|]. rewrite cnt_cons, filter_cons.
  rewrite IH by (intros y Hy; apply Hf; by right).
  assert (Hx := Hf x ltac:(by left)).
  destruct (decide (P x)) as [Hp|Hp]; cbn [length].
  - apply Hx in Hp. rewrite Hp. lia.
  - destruct (f x); [naive_solver|lia].
Qed.

(** ** C48: totals *)

(** The first lines of the report: the number of requests and of objects, the
    bytes requested and the bytes of the objects (at their first request), and
    the time between the first and the last request.  The obj_map_ of the
    analyzer has exactly the objects of the trace. *)
Theorem C48_totals tw tr : trace_ok tw tr ->
  exists k es, analyze tw tr = Ok (k, es) /\
    k_n k = Z.of_nat (length tr) /\
    Z.of_nat (size (k_map k)) = Z.of_nat (length (objects tr)) /\
    (forall id, is_Some (k_map k !! id) <-> id ∈ (a_id <$> tr)) /\
    k_sumr k = u64 (zsum (a_size <$> tr)) /\
    k_sumo k = u64 (zsum (a_size <$> first_reqs [] tr)) /\
    time_span tr es = a_time (default areq0 (last tr)) - a_time (default areq0 (head tr)).
Proof.
  intros Hok. destruct (trace_ok_run tw tr Hok) as (k & Hrun & Hinv & Hsum).
  exists k, (meanings tw (start_of tr) [] tr). split; [done|].
  pose proof (core_dom tw (start_of tr) tr k Hinv) as Hdom.
  split; [by rewrite (ci_n _ _ _ _ Hinv), rev_length|].
  split; [by rewrite <- Hdom, fmap_length|].
  split.
  { intros i. unfold objects in Hdom. rewrite <- elem_of_remove_dups, <- Hdom.
    split.
    - intros [o Ho]. apply elem_of_list_fmap. exists (i, o). split; [done|].
      by apply elem_of_map_to_list.
    - intros H. apply elem_of_list_fmap in H as ([j o] & -> & H).
      apply elem_of_map_to_list in H. by exists o. }
  split.
  { rewrite (ci_sumr _ _ _ _ Hinv). f_equal. clear.
    induction tr as [|q tr IH]; [done|]. cbn [rev].
    rewrite fmap_app, zsum_app, IH. unfold zsum. cbn [fmap list_fmap foldr]. lia. }
  split.
  { rewrite <- Hsum. symmetry. unfold u64. apply Z.mod_small.
    unfold analyze in Hrun. destruct Hok as (_ & q0 & rest & -> & _).
    eapply a_loop_sumo; [exact Hrun|]. cbn. lia. }
  unfold time_span. rewrite <- fmap_last, ms_time, fmap_last.
  destruct Hok as (_ & q0 & rest & -> & _).
  destruct (last (q0 :: rest)) as [q|] eqn:E; [|by apply last_None in E].
  cbn [fmap option_fmap option_map default head]. unfold id, rel, start_of. cbn. lia.
Qed.

(** "X-hit" and "most popular": for every order in which the hash map may
    enumerate the objects. *)
Theorem C48_hits tw tr track : trace_ok tw tr -> Z.of_nat (length tr) < 2 ^ 32 ->
  0 <= track < 2 ^ 31 ->
  exists k es, analyze tw tr = Ok (k, es) /\
    forall infos, infos ≡ₚ (map_to_list (k_map k)).*2 ->
    exists hits, n_hit_cnt track infos = Ok hits /\ length hits = Z.to_nat track /\
      forall i x, hits !! i = Some x ->
        x = Z.of_nat (length (filter (fun id => uses tr id = Z.of_nat i + 1) (objects tr))).
Proof.
  intros Hok Hlen Htrack. destruct (trace_ok_run tw tr Hok) as (k & Hrun & Hinv & _).
  exists k, (meanings tw (start_of tr) [] tr). split; [done|]. intros infos Hp.
  pose proof (core_freqs _ _ _ _ infos Hinv Hlen Hp) as Hf.
  assert (Hpos : Forall (fun o => 0 < oi_freq o < 2 ^ 32) infos).
  { assert (H : Forall (fun f => 0 < f < 2 ^ 32) (oi_freq <$> infos)).
    { rewrite Hf. rewrite Forall_fmap, Forall_forall. intros i Hi. cbn.
      unfold objects in Hi. rewrite elem_of_remove_dups in Hi. apply uses_pos in Hi. lia. }
    by rewrite Forall_fmap in H. }
  destruct (hit_cnt_ok track infos (replicate (Z.to_nat track) 0)) as (l & Hl & Hll & Hx);
    [done|by rewrite replicate_length|done|].
  exists l. split; [done|]. split; [done|]. intros i x Hi.
  assert (Hu : Forall (fun x => 0 <= x < 2 ^ 64) l).
  { eapply hit_cnt_u64; [|exact Hl]. apply Forall_replicate. lia. }
  destruct (Hx i 0) as (y & Hy & Heq).
  { apply lookup_replicate. split; [done|]. apply lookup_lt_Some in Hi. lia. }
  rewrite Hi in Hy. apply Some_inj in Hy as <-.
  rewrite Forall_lookup in Hu. specialize (Hu i x Hi). cbn in Hu.
  unfold u64 in Heq. rewrite Z.mod_small in Heq by done.
  assert (Hc : cnt (fun f => bool_decide (f = Z.of_nat i + 1)) (oi_freq <$> infos)
               = Z.of_nat (length (filter (fun id => uses tr id = Z.of_nat i + 1) (objects tr)))).
  { unfold cnt. rewrite Hf. fold (cnt (fun f => bool_decide (f = Z.of_nat i + 1)) (uses tr <$> objects tr)).
    rewrite cnt_fmap. apply cnt_prop. intros o _. apply bool_decide_eq_true. }
  rewrite Hc in Heq. rewrite Z.mod_small in Heq; [lia|].
  split; [lia|].
  pose proof (filter_length (fun id => uses tr id = Z.of_nat i + 1) (objects tr)).
  pose proof (objects_length tr). lia.
Qed.

(** "most popular": the [track] largest request counts, in decreasing order;
    only when there are that many objects. *)
Theorem C48_popular_partial tw tr track : trace_ok tw tr -> Z.of_nat (length tr) < 2 ^ 32 ->
  0 <= track <= Z.of_nat (length (objects tr)) ->
  exists k es, analyze tw tr = Ok (k, es) /\
    forall infos, infos ≡ₚ (map_to_list (k_map k)).*2 ->
    exists top below, popular_cnt track infos = Ok top /\
      length top = Z.to_nat track /\
      top ++ below ≡ₚ (uses tr <$> objects tr) /\
      StronglySorted Z.ge (top ++ below).
Proof.
  intros Hok Hlen Htrack. destruct (trace_ok_run tw tr Hok) as (k & Hrun & Hinv & _).
  exists k, (meanings tw (start_of tr) [] tr). split; [done|]. intros infos Hp.
  pose proof (core_freqs _ _ _ _ infos Hinv Hlen Hp) as Hf.
  assert (Hl : length (freq_vec infos) = length (objects tr)).
  { rewrite (freq_vec_perm infos), Hf. apply fmap_length. }
  exists (take (Z.to_nat track) (freq_vec infos)), (drop (Z.to_nat track) (freq_vec infos)).
  unfold popular_cnt. rewrite popular_loop_ok by lia. rewrite drop_0.
  split; [done|]. split; [rewrite take_length; lia|].
  rewrite take_drop. split; [by rewrite (freq_vec_perm infos)|apply freq_vec_sorted].
Qed.

(** With fewer objects than [track] (8 by default) the analyzer reads past the
    end of its vector. *)
Theorem C48_popular_refuted tw tr track : trace_ok tw tr ->
  Z.of_nat (length (objects tr)) < track ->
  exists k es, analyze tw tr = Ok (k, es) /\
    forall infos, infos ≡ₚ (map_to_list (k_map k)).*2 ->
      popular_cnt track infos = Err OutOfBounds.
Proof.
  intros Hok Htrack. destruct (trace_ok_run tw tr Hok) as (k & Hrun & Hinv & _).
  exists k, (meanings tw (start_of tr) [] tr). split; [done|]. intros infos Hp.
  assert (Hl : length (freq_vec infos) = length (objects tr)).
  { rewrite (freq_vec_perm infos), fmap_length, Hp, fmap_length.
    by rewrite <- (core_dom tw (start_of tr) tr k Hinv), fmap_length. }
  unfold popular_cnt. apply popular_loop_err; lia.
Qed.

(** The .popularity file: one line "f:n" for every number f of requests that
    some object received, in decreasing order; n is how many objects did. *)
Theorem C48_popularity_file tw tr : trace_ok tw tr -> Z.of_nat (length tr) < 2 ^ 32 ->
  exists k es, analyze tw tr = Ok (k, es) /\
    forall infos, infos ≡ₚ (map_to_list (k_map k)).*2 ->
    exists lines, pop_dump infos = Ok lines /\
      StronglySorted Z.gt lines.*1 /\
      (forall f, f ∈ lines.*1 <-> exists id, id ∈ (a_id <$> tr) /\ uses tr id = f) /\
      (forall f n, (f, n) ∈ lines ->
         n = Z.of_nat (length (filter (fun id => uses tr id = f) (objects tr)))).
Proof.
  intros Hok Hlen. destruct (trace_ok_run tw tr Hok) as (k & Hrun & Hinv & _).
  exists k, (meanings tw (start_of tr) [] tr). split; [done|]. intros infos Hp.
  pose proof (core_freqs _ _ _ _ infos Hinv Hlen Hp) as Hf.
  pose proof (freq_vec_perm infos) as Hv. rewrite Hf in Hv.
  pose proof (freq_vec_sorted infos) as Hs.
  pose proof (objects_length tr) as Hol.
  assert (Hl : length (freq_vec infos) = length (objects tr)) by (rewrite Hv; apply fmap_length).
  unfold pop_dump. destruct (freq_vec infos) as [|f v] eqn:E.
  { destruct Hok as (_ & q0 & rest & -> & _). exfalso.
    assert (Hin : a_id q0 ∈ objects (q0 :: rest)).
    { unfold objects. rewrite elem_of_remove_dups. cbn. by left. }
    destruct (objects (q0 :: rest)); [by apply elem_of_nil in Hin|done]. }
  eexists. split; [done|].
  destruct (pop_dump_loop_ok (f :: v) f 0) as (H1 & H2 & H3).
  { constructor; [done|]. constructor; [lia|]. apply StronglySorted_inv in Hs as [_ Hs]. done. }
  { lia. }
  { lia. }
  split; [done|]. split.
  - intros x. rewrite <- H3.
    assert (Hx : x ∈ f :: f :: v <-> x ∈ f :: v) by (rewrite !elem_of_cons; tauto).
    rewrite Hx, Hv, elem_of_list_fmap. unfold objects. setoid_rewrite elem_of_remove_dups.
    split; intros (i & H & H'); exists i; by rewrite ?H.
  - intros x n Hin. rewrite (H2 x n Hin).
    replace (if decide (x = f) then 0 else 0) with 0 by (by destruct (decide (x = f))).
    unfold cnt. rewrite Hv. fold (cnt (fun y => bool_decide (y = x)) (uses tr <$> objects tr)).
    rewrite cnt_fmap, Z.add_0_r. apply cnt_prop. intros o _. apply bool_decide_eq_true.
Qed.

(** The operation counts and the number of overwrites: requests that write
    (set, replace, cas) to an object requested before. *)
Definition is_write (op : Z) : Prop := op = OP_SET \/ op = OP_REPLACE \/ op = OP_CAS.
#[global] Instance is_write_dec op : Decision (is_write op).
Proof. unfold is_write. apply _. Defined.
Fixpoint overwrites (past tr : list areq) : list areq :=
  match tr with
  | [] => []
  | q :: tr => (if decide (is_write (a_op q) /\ a_id q ∈ (a_id <$> past)) then [q] else [])
               ++ overwrites (q :: past) tr
  end.
Lemma ms_over tw t0 tr : forall past, cnt e_over (meanings tw t0 past tr)
  = Z.of_nat (length (overwrites past tr)).
Proof.
  induction tr as [|q tr IH]; intros past; cbn [meanings overwrites]; [done|].
  rewrite cnt_cons, IH, app_length, Nat2Z.inj_add. f_equal.
  unfold meaning. cbn [e_over].
  assert (Hu : last_use past (a_id q) <> None <-> a_id q ∈ (a_id <$> past)).
  { rewrite last_use_none. destruct (decide (a_id q ∈ (a_id <$> past))); tauto. }
  assert (Hop : bool_decide (a_op q = OP_SET) || bool_decide (a_op q = OP_REPLACE)
                || bool_decide (a_op q = OP_CAS) = bool_decide (is_write (a_op q))).
  { unfold is_write. repeat case_bool_decide; tauto || done. }
  rewrite Hop. destruct (decide (is_write (a_op q) /\ a_id q ∈ (a_id <$> past))) as [[H1 H2]|H].
  - rewrite !bool_decide_true by tauto. done.
  - destruct (decide (is_write (a_op q))) as [H1|H1].
    + rewrite bool_decide_false by tauto. done.
    + rewrite (bool_decide_false (is_write _)) by done. by rewrite andb_false_r.
Qed.

Theorem C48_ops tw tr : trace_ok tw tr -> Z.of_nat (length tr) < 2 ^ 64 ->
  Forall (fun q => 0 <= a_op q <= OP_INVALID) tr ->
  exists k es c over, analyze tw tr = Ok (k, es) /\ op_stat es = Ok (c, over) /\
    length c = 16%nat /\
    (forall i x, c !! i = Some x ->
       x = Z.of_nat (length (filter (fun q => a_op q = Z.of_nat i) tr))) /\
    over = Z.of_nat (length (overwrites [] tr)).
Proof.
  intros Hok Hlen Hop. destruct (trace_ok_run tw tr Hok) as (k & Hrun & _ & _).
  set (es := meanings tw (start_of tr) [] tr) in *.
  destruct (op_run_ok es (replicate 16 0) 0) as (c & o & Hr & Hl & Ho & Hc).
  { by rewrite replicate_length. }
  { assert (H : Forall (fun x => 0 <= x <= 15) (e_op <$> es)).
    { unfold es. rewrite ms_op, Forall_fmap. done. }
    by rewrite Forall_fmap in H. }
  exists k, es, c, o. split; [done|]. split; [done|]. split; [done|].
  destruct (op_run_u64 es (replicate 16 0) 0 c o) as [Hc64 Ho64]; [|lia|done|].
  { apply Forall_replicate. lia. }
  split.
  - intros i x Hx. destruct (Hc i 0) as (y & Hy & Hyu).
    { apply lookup_replicate. split; [done|]. apply lookup_lt_Some in Hx. lia. }
    rewrite Hx in Hy. apply Some_inj in Hy as <-.
    rewrite Forall_lookup in Hc64. specialize (Hc64 i x Hx). cbn in Hc64.
    assert (Hn : cnt (fun e => bool_decide (e_op e = Z.of_nat i)) es
                 = Z.of_nat (length (filter (fun q => a_op q = Z.of_nat i) tr))).
    { transitivity (cnt (fun x => bool_decide (x = Z.of_nat i)) (e_op <$> es));
        [symmetry; apply cnt_fmap|].
      unfold es. rewrite ms_op, cnt_fmap. apply cnt_prop. intros q _. apply bool_decide_eq_true. }
    rewrite Hn in Hyu. pose proof (filter_length (fun q => a_op q = Z.of_nat i) tr).
    unfold u64 in Hyu. rewrite !Z.mod_small in Hyu by lia. lia.
  - unfold es in Ho. rewrite ms_over in Ho.
    assert (Hle : (length (overwrites [] tr) <= length tr)%nat).
    { generalize (@nil areq) as past. clear. induction tr as [|q tr IH]; intros past; [done|].
      cbn [overwrites length]. rewrite app_length. specialize (IH (q :: past)).
      destruct (decide _); cbn [length]; lia. }
    unfold u64 in Ho. rewrite !Z.mod_small in Ho by lia. lia.
Qed.

(** The .ttl file: for every positive TTL how many requests carry it, if the
    trace has at most a million requests (the limit in the code is a million
    different TTLs). *)
Lemma cnt_le {A} (f : A -> bool) l : cnt f l <= Z.of_nat (length l).
Proof. unfold cnt. pose proof (filter_length (fun x => f x = true) l). lia. Qed.
Theorem C48_ttl tw tr : trace_ok tw tr -> Z.of_nat (length tr) <= 1000000 ->
  exists k es, analyze tw tr = Ok (k, es) /\
    forall t, ttl_dump (ttl_stat es) !! t
      = let n := length (filter (fun q => a_ttl q = t) tr) in
        if decide (0 < t /\ (0 < n)%nat) then Some (Z.of_nat n) else None.
Proof.
  intros Hok Hlen. destruct (trace_ok_run tw tr Hok) as (k & Hrun & _ & _).
  set (es := meanings tw (start_of tr) [] tr) in *.
  exists k, es. split; [done|]. intros t.
  set (n := length (filter (fun q => a_ttl q = t) tr)). cbv zeta.
  unfold ttl_dump, ttl_stat. rewrite ttl_size_le; [|done|].
  2:{ rewrite map_size_empty. unfold es. rewrite ms_length. lia. }
  rewrite ttl_fold.
  assert (Hks : e_ttl <$> filter (fun e => e_ttl e > 0) es = filter (fun x => x > 0) (a_ttl <$> tr)).
  { unfold es. rewrite <- (ms_ttl tw (start_of tr) tr []). clear.
    induction (meanings tw (start_of tr) [] tr) as [|e l IH]; [done|].
    cbn [fmap list_fmap]. rewrite !filter_cons. destruct (decide (e_ttl e > 0)); cbn; by rewrite ?IH. }
  rewrite Hks, bump_fold, lookup_empty. cbn [default].
  assert (Hn : 0 < t -> cnt (fun x => bool_decide (x = t)) (filter (fun x => x > 0) (a_ttl <$> tr))
               = Z.of_nat n).
  { intros Ht. unfold n. clear -Ht. induction tr as [|q tr IH]; [done|].
    cbn [fmap list_fmap]. rewrite !filter_cons.
    destruct (decide (a_ttl q = t)) as [E|E].
    - rewrite decide_True by lia. rewrite cnt_cons, bool_decide_true by done. rewrite IH.
      cbn [length]. lia.
    - destruct (decide (a_ttl q > 0)); [|done]. rewrite cnt_cons, bool_decide_false by done. rewrite IH. lia. }
  assert (Hin : t ∈ filter (fun x => x > 0) (a_ttl <$> tr) <-> 0 < t /\ (0 < n)%nat).
  { rewrite elem_of_list_filter. split.
    - intros [Ht Hin]. split; [lia|]. apply elem_of_list_fmap in Hin as (q & -> & Hq).
      unfold n. assert (Hf : q ∈ filter (fun x => a_ttl x = a_ttl q) tr) by (by apply elem_of_list_filter).
      destruct (filter (fun x => a_ttl x = a_ttl q) tr); [by apply elem_of_nil in Hf|cbn; lia].
    - intros [Ht Hn0]. split; [lia|]. unfold n in Hn0.
      destruct (filter (fun x => a_ttl x = t) tr) as [|q l] eqn:E; [cbn in Hn0; lia|].
      assert (Hf : q ∈ filter (fun x => a_ttl x = t) tr) by (rewrite E; by left).
      apply elem_of_list_filter in Hf as [<- Hf]. by apply elem_of_list_fmap_1. }
  destruct (decide (0 < t /\ (0 < n)%nat)) as [H|H].
  - rewrite decide_True by tauto. rewrite Hn by tauto. f_equal. unfold id.
    pose proof (filter_length (fun q => a_ttl q = t) tr). fold n in H0. apply u32_small. lia.
  - rewrite decide_False by tauto. done.
Qed.

(** The .size file: for every size (as the uint32_t it is stored in) how many
    requests and how many objects have it, an object counting with the size of
    its first request. *)
Theorem C48_sizes lg tw tr : trace_ok tw tr -> Z.of_nat (length tr) < 2 ^ 32 ->
  exists k es s, analyze tw tr = Ok (k, es) /\ size_dist lg tw es = Ok s /\
    forall x,
      default 0 (sd_req s !! x) = Z.of_nat (length (filter (fun q => u32 (a_size q) = x) tr)) /\
      default 0 (sd_obj s !! x)
        = Z.of_nat (length (filter (fun q => u32 (a_size q) = x) (first_reqs [] tr))).
Proof.
  intros Hok Hlen. destruct (trace_ok_run tw tr Hok) as (k & Hrun & _ & _).
  destruct (trace_ok_facts tw tr Hok) as (Hr & Hh & _ & _).
  set (es := meanings tw (start_of tr) [] tr) in *.
  destruct Hok as (Htw & _).
  destruct (size_dist_ok lg tw Htw es Hr Hh) as (s & Hs & Hreq & Hobj & _).
  exists k, es, s. split; [done|]. split; [done|].
  assert (Hgen : forall l : list areq, (length l <= length tr)%nat -> forall x,
    default 0 (foldl bump ∅ (u32 <$> (a_size <$> l)) !! x)
    = Z.of_nat (length (filter (fun q => u32 (a_size q) = x) l))).
  { intros l Hl x. rewrite bump_fold, lookup_empty. cbn [default]. unfold id.
    rewrite <- list_fmap_compose, cnt_fmap.
    rewrite (cnt_prop (fun q => u32 (a_size q) = x)) by (intros q _; apply bool_decide_eq_true).
    pose proof (filter_length (fun q => u32 (a_size q) = x) l).
    destruct (decide _) as [Hin|Hin]; cbn [default].
    - unfold id. rewrite u32_small by lia. lia.
    - rewrite (filter_nil_iff (fun q => u32 (a_size q) = x)); [done|].
      rewrite Forall_forall. intros q Hq Hx. apply Hin. subst x.
      apply elem_of_list_fmap. by exists q. }
  intros x. split.
  - rewrite Hreq. rewrite <- Hgen by done. f_equal. f_equal. f_equal.
    unfold es. rewrite <- (ms_size tw (start_of tr) tr []). by rewrite <- list_fmap_compose.
  - rewrite Hobj. rewrite <- Hgen.
    + f_equal. f_equal. f_equal. rewrite <- (ms_cold_sizes tw (start_of tr) tr []).
      by rewrite <- list_fmap_compose.
    + rewrite <- (fmap_length a_id (first_reqs [] tr)), first_reqs_objects. apply objects_length.
Qed.

(** A trace without requests is reported as one request for one object of one
    byte. *)
Theorem C48_empty_trace_refuted tw : 0 < tw < 2 ^ 31 ->
  exists k es, analyze tw [] = Ok (k, es) /\ k_n k = 1 /\ size (k_map k) = 1%nat /\
    k_sumr k = 1 /\ k_sumo k = 1.
Proof.
  intros Htw. unfold analyze. cbn [a_loop]. unfold a_step.
  change (a_time areq0 - a_time areq0) with 0. cbn [k_next core0 k_idx].
  assert (E : win_advance (win_fuel tw 0 tw) tw 0 0 tw = Ok (0, tw)).
  { destruct (win_fuel tw 0 tw); cbn [win_advance]; by rewrite decide_True by lia. }
  rewrite E. cbn [rbind]. rewrite decide_False.
  2:{ rewrite win_idx_small by lia. rewrite Z.div_0_l by lia. intros H; apply H; done. }
  cbn [k_map core0]. rewrite lookup_empty. cbn [rbind].
  eexists _, _. split; [done|]. cbn [k_n k_map k_sumr k_sumo core0].
  split; [done|]. split; [by rewrite map_size_insert_None, map_size_empty by apply lookup_empty|].
  split; vm_compute; done.
Qed.

(** A request that is older than the first one stops the analyzer. *)
Theorem C48_unordered_refuted : exists tw tr, analyze tw tr = Err AssertFail.
Proof.
  exists 300, [mkA 1000 1 10 1 0; mkA 500 2 10 1 0]. vm_compute. done.
Qed.

(** A trace that is longer than an int can count (a day in microseconds, say)
    makes next_time_window_ts overflow. *)
Lemma win_advance_overflow tw clock n : forall w,
  0 < tw -> clock / tw = w + Z.of_nat n -> (w + 1) * tw < 2 ^ 31 -> 2 ^ 31 <= (clock / tw + 1) * tw ->
  win_advance n tw clock w ((w + 1) * tw) = Err IntOverflow.
Proof.
  induction n as [|n IH]; intros w Htw Hn Hlo Hhi; [exfalso; rewrite Hn in Hhi; nia|].
  cbn [win_advance]. rewrite decide_False by (rewrite div_window by done; lia).
  destruct (decide ((w + 1) * tw + tw >= 2 ^ 31)) as [|Hs]; [done|].
  replace ((w + 1) * tw + tw) with ((w + 1 + 1) * tw) by lia. apply IH; lia.
Qed.
Theorem C48_long_trace_refuted tw q0 q1 rest :
  0 < tw < 2 ^ 31 -> a_time q0 + 2 ^ 31 <= a_time q1 ->
  analyze tw (q0 :: q1 :: rest) = Err IntOverflow.
Proof.
  intros Htw Ht. unfold analyze. cbn [a_loop].
  assert (Hinv : core_inv tw (a_time q0) [] (core0 tw)).
  { constructor; try done. cbn [k_next core0]. unfold cur_win. cbn. lia. }
  destruct (a_step_ok tw (a_time q0) ltac:(lia) [] (core0 tw) q0) as (k1 & -> & Hk & _); try done.
  { constructor. }
  { unfold in_range, win, rel. rewrite Z.sub_diag, Z.div_0_l by lia. lia. }
  cbn [rbind]. unfold a_step at 1.
  assert (Hw0 : cur_win tw (a_time q0) [q0] = 0).
  { unfold cur_win. cbn. unfold win, rel. rewrite Z.sub_diag. by apply Z.div_0_l; lia. }
  rewrite (ci_idx _ _ _ _ Hk), (ci_next _ _ _ _ Hk), Hw0.
  assert (Hlt : a_time q1 - a_time q0 < ((a_time q1 - a_time q0) / tw + 1) * tw)
    by (apply div_window; lia).
  assert (0 <= (a_time q1 - a_time q0) / tw) by (apply Z.div_pos; lia).
  rewrite win_fuel_eq by lia. rewrite win_advance_overflow by lia. done.
Qed.

(** A trace with two objects of two and three requests. *)
Definition ex_trace : list areq :=
  [mkA 100 7 10 1 0; mkA 101 8 20 3 60; mkA 250 7 10 1 0; mkA 400 8 20 3 60; mkA 410 8 24 1 0].
Lemma ex_trace_ok : trace_ok 300 ex_trace.
Proof.
  split; [lia|]. eexists _, _. split; [done|]. split.
  - repeat constructor; cbn; lia.
  - repeat constructor; vm_compute; done.
Qed.
Example C48_ex : objects ex_trace = [7; 8] /\ uses ex_trace 8 = 3 /\
  overwrites [] ex_trace = [mkA 400 8 20 3 60] /\
  (forall k es, analyze 300 ex_trace = Ok (k, es) ->
     k_sumr k = 84 /\ k_sumo k = 30 /\ time_span ex_trace es = 310 /\
     n_hit_cnt 4 (map_to_list (k_map k)).*2 = Ok [0; 1; 1; 0]).
Proof.
  split; [done|]. split; [done|]. split; [done|]. intros k es H.
  vm_compute in H. injection H as <- <-. vm_compute. done.
Qed.

(** ** C49: numbers per time window *)

(** The .reqRate file.  Every request is added before the windows are closed
    (reqRate.cpp:8-39), so that row [i] describes the requests that come right
    after a request of window [i] (the very first request counts for window
    0).  There is one row for every window before the last. *)
Theorem C49_req_rate tw tr : trace_ok tw tr ->
  exists k s, let t0 := start_of tr in let es := meanings tw t0 [] tr in
    analyze tw tr = Ok (k, es) /\ req_rate tw es = Ok s /\
    Z.of_nat (length (rr_rows s)) = win tw t0 (default areq0 (last tr)) /\
    forall i row, rr_rows s !! i = Some row ->
      let xs := after_window (Z.of_nat i) (win tw t0 <$> tr) es in
      row = (u32 (Z.of_nat (length xs)), u64 (zsum (e_size <$> xs)),
             u32 (cnt e_first xs), u32 (cnt e_cold xs)).
Proof.
  intros Hok. destruct (trace_ok_run tw tr Hok) as (k & Hrun & _ & _).
  destruct (trace_ok_facts tw tr Hok) as (Hr & Hh & _ & _).
  assert (Htw : 0 < tw) by (by destruct Hok).
  destruct (req_rate_ok tw _ Htw Hr Hh) as (s & Hs & Hsh).
  exists k, s. cbv zeta. split; [done|]. split; [done|].
  rewrite ms_win in Hsh. split.
  - rewrite (sh_len _ _ _ _ _ Hsh). pose proof (sh_w _ _ _ _ _ Hsh) as Hw.
    rewrite fmap_last in *. destruct Hok as (_ & q0 & rest & -> & _).
    destruct (last (q0 :: rest)) as [q|] eqn:E; [|by apply last_None in E].
    cbn [fmap option_fmap option_map default] in *. unfold id in *. lia.
  - intros i row Hi. apply (sh_row _ _ _ _ _ Hsh) in Hi. done.
Qed.

(** The two .sizeWindow files, with the same displacement: [lg] is the
    logarithmic bucket of a size. *)
Theorem C49_size_windows lg tw tr : trace_ok tw tr ->
  exists k s, let t0 := start_of tr in let es := meanings tw t0 [] tr in
    analyze tw tr = Ok (k, es) /\ size_dist lg tw es = Ok s /\
    Z.of_nat (length (sd_rows s)) = win tw t0 (default areq0 (last tr)) /\
    forall i row, sd_rows s !! i = Some row ->
      let xs := after_window (Z.of_nat i) (win tw t0 <$> tr) es in
      counts_row row.1 ((fun e => lg (e_size e)) <$> xs) /\
      counts_row row.2 ((fun e => lg (e_size e)) <$> filter (fun e => e_first e = true) xs).
Proof.
  intros Hok. destruct (trace_ok_run tw tr Hok) as (k & Hrun & _ & _).
  destruct (trace_ok_facts tw tr Hok) as (Hr & Hh & _ & _).
  assert (Htw : 0 < tw) by (by destruct Hok).
  destruct (size_dist_ok lg tw Htw _ Hr Hh) as (s & Hs & _ & _ & Hsh).
  exists k, s. cbv zeta. split; [done|]. split; [done|].
  rewrite ms_win in Hsh. split.
  - rewrite (sh_len _ _ _ _ _ Hsh). pose proof (sh_w _ _ _ _ _ Hsh) as Hw.
    rewrite fmap_last in *. destruct Hok as (_ & q0 & rest & -> & _).
    destruct (last (q0 :: rest)) as [q|] eqn:E; [|by apply last_None in E].
    cbn [fmap option_fmap option_map default] in *. unfold id in *. lia.
  - intros i row Hi. apply (sh_row _ _ _ _ _ Hsh) in Hi. by destruct Hi as (_ & ? & ?).
Qed.

(** The two .reuseWindow files: only reuses move the windows, so row [i]
    describes the reuses that come right after a reuse of window [i]. *)
Theorem C49_reuse_windows lg tw tr : trace_ok tw tr ->
  exists k s, let t0 := start_of tr in let es := meanings tw t0 [] tr in
    let rs := filter (fun e => e_cold e = false) es in
    analyze tw tr = Ok (k, es) /\ reuse_dist lg tw es = Ok s /\
    Z.of_nat (length (rd_rows s)) = default 0 ((fun e => e_time e / tw) <$> last rs) /\
    forall i row, rd_rows s !! i = Some row ->
      let xs := after_window (Z.of_nat i) ((fun e => e_time e / tw) <$> rs) rs in
      counts_row row.1 ((fun e => Z.to_nat (e_rt e / 5)) <$> xs) /\
      counts_row row.2 ((fun e => lg (e_vt e)) <$> xs).
Proof.
  intros Hok. destruct (trace_ok_run tw tr Hok) as (k & Hrun & _ & _).
  destruct (trace_ok_facts tw tr Hok) as (Hr & Hh & Hrt & _).
  assert (Htw : 0 < tw) by (by destruct Hok).
  destruct (reuse_dist_ok lg tw Htw _ (rising_reuses tw _ 0 Hr) Hh Hrt) as (s & Hs & _ & _ & Hsh).
  exists k, s. cbv zeta. split; [done|]. split; [done|]. split.
  - rewrite (sh_len _ _ _ _ _ Hsh). pose proof (sh_w _ _ _ _ _ Hsh) as Hw.
    rewrite fmap_last in *. unfold reuses, ewin in *. lia.
  - intros i row Hi. apply (sh_row _ _ _ _ _ Hsh) in Hi. done.
Qed.

(** What the header comment of each file promises, that row [i] describes the
    requests of window [i], is false, and the last window is not written. *)
Theorem C49_windows_refuted : exists tw tr s,
  trace_ok tw tr /\ req_rate tw (meanings tw (start_of tr) [] tr) = Ok s /\
  (exists n b o c, rr_rows s !! 0%nat = Some (n, b, o, c) /\
     n <> Z.of_nat (length (in_window tw (start_of tr) 0 tr))) /\
  in_window tw (start_of tr) 1 tr <> [] /\ rr_rows s !! 1%nat = None.
Proof.
  exists 300, [mkA 0 1 10 1 0; mkA 300 2 10 1 0].
  eexists. split.
  { split; [lia|]. eexists _, _. split; [done|]. split; [repeat constructor; cbn; lia|].
    repeat constructor; vm_compute; done. }
  split; [vm_compute; reflexivity|]. cbn [rr_rows].
  split; [|split; [vm_compute; done|done]].
  eexists _, _, _, _. split; [done|]. vm_compute. done.
Qed.

(** The .popularityDecay file.  Its line for window [w] gives, for every window
    [c] from the end of the warm-up to [w], the number of distinct objects born
    in window [c] that are requested in window [w].  With a warm-up there is a
    line of one zero before that of the first window.  The last window in
    which an object born after the warm-up is requested is not written. *)
Theorem C49_popularity_decay tw warm tr : trace_ok tw tr -> Z.of_nat (length tr) < 2 ^ 31 ->
  0 <= warm -> warm mod tw = 0 ->
  exists k s, let t0 := start_of tr in let es := meanings tw t0 [] tr in
    let first := warm / tw - (if decide (warm = 0) then 0 else 1) in
    analyze tw tr = Ok (k, es) /\ pop_decay tw warm es = Ok s /\
    Z.of_nat (length (pd_rows s))
      = match last (filter (fun e => warm <= e_time e /\ warm <= e_create e) es) with
        | None => 0 | Some e => e_time e / tw - first end /\
    forall r row, pd_rows s !! r = Some row ->
      length row = S r /\
      forall c x, row !! c = Some x ->
        x = survivors tw t0 (first + Z.of_nat r) (warm / tw + Z.of_nat c) tr.
Proof.
  intros Hok Hlen Hwarm Hmul. destruct (trace_ok_run tw tr Hok) as (k & Hrun & _ & _).
  destruct (trace_ok_facts tw tr Hok) as (Hr & Hh & Hrt & Hcr).
  assert (Htw : 0 < tw) by (by destruct Hok).
  set (t0 := start_of tr) in *. set (es := meanings tw t0 [] tr) in *.
  destruct (pop_decay_ok tw warm Htw Hwarm Hmul es Hr Hh Hcr) as (s & n & Hs & Hi & Hnil & Hlast).
  exists k, s. cbv zeta. split; [done|]. split; [done|].
  fold t0. fold es. fold (delta warm). split.
  - rewrite (pi_rows _ _ _ _ _ Hi).
    change (filter (fun e => warm <= e_time e /\ warm <= e_create e) es) with (filter (item warm) es).
    destruct (last (filter (item warm) es)) as [e|] eqn:E.
    + apply last_Some in E as [l E]. rewrite (Hlast l e E). unfold ewin. lia.
    + apply last_None in E. rewrite (Hnil E). lia.
  - intros r row Hrow. destruct (pi_row _ _ _ _ _ Hi r row Hrow) as [Hlr Hc]. split; [done|].
    intros c x Hx. rewrite (Hc c x Hx). clear Hc.
    replace (warm / tw - delta warm + Z.of_nat r) with (warm / tw + Z.of_nat r - delta warm) by lia.
    set (w := warm / tw + Z.of_nat r - delta warm). set (b := warm / tw + Z.of_nat c).
    assert (Hcnt : cnt (cell tw w b) (filter (item warm) es) = survivors tw t0 w b tr).
    { unfold survivors.
      assert (Hitem : cnt (cell tw w b) (filter (item warm) es) = cnt (cell tw w b) es).
      { clear -Hcr Htw Hmul. induction es as [|e l IH]; [done|].
        apply Forall_cons in Hcr as [He Hcr]. rewrite filter_cons, cnt_cons.
        destruct (decide (item warm e)) as [Hit|Hit]; [by rewrite cnt_cons, IH|].
        rewrite IH by done. destruct (cell tw w b e) eqn:Ec; [|lia]. exfalso. apply Hit.
        unfold cell in Ec. apply andb_true_iff in Ec as [Ec _]. apply andb_true_iff in Ec as [_ Ec].
        apply bool_decide_eq_true in Ec.
        assert (warm <= e_create e) by (apply (warm_win tw warm Htw Hmul); lia).
        split; lia. }
      rewrite Hitem.
      assert (Hborn : forall e, e ∈ es -> born tw t0 tr (e_id e) = Some (e_create e / tw)).
      { intros e He. destruct (ms_born tw t0 tr [] e He) as (x' & Hx' & Hcx). cbn [rev app] in Hx'.
        unfold born. rewrite Hx'. cbn. rewrite Hcx. done. }
      transitivity (Z.of_nat (length (filter (fun i => born tw t0 tr i = Some b)
         (e_id <$> filter (fun e => ewin tw e = w /\ e_first e = true) es)))).
      2:{ unfold es. by rewrite (ms_fresh_objects tw t0 w tr). }
      clear -Hborn. induction es as [|e l IH]; [done|].
      rewrite cnt_cons, IH by (intros e' He'; apply Hborn; by right).
      assert (He := Hborn e ltac:(by left)). rewrite filter_cons. unfold cell.
      destruct (decide (ewin tw e = w /\ e_first e = true)) as [[H1 H2]|H].
      - rewrite bool_decide_true by done. rewrite H2. cbn [fmap list_fmap]. rewrite filter_cons.
        destruct (decide (e_create e / tw = b)) as [E|E].
        + rewrite bool_decide_true by done. rewrite decide_True by (rewrite He; by f_equal).
          cbn [length andb]. lia.
        + rewrite bool_decide_false by done. rewrite decide_False by (rewrite He; congruence).
          done.
      - destruct (decide (ewin tw e = w)).
        + destruct (e_first e); [tauto|]. by rewrite andb_false_r.
        + by rewrite (bool_decide_false (ewin tw e = w)) by done. }
    rewrite Hcnt. apply i32_small. rewrite <- Hcnt.
    pose proof (cnt_nonneg (cell tw w b) (filter (item warm) es)).
    pose proof (cnt_le (cell tw w b) (filter (item warm) es)).
    pose proof (filter_length (item warm) es).
    assert (length es = length tr) by apply ms_length. lia.
Qed.

(** Three windows of 300 seconds: object 1 survives into the second window and
    object 2 dies. *)
Definition ex_decay : list areq :=
  [mkA 0 1 10 1 0; mkA 10 2 10 1 0; mkA 310 1 10 1 0; mkA 320 3 10 1 0; mkA 330 3 10 1 0;
   mkA 700 3 10 1 0; mkA 710 4 10 1 0].
Example C49_ex : trace_ok 300 ex_decay /\
  survivors 300 0 1 0 ex_decay = 1 /\
  (let es := meanings 300 0 [] ex_decay in
   (exists s, pop_decay 300 0 es = Ok s /\ pd_rows s = [[2]; [1; 1]]) /\
   (exists s, pop_decay 300 300 es = Ok s /\ pd_rows s = [[0]; [1; 0]]) /\
   (exists s, req_rate 300 es = Ok s /\ rr_rows s = [(3, 30, 3, 2); (3, 30, 2, 1)])).
Proof.
  split.
  { split; [lia|]. eexists _, _. split; [done|]. split; [repeat constructor; cbn; lia|].
    repeat constructor; vm_compute; done. }
  split; [vm_compute; reflexivity|].
  split; [|split]; (eexists; split; [vm_compute; reflexivity|reflexivity]).
Qed.

(** ** C50: reuse times and access patterns *)

(** The .reuse files: for every bucket of 5 seconds the number of requests
    whose object was last requested that long ago, and for every bucket [lg] of
    request counts the number of requests whose object was last requested that
    many requests ago; the bucket -1 counts the first requests, one for every
    object. *)
Theorem C50_reuse lg tw tr : trace_ok tw tr -> Z.of_nat (length tr) < 2 ^ 32 ->
  exists k es s, analyze tw tr = Ok (k, es) /\ reuse_dist lg tw es = Ok s /\
    default 0 (rd_rt s !! (-1)) = Z.of_nat (length (objects tr)) /\
    default 0 (rd_vt s !! (-1)) = Z.of_nat (length (objects tr)) /\
    (forall b, 0 <= b ->
       default 0 (rd_rt s !! b)
         = Z.of_nat (length (filter (fun g => g.1 / 5 = b) (gaps [] tr))) /\
       default 0 (rd_vt s !! b)
         = Z.of_nat (length (filter (fun g => Z.of_nat (lg g.2) = b) (gaps [] tr)))) /\
    (forall b, b < -1 -> rd_rt s !! b = None /\ rd_vt s !! b = None).
Proof.
  intros Hok Hlen. destruct (trace_ok_run tw tr Hok) as (k & Hrun & _ & _).
  destruct (trace_ok_facts tw tr Hok) as (Hr & Hh & Hrt & _).
  assert (Htw : 0 < tw) by (by destruct Hok).
  set (t0 := start_of tr) in *. set (es := meanings tw t0 [] tr) in *.
  destruct (reuse_dist_ok lg tw Htw es (rising_reuses tw _ 0 Hr) Hh Hrt) as (s & Hs & Ht & Hv & _).
  exists k, es, s. split; [done|]. split; [done|].
  assert (Hles : length es = length tr) by apply ms_length.
  (* one histogram, for any key that is -1 exactly on first requests *)
  assert (Hgen : forall (g : Z * Z -> Z) (key : ereq -> Z),
    (forall e, e ∈ es -> key e = if e_cold e then -1 else g (e_rt e, e_vt e)) ->
    (forall e, e ∈ es -> e_cold e = false -> 0 <= g (e_rt e, e_vt e)) ->
    let m := foldl bump ∅ (key <$> es) in
    default 0 (m !! (-1)) = Z.of_nat (length (objects tr)) /\
    (forall b, 0 <= b -> default 0 (m !! b)
                         = Z.of_nat (length (filter (fun p => g p = b) (gaps [] tr)))) /\
    (forall b, b < -1 -> m !! b = None)).
  { intros g key Hk Hg m.
    assert (Hm : forall b, default 0 (m !! b) = cnt (fun e => bool_decide (key e = b)) es).
    { intros b. unfold m. rewrite bump_fold, lookup_empty. cbn [default]. unfold id.
      transitivity (u32 (cnt (fun x => bool_decide (x = b)) (key <$> es))).
      - destruct (decide _) as [|Hn]; [done|]. cbn [default].
        unfold cnt. rewrite filter_nil_iff; [done|]. rewrite Forall_forall. intros x Hx E.
        apply bool_decide_eq_true in E. by subst.
      - rewrite cnt_fmap. apply u32_small.
        pose proof (cnt_nonneg (fun e => bool_decide (key e = b)) es).
        pose proof (cnt_le (fun e => bool_decide (key e = b)) es). lia. }
    split; [|split].
    - rewrite Hm, <- (ms_cold_count tw t0 tr). fold es. apply cnt_prop.
      intros e He. rewrite bool_decide_eq_true, (Hk e He). specialize (Hg e He).
      destruct (e_cold e); [done|]. specialize (Hg eq_refl). split; [lia|done].
    - intros b Hb. rewrite Hm, <- (ms_gaps tw t0 tr []). fold es.
      clear Hm m. clear -Hk Hb. induction es as [|e l IH]; [done|].
      rewrite cnt_cons, IH by (intros e' He'; apply Hk; by right).
      assert (He := Hk e ltac:(by left)). rewrite !filter_cons.
      destruct (e_cold e).
      + rewrite bool_decide_false by lia. rewrite decide_False by done. lia.
      + rewrite decide_True by done. cbn [fmap list_fmap]. rewrite filter_cons.
        destruct (decide (g (e_rt e, e_vt e) = b)) as [E|E].
        * rewrite bool_decide_true by lia. cbn [length]. lia.
        * rewrite bool_decide_false by lia. lia.
    - intros b Hb. unfold m. rewrite bump_fold. rewrite decide_False; [apply lookup_empty|].
      intros Hin. apply elem_of_list_fmap in Hin as (e & -> & He). rewrite (Hk e He) in Hb.
      specialize (Hg e He). destruct (e_cold e); [lia|]. specialize (Hg eq_refl). lia. }
  rewrite Forall_forall in Hrt.
  destruct (Hgen (fun p => p.1 / 5) (rt_key)) as (A1 & A2 & A3).
  { intros e He. done. }
  { intros e He Hc. specialize (Hrt e He). unfold rt_ok in Hrt. rewrite Hc in Hrt.
    cbn. apply Z.div_pos; lia. }
  destruct (Hgen (fun p => Z.of_nat (lg p.2)) (vt_key lg)) as (B1 & B2 & B3).
  { intros e He. done. }
  { intros e He Hc. cbn. lia. }
  rewrite Ht, Hv. split; [done|]. split; [done|]. split.
  - intros b Hb. split; [by apply A2|by apply B2].
  - intros b Hb. split; [by apply A3|by apply B3].
Qed.

(** The .accessRtime and .accessVtime files: for every object whose id is
    divisible by the sampling ratio, the times and the positions (counted from
    1) of all its requests. *)
Theorem C50_access_pattern tw tr ratio : trace_ok tw tr ->
  Z.of_nat (length tr) <= 4294967280 -> 0 < ratio ->
  exists k es, analyze tw tr = Ok (k, es) /\
    let s := access_pattern ratio es in
    forall id,
      let sampled := id mod ratio = 0 /\ id ∈ (a_id <$> tr) in
      (sampled ->
         ap_vt s !! id = Some ((filter (fun p => a_id p.2 = id)
                                  (zip (seqZ 1 (Z.of_nat (length tr))) tr)).*1) /\
         ap_rt s !! id = Some (rel (start_of tr) <$> filter (fun q => a_id q = id) tr)) /\
      (~ sampled -> ap_vt s !! id = None /\ ap_rt s !! id = None).
Proof.
  intros Hok Hlen Hratio. destruct (trace_ok_run tw tr Hok) as (k & Hrun & _ & _).
  destruct (trace_ok_facts tw tr Hok) as (Hr & Hh & Hrt & Hcr).
  set (t0 := start_of tr) in *. set (es := meanings tw t0 [] tr) in *.
  exists k, es. split; [done|]. cbv zeta.
  assert (Hles : length es = length tr) by apply ms_length.
  assert (Hids : e_id <$> es = a_id <$> tr) by apply ms_id.
  assert (Htm : e_time <$> es = rel t0 <$> tr) by apply ms_time.
  assert (Hstart : access_pattern ratio es = foldl (ap_add ratio) (mkAP 0 0 ∅ ∅) es).
  { destruct es as [|e l]; [done|]. unfold access_pattern. cbn [foldl]. f_equal.
    cbn in Hh. apply Some_inj in Hh. unfold ap_add. cbn [ap_seen ap_start ap_rt ap_vt].
    rewrite (decide_True (P := -1 = -1)) by done.
    rewrite (decide_False (P := 0 = -1)) by done. by rewrite Hh. }
  rewrite Hstart.
  destruct (ap_fold ratio es (mkAP 0 0 ∅ ∅)) as [Hvt Hrtm]; cbn [ap_seen ap_start]; try done; try lia.
  { eapply Forall_impl; [exact Hcr|]. cbn. lia. }
  cbn [ap_vt ap_rt ap_seen] in Hvt, Hrtm. intros i. rewrite Hvt, Hrtm, Hids. rewrite !lookup_empty.
  cbn [default app]. split.
  - intros Hs. rewrite !decide_True by done. split; f_equal.
    + unfold ap_pos. rewrite Hles. cbn. clear -Hids. change (0 + 1) with 1.
      generalize (seqZ 1 (Z.of_nat (length tr))) as zs. clearbody es t0. revert tr Hids.
      induction es as [|e l IH]; intros [|q tr] Hids zs; try done; [by destruct zs|].
      cbn in Hids. injection Hids as Hi Hids. destruct zs as [|z zs]; [done|].
      cbn [zip_with]. rewrite !filter_cons. cbn [snd]. rewrite Hi.
      destruct (decide (a_id q = i)); cbn; [f_equal|]; by apply IH.
    + clear -Hids Htm. clearbody es t0. revert tr Hids Htm. induction es as [|e l IH]; intros [|q tr] Hids Htm; try done.
      cbn in Hids, Htm. injection Hids as Hi Hids. injection Htm as Ht Htm.
      rewrite !filter_cons. rewrite Hi.
      destruct (decide (a_id q = i)); cbn; [f_equal; [done|]|]; by apply IH.
  - intros Hs. rewrite !decide_False by done. done.
Qed.

Example C50_ex :
  gaps [] ex_trace = [(150, 2); (299, 2); (10, 1)] /\
  (exists s, reuse_dist Z.to_nat 300 (meanings 300 100 [] ex_trace) = Ok s /\
     rd_rt s !! (-1) = Some 2 /\ rd_rt s !! 30 = Some 1 /\ rd_rt s !! 59 = Some 1 /\
     rd_rt s !! 2 = Some 1 /\ rd_vt s !! 2 = Some 2) /\
  ap_vt (access_pattern 2 (meanings 300 100 [] ex_trace)) !! 8 = Some [2; 4; 5] /\
  ap_vt (access_pattern 2 (meanings 300 100 [] ex_trace)) !! 7 = None.
Proof.
  split; [vm_compute; reflexivity|]. split.
  - eexists. split; [vm_compute; reflexivity|]. vm_compute. done.
  - vm_compute. done.
Qed.
