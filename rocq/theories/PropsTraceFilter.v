(** C82: a filtered trace is what the cache missed. *)
From stdpp Require Import gmap list numbers fin_maps.
From Verif Require Import Base Driver Abs SpecApi ModelQueue SpecLRUStack PropsLRU
  ModelReader SpecReader ReaderFacts PropsReader PropsLayout ModelConv SpecConv ConvFacts PropsConv
  ModelSim SpecSim SimulatorFacts PropsSim SpecTraceFilter ModelTraceFilter.
Open Scope Z_scope.

Lemma filter_loop_spec {R} (read : R -> treq -> res (R * treq * Z)) ts l :
  forall fuel rd c seed q qend c' sd bs out,
    cur read (shifted ts) rd q l qend ->
    serves c seed (map (shifted ts) l) c' sd bs -> (length l < fuel)%nat ->
    filter_loop read fuel ts seed rd c q out =
      Ok (c', out ++ concat (map og_bytes (map filter_rec (missed (map (shifted ts) l) bs)))).
Proof.
  induction l as [|x l IH]; intros fuel rd c seed q qend c' sd bs out C S Hf;
    (destruct fuel as [|fuel]; [cbn in Hf; lia|]); cbn [cur map] in C, S; cbn [filter_loop].
  - destruct C as [-> V]. inversion S; subst. rewrite valid_false by done. cbn. by rewrite app_nil_r.
  - destruct C as (-> & V & Y). rewrite valid_true by done.
    inversion S as [|? ? ? ? c1 sd1 b c2 sd2 bs' E S']; subst.
    destruct (yields_cur _ _ _ _ _ _ Y) as (rd' & q' & st & Er & C').
    change (sub_time ts x) with (shifted ts x). rewrite E. cbn [rbind]. rewrite Er. cbn [rbind].
    cbn in Hf. rewrite (IH fuel rd' c1 sd1 q' qend c' sd bs' _ C' S' ltac:(lia)).
    cbn [map missed]. destruct b; cbn [app map concat]; [done|]. by rewrite app_assoc.
Qed.

Lemma missed_sub l : forall bs q, q ∈ missed l bs -> q ∈ l.
Proof.
  induction l as [|x l IH]; intros [|b bs] q; cbn; try done; try (by inversion 1).
  rewrite elem_of_app. intros [H|H]; [|apply elem_of_cons; right; by eapply IH].
  destruct b; [by inversion H|]. apply elem_of_list_singleton in H as ->. apply elem_of_list_here.
Qed.

Lemma missed_length l : forall bs, (length (missed l bs) <= length l)%nat.
Proof. induction l as [|x l IH]; intros [|b bs]; cbn; try lia. rewrite app_length. specialize (IH bs). destruct b; cbn; lia. Qed.

(** Reading the records of requests in range gives the requests again. *)
Lemma read_back h l q fuel :
  Forall (fits 0) l -> (length l < fuel)%nat ->
  exists got rd' q',
    read_all h fuel (setup_reader T_OGEN (concat (map og_bytes (map filter_rec l))) 0 (-1) false false None) q = Ok (got, rd', q') /\
    Forall2 told l got /\ Forall (fun o => fget o F_NEXT = -2) got.
Proof.
  intros Hl Hf. set (gs := map filter_rec l). set (out := concat (map og_bytes gs)).
  assert (Hgl : length gs = length l) by (unfold gs; by rewrite map_length).
  assert (Hol : length out = (0 + length l * item_size T_OGEN)%nat).
  { unfold out. rewrite og_concat_length, Hgl. cbn [item_size]. unfold og_size. lia. }
  assert (Hok2 : trace_ok T_OGEN 0 false (length l) out).
  { unfold trace_ok. split_and!; [cbn; lia|exact Hol|done|intros [?|?]; done]. }
  destruct (C29_read_all h T_OGEN (length l) out 0 (-1) false false q fuel ltac:(done) Hok2 Hf)
    as (rd' & q' & ER).
  assert (Ech : chop (item_size T_OGEN) (length l) (drop 0 out) = map og_bytes gs).
  { rewrite drop_0. rewrite <- Hgl, <- (map_length og_bytes gs). unfold out.
    apply chop_concat. exact (og_bytes_all gs). }
  rewrite Ech in ER.
  assert (Ev : visible T_OGEN false false (-1) q (map og_bytes gs)
               = map (fun g => decoded T_OGEN false q (og_bytes g)) gs).
  { unfold visible. change (1 <? -1) with false. cbv iota.
    assert (Hff : List.filter (kept T_OGEN false true q) (map og_bytes gs) = map og_bytes gs).
    { clear -gs. induction gs as [|g gs' IH]; [done|]. cbn [map List.filter].
      assert (Hk : kept T_OGEN false true q (og_bytes g) = true).
      { unfold kept. rewrite (wr_dec T_OGEN (item_size T_OGEN)).
        - unfold skipb. cbn [skip_of]. rewrite ?andb_false_r. done.
        - exact (table_fits T_OGEN).
        - rewrite og_bytes_length. done. }
      rewrite Hk, IH. done. }
    rewrite Hff, map_map. done. }
  rewrite Ev in ER. eexists _, rd', q'. split; [exact ER|]. unfold gs. clear -Hl. rewrite map_map.
  assert (D : forall a, fits 0 a -> told a (decoded T_OGEN false q (og_bytes (filter_rec a))) /\
            fget (decoded T_OGEN false q (og_bytes (filter_rec a))) F_NEXT = -2).
  { intros a (H1 & H2 & H3). rewrite Z.sub_0_r in H1.
    destruct (decoded_og q (filter_rec a)) as (D1 & D2 & D3 & D4).
    { unfold og_wf, filter_rec, uint, sint, u32. cbn. rewrite !Z.mod_small by lia. lia. }
    unfold told. rewrite D1, D2, D3, D4. cbn. unfold u32. rewrite !Z.mod_small by lia. done. }
  split; induction Hl as [|a l Ha Hl IH]; cbn [map]; constructor; try done; apply D; done.
Qed.

(** ** C82 *)
(** For every reader, every cache and every trace: the filter ends, the cache has
    been asked for all requests in order, and reading the output file gives exactly
    the requests that the cache did not have, in their order, with their objects and
    sizes and their times counted from the first request. *)
Theorem C82_filter {R} (read : R -> treq -> res (R * treq * Z)) rd c c' l qend seed sd bs fuel h q fuel' :
  yields read (shifted (start_of l)) rd new_request l qend ->
  serves c seed (map (shifted (start_of l)) l) c' sd bs ->
  Forall (fits (start_of l)) l -> (length l < fuel)%nat -> (length l < fuel')%nat ->
  exists out got rd' q',
    trace_filter read fuel seed rd c = Ok (c', out) /\
    read_all h fuel' (setup_reader T_OGEN out 0 (-1) false false None) q = Ok (got, rd', q') /\
    Forall2 told (missed (map (shifted (start_of l)) l) bs) got.
Proof.
  intros Y S Hfit Hf Hf'. unfold trace_filter.
  destruct (yields_cur _ _ _ _ _ _ Y) as (rd1 & q1 & st & Er & C). rewrite Er. cbn [rbind].
  assert (Hm : (length (missed (map (shifted (start_of l)) l) bs) <= length l)%nat).
  { rewrite <- (map_length (shifted (start_of l)) l) at 1. apply missed_length. }
  assert (Hms : Forall (fits 0) (missed (map (shifted (start_of l)) l) bs)).
  { apply Forall_forall. intros x Hx. apply missed_sub in Hx. apply elem_of_list_fmap in Hx as (y & -> & Hy).
    rewrite Forall_forall in Hfit. destruct (Hfit y Hy) as (F1 & F2 & F3). unfold fits. rewrite shifted_time, shifted_size, Z.sub_0_r.
    split; [done|]. split; [|done]. unfold shifted, fget. rewrite lookup_insert_ne by done. done. }
  destruct (read_back h _ q fuel' Hms ltac:(lia)) as (got & rd2 & q2 & E & T & _).
  eexists _, got, rd2, q2. split; [|split; [exact E|exact T]].
  destruct l as [|x l].
  - cbn in C. destruct C as [-> V]. inversion S; subst.
    destruct fuel as [|fuel]; [cbn in Hf; lia|]. cbn [filter_loop]. rewrite valid_false by done. done.
  - assert (Et : fget q1 F_TIME = start_of (x :: l)) by (cbn in C; destruct C as [-> _]; done).
    rewrite Et, (filter_loop_spec read _ (x :: l) fuel rd1 c seed q1 qend c' sd bs [] C S Hf). done.
Qed.

(** For a binary trace read without object sizes and an LRU cache of [cap] objects:
    the output has the requests whose stack distance is [cap] or more, and those for
    new objects; every object of the trace is in it. *)
Lemma lru_missed cap (l : list treq) bs : forall before,
  length bs = length l ->
  (forall i x, l !! i = Some x -> exists b, bs !! i = Some b /\
     (b = true <-> exists d, stack_distance (before ++ map (fun q => fget q F_ID) (take i l)) (fget x F_ID) = Some d /\ (d < cap)%nat)) ->
  missed l bs = lru_filtered cap before l.
Proof.
  revert bs. induction l as [|x l IH]; intros [|b bs] before Hlen H; try done. cbn [missed lru_filtered]. f_equal.
  - destruct (H 0%nat x eq_refl) as (b' & Eb & Hb). injection Eb as <-. cbn [take map] in Hb. rewrite app_nil_r in Hb.
    destruct (stack_distance before (fget x F_ID)) as [d|].
    + destruct (decide (d < cap)%nat) as [Hd|Hd].
      * assert (b = true) as -> by (apply Hb; eauto). done.
      * destruct b; [|done]. destruct (proj1 Hb eq_refl) as (d' & [= <-] & ?). lia.
    + destruct b; [|done]. destruct (proj1 Hb eq_refl) as (d' & [=] & _).
  - apply IH; [cbn in Hlen; lia|]. intros i y Hy. destruct (H (S i) y Hy) as (b' & Eb & Hb). exists b'. split; [done|].
    rewrite Hb. cbn [take map]. rewrite <- app_assoc. done.
Qed.

Lemma stack_pos_None x st : stack_pos x st = None <-> x ∉ st.
Proof.
  induction st as [|y st IH]; cbn; [split; [intros _; apply not_elem_of_nil|done]|].
  rewrite not_elem_of_cons. destruct (decide (y = x)) as [->|Hn]; [split; [done|intros [? _]; done]|].
  rewrite fmap_None, IH. split; [intros ?; split; [congruence|done]|tauto].
Qed.
Lemma recency_elem ids x : x ∈ recency ids -> x ∈ ids.
Proof.
  unfold recency. assert (G : forall l st, x ∈ fold_left recency_step l st -> x ∈ l \/ x ∈ st).
  { clear. induction l as [|y l IH]; intros st H; cbn in H; [by right|].
    destruct (IH _ H) as [K|K]; [left; by apply elem_of_list_further|]. unfold recency_step in K.
    apply elem_of_cons in K as [->|K]; [left; apply elem_of_list_here|]. right. by apply elem_of_list_filter in K as [_ K]. }
  intros H. destruct (G _ _ H) as [K|K]; [done|by inversion K].
Qed.
Lemma lru_filtered_all n x (l : list treq) : forall before,
  x ∈ map (fun q => fget q F_ID) l -> x ∉ before -> x ∈ map (fun q => fget q F_ID) (lru_filtered n before l).
Proof.
  induction l as [|q l IH]; intros before Hx Hb; [by inversion Hx|]. cbn [map lru_filtered]. rewrite fmap_app, elem_of_app.
  destruct (decide (x = fget q F_ID)) as [->|Hn].
  - left. assert (stack_distance before (fget q F_ID) = None) as ->; [|apply elem_of_list_here].
    apply stack_pos_None. intros H. by apply recency_elem in H.
  - right. apply elem_of_cons in Hx as [Hx|Hx]; [done|]. apply IH; [done|]. rewrite elem_of_app, elem_of_list_singleton. tauto.
Qed.

Theorem C82_lru h t n file start lim ign0 cap fuel fg h' q fuel' rn rb :
  t <> T_IQQ -> trace_ok t start ign0 n file -> F_TIME ∈ fields (table_of t) -> 0 <= cap ->
  let l := trace_of t ign0 true lim n start file in
  Forall (fits (start_of l)) l -> (length l < fuel)%nat -> (length l <= fg)%nat -> (length l < fuel')%nat ->
  exists c' out got rd' q',
    trace_filter (read_one_req h) fuel 0 (setup_reader t file start lim ign0 true None)
      (acache_of lru_ops fg rn rb (lru_init false cap AdmNone)) = Ok (c', out) /\
    read_all h' fuel' (setup_reader T_OGEN out 0 (-1) false false None) q = Ok (got, rd', q') /\
    Forall2 told (lru_filtered (Z.to_nat cap) [] (map (shifted (start_of l)) l)) got /\
    (forall x, x ∈ map (fun q => fget q F_ID) l -> x ∈ map (fun q => fget q F_ID) got).
Proof.
  intros Hne Hok Hti Hcap l Hfit Hf Hfg Hf'.
  destruct (binary_yields h t n file start lim ign0 true Hne Hok Hti) as (qend & Y). fold l in Y.
  assert (Hcl : clone_reader (setup_reader t file start lim ign0 true None) = setup_reader t file start lim ign0 true None).
  { unfold clone_reader, setup_reader. cbn. destruct t; done. }
  rewrite Hcl in Y.
  set (ll := map (shifted (start_of l)) l) in *.
  assert (Hsz : Forall (fun q => fget q F_SIZE = 1) l).
  { apply Forall_forall. intros x Hx. unfold l, trace_of, visible in Hx.
    assert (Hx' : x ∈ map (decoded t true new_request) (List.filter (kept t ign0 true new_request) (chop (item_size t) n (drop start file)))).
    { destruct (1 <? lim); [|done]. rewrite <- (take_drop (Z.to_nat lim)). apply elem_of_app. by left. }
    apply elem_of_list_fmap in Hx' as (r & -> & _). unfold decoded. destruct (dec_table _ _ _ _); [|done].
    unfold fget. by rewrite lookup_insert. }
  destruct (C10_lru_stack false cap 1 (map req_of ll) fg) as (s & os & E & _ & Hos); [done|lia| |by rewrite map_length; unfold ll; rewrite map_length|].
  { apply Forall_map, Forall_map. eapply Forall_impl; [exact Hsz|]. intros x Hx.
    assert (E1 : r_size (req_of (shifted (start_of l) x)) = 1) by (change (fget (shifted (start_of l) x) F_SIZE = 1); by rewrite shifted_size).
    unfold compose. split; [exact E1|]. unfold req_ok. rewrite E1. lia. }
  rewrite map_map in E.
  destruct (run_serves lru_ops fg rn rb (lru_init false cap AdmNone) ll _ 0 _ _ E) as (bs & -> & Sv).
  destruct (C82_filter (read_one_req h) _ _ _ l qend 0 0 bs fuel h' q fuel' Y Sv Hfit Hf Hf') as (out & got & rd' & q' & EF & ER & HT).
  fold ll in HT. rewrite (lru_missed (Z.to_nat cap) ll bs []) in HT.
  - eexists _, out, got, rd', q'. split; [exact EF|]. split; [exact ER|]. split; [exact HT|].
    intros x Hx. assert (Eg : map (fun q => fget q F_ID) got = map (fun q => fget q F_ID) (lru_filtered (Z.to_nat cap) [] ll)).
    { clear -HT. induction HT as [|a b la lb (_ & H & _) _ IH]; [done|]. cbn. by rewrite H, IH. }
    rewrite Eg. apply lru_filtered_all; [|apply not_elem_of_nil]. unfold ll. rewrite map_map.
    erewrite map_ext; [exact Hx|]. intros a. cbn. unfold shifted, fget. rewrite lookup_insert_ne by done. done.
  - assert (G : forall l c sd c' sd' bs, serves c sd l c' sd' bs -> length bs = length l).
    { clear. induction 1; cbn; congruence. } by eapply G.
  - intros i x Hx. destruct (Hos i (req_of x)) as (b & Eb & Hb). { rewrite list_lookup_fmap, Hx. done. }
    rewrite list_lookup_fmap in Eb. destruct (bs !! i) as [b'|] eqn:Ebs; [|done]. injection Eb as <-. exists b'. split; [done|].
    rewrite Hb. rewrite Z.add_0_r, Z.div_1_r. rewrite <- fmap_take, map_map. done.
Qed.

(** *** A trace of six requests through an LRU cache of two objects *)
Definition rec_iqi (time id size : Z) : list Z := le_bytes 4 time ++ le_bytes 8 id ++ le_bytes 4 size.
Definition file82 : list Z := concat [rec_iqi 100 7 3; rec_iqi 101 8 4; rec_iqi 105 7 3; rec_iqi 106 9 5; rec_iqi 110 7 3; rec_iqi 120 8 4].
Definition seen82 (x : res (acache * list Z)) (ign0 : bool) : res (list (Z * Z * Z * Z)) :=
  let! (_, out) := x in
  let! (l, _, _) := read_all id 10 (setup_reader T_OGEN out 0 (-1) ign0 false None) new_request in
  Ok (map (fun q => (fget q F_TIME, fget q F_ID, fget q F_SIZE, fget q F_NEXT)) l).
Definition run82 (file : list Z) (ignsz : bool) (cap : Z) : res (acache * list Z) :=
  trace_filter (read_one_req id) 10 0 (setup_reader T_IQI file 0 (-1) false ignsz None)
    (acache_of lru_ops 10 (op_nobj lru_ops) (op_occupied lru_ops) (lru_init false cap AdmNone)).
Example C82_lru_hyps_ex : trace_ok T_IQI 0 false 6 file82 /\ F_TIME ∈ fields (table_of T_IQI) /\
  let l := trace_of T_IQI false true (-1) 6 0 file82 in Forall (fits (start_of l)) l /\ length l = 6%nat.
Proof.
  split; [unfold trace_ok; split_and!; [cbn; lia|reflexivity|done|intros [?|?]; done]|]. split; [cbn; set_solver|].
  assert (E : map (fun q => (fget q F_TIME, fget q F_ID, fget q F_SIZE)) (trace_of T_IQI false true (-1) 6 0 file82) =
    [(100, 7, 1); (101, 8, 1); (105, 7, 1); (106, 9, 1); (110, 7, 1); (120, 8, 1)]) by (vm_compute; reflexivity).
  cbv zeta. set (l := trace_of _ _ _ _ _ _ _) in *. assert (Es : start_of l = 100) by (vm_compute; reflexivity). rewrite Es.
  assert (El : length l = 6%nat) by (vm_compute; reflexivity). split; [|exact El].
  clearbody l. clear Es. do 6 (destruct l as [|? l]; [done|]). destruct l; [|done]. cbn in E. injection E; intros.
  repeat constructor; cbn in *; lia.
Qed.
Example C82_ex : seen82 (run82 file82 true 2) false =
  Ok [(0, 7, 1, -2); (1, 8, 1, -2); (6, 9, 1, -2); (20, 8, 1, -2)].
Proof. vm_compute. reflexivity. Qed.
Example C82_sizes_ex : seen82 (run82 file82 false 8) false =
  Ok [(0, 7, 3, -2); (1, 8, 4, -2); (6, 9, 5, -2); (20, 8, 4, -2)].
Proof. vm_compute. reflexivity. Qed.

(** *** Where it fails *)
(** The output is named oracleGeneral, a format that tells when each object is
    requested next.  It does not: all requests have -2, "unknown". *)
Theorem C82_next {R} (read : R -> treq -> res (R * treq * Z)) rd c c' l qend seed sd bs fuel h q fuel' :
  yields read (shifted (start_of l)) rd new_request l qend ->
  serves c seed (map (shifted (start_of l)) l) c' sd bs ->
  Forall (fits (start_of l)) l -> (length l < fuel)%nat -> (length l < fuel')%nat ->
  exists out got rd' q',
    trace_filter read fuel seed rd c = Ok (c', out) /\
    read_all h fuel' (setup_reader T_OGEN out 0 (-1) false false None) q = Ok (got, rd', q') /\
    Forall (fun o => fget o F_NEXT = -2) got.
Proof.
  intros Y S Hfit Hf Hf'.
  destruct (C82_filter read rd c c' l qend seed sd bs fuel h q fuel' Y S Hfit Hf Hf') as (out & got & rd' & q' & E1 & E2 & HT).
  exists out, got, rd', q'. split; [exact E1|]. split; [exact E2|].
  unfold trace_filter in E1. destruct (yields_cur _ _ _ _ _ _ Y) as (rd1 & q1 & st & Er & C). rewrite Er in E1. cbn [rbind] in E1.
  assert (Hms : Forall (fits 0) (missed (map (shifted (start_of l)) l) bs)).
  { apply Forall_forall. intros x Hx. apply missed_sub in Hx. apply elem_of_list_fmap in Hx as (y & -> & Hy).
    rewrite Forall_forall in Hfit. destruct (Hfit y Hy) as (F1 & F2 & F3). unfold fits. rewrite shifted_time, shifted_size, Z.sub_0_r.
    split; [done|]. split; [|done]. unfold shifted, fget. rewrite lookup_insert_ne by done. done. }
  assert (Hm := missed_length (map (shifted (start_of l)) l) bs). rewrite map_length in Hm.
  assert (Eo : out = concat (map og_bytes (map filter_rec (missed (map (shifted (start_of l)) l) bs)))).
  { destruct l as [|x l].
    - cbn in C. destruct C as [-> V]. inversion S; subst.
      destruct fuel as [|fuel]; [cbn in Hf; lia|]. cbn [filter_loop] in E1. rewrite valid_false in E1 by done. by injection E1 as <-.
    - assert (Et : fget q1 F_TIME = start_of (x :: l)) by (cbn in C; destruct C as [-> _]; done).
      rewrite Et, (filter_loop_spec read _ (x :: l) fuel rd1 c seed q1 qend c' sd bs [] C S Hf) in E1. by injection E1 as <-. }
  destruct (read_back h _ q fuel' Hms ltac:(lia)) as (got' & rd2 & q2 & E & _ & N). rewrite <- Eo, E2 in E. injection E as <- _ _. exact N.
Qed.
Theorem C82_next_refuted : exists file got, trace_ok T_IQI 0 false 4 file /\
  seen82 (run82 file true 1) false = Ok got /\
  got !! 0%nat = Some (0, 7, 1, -2) /\ got !! 2%nat = Some (5, 7, 1, -2) /\
  next_ref (map (fun x => x.1.1.2) got) 0 3 /\ ~ next_ref (map (fun x => x.1.1.2) got) 0 (-2).
Proof.
  exists (concat [rec_iqi 100 7 3; rec_iqi 101 8 4; rec_iqi 105 7 3; rec_iqi 106 7 5]), [(0, 7, 1, -2); (1, 8, 1, -2); (5, 7, 1, -2)].
  split; [unfold trace_ok; split_and!; [cbn; lia|reflexivity|done|intros [?|?]; done]|].
  split; [vm_compute; reflexivity|]. split; [done|]. split; [done|]. split.
  - exists 7. split; [done|]. left. exists 2%nat. split; [lia|]. split; [done|]. split; [|done].
    intros k Hk. assert (k = 1%nat) as -> by lia. cbn. done.
  - intros (x & Hx & [(j & _ & _ & _ & Hj)|[_ Hj]]); lia.
Qed.
(** A miss of size zero is written, and dropped by a reader that ignores requests
    of size zero (the default of the other programs). *)
Theorem C82_zero_refuted : exists file, trace_ok T_IQI 0 false 2 file /\
  seen82 (run82 file false 8) false = Ok [(0, 7, 0, -2); (1, 8, 4, -2)] /\
  seen82 (run82 file false 8) true = Ok [(1, 8, 4, -2)].
Proof.
  exists (concat [rec_iqi 100 7 0; rec_iqi 101 8 4]).
  split; [unfold trace_ok; split_and!; [cbn; lia|reflexivity|done|intros [?|?]; done]|]. split; vm_compute; reflexivity.
Qed.
(** A request earlier than the first one gets a time more than a hundred years
    later. *)
Theorem C82_time_refuted : exists file, trace_ok T_IQI 0 false 2 file /\
  seen82 (run82 file false 8) false = Ok [(0, 7, 3, -2); (2 ^ 32 - 1, 8, 4, -2)].
Proof.
  exists (concat [rec_iqi 100 7 3; rec_iqi 99 8 4]).
  split; [unfold trace_ok; split_and!; [cbn; lia|reflexivity|done|intros [?|?]; done]|]. vm_compute. reflexivity.
Qed.
