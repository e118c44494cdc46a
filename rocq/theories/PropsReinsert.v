(** Properties of FIFO_Reinsertion. *)
From stdpp Require Import gmap list numbers fin_maps sorting.
From Verif Require Import Base Driver ModelQueue SpecReinsert ModelReinsert ReinsertFacts.
Open Scope Z_scope.

(** ** C80 *)
Section C80.
  Context (n_exam n_keep : Z) (none : bool) (rank : Z -> Z -> list rob -> list rob * Z).
  Context (cap : Z) (b : bool) (adm : admissioner) (seed : Z).
  Let md := if b then 4 else 0.
  Local Notation O := (fr_ops n_exam n_keep none rank).
  Local Notation P := (e_ops cap md n_exam n_keep none rank).
  Local Notation s0 := (fr_init b cap adm seed).
  Local Notation d0 := (e_init adm seed).

  (** The assertions of FIFO_Reinsertion_init, and of qsort: the result contains
      the examined objects, once each. *)
  Definition re_params : Prop :=
    0 < n_exam /\ 0 <= n_keep <= n_exam /\ 0 <= cap /\ forall seed now l, (rank seed now l).1 ≡ₚ l.

  Lemma md_nn : 0 <= md.
  Proof. unfold md. destruct b; lia. Qed.
  Lemma re_start : frel cap md s0 d0.
  Proof.
    split; try done. split; try done.
    - apply NoDup_nil_2.
    - apply Forall_nil_2.
    - intros id [o H]. cbn in H. by rewrite lookup_empty in H.
  Qed.
  Lemma re_run : re_params -> forall fuel cs, Forall (call_ok (req_ok md)) cs -> rrel (pr (frel cap md)) (run O fuel s0 cs) (run P fuel d0 cs).
  Proof.
    intros (H1 & H2 & H3 & H4) fuel cs Hcs. pose proof md_nn.
    eapply in_step_run; [by apply frel_in_step|done|apply re_start].
  Qed.
  Lemma re_reach : re_params -> forall fuel cs s os, Forall (call_ok (req_ok md)) cs -> run O fuel s0 cs = Ok (s, os) ->
    exists d, frel cap md s d /\ run P fuel d0 cs = Ok (d, os).
  Proof.
    intros HP fuel cs s os Hcs Hr. pose proof (re_run HP fuel cs Hcs) as H. rewrite Hr in H. destruct (run P fuel d0 cs) as [[d os']|]; [|done].
    destruct H as [H1 H2]. cbn in H1, H2. subst os'. by exists d.
  Qed.

  (** For every program of API calls, errors included, the cache answers as the
      machine on one list does, and keeps the same objects in the same order. *)
  Theorem C80_refines : re_params -> forall fuel cs, Forall (call_ok (req_ok md)) cs ->
    match run O fuel s0 cs, run P fuel d0 cs with
    | Ok (s, os), Ok (d, os') =>
        os = os' /\ fr_q s = rev (xids (e_l d)) /\ op_nobj O s = Z.of_nat (length (e_l d)) /\ op_occupied O s = xbytes md (e_l d) /\
        (forall x, x ∈ e_l d -> exists o, c_tbl (fr_c s) !! x_id x = Some o /\
           o_size o = x_sz x /\ o_p1 o = x_fr x /\ o_p2 o = x_last x /\ o_next o = x_next x)
    | Err e, Err e' => e = e'
    | _, _ => False
    end.
  Proof.
    intros HP fuel cs Hcs. pose proof (re_run HP fuel cs Hcs) as H. destruct (run O fuel s0 cs) as [[s os]|], (run P fuel d0 cs) as [[d os']|]; try done.
    destruct H as [[T Q N A S At] H2]. cbn [fst snd] in *. split_and!; try done.
    - apply (tb_nobj _ _ _ _ T).
    - apply (tb_occ _ _ _ _ T).
    - intros x Hx. pose proof (tb_known _ _ _ _ T) as K. rewrite Forall_forall in K. destruct (K x Hx) as (o & E & V & _). exists o.
      split; [done|]. by rewrite <- V.
  Qed.

  (** After every program that returns: the queue holds the residents, once
      each; the counters are theirs; the cache is within its size; and
      next_to_merge is NULL, the tail of the queue, or dangling. *)
  Theorem C80_invariant : re_params -> forall fuel cs s os, Forall (call_ok (req_ok md)) cs -> run O fuel s0 cs = Ok (s, os) ->
    NoDup (fr_q s) /\ (forall id, id ∈ fr_q s <-> is_Some (c_tbl (fr_c s) !! id)) /\
    op_nobj O s = Z.of_nat (length (fr_q s)) /\ 0 <= op_occupied O s <= cap /\
    (fr_at s = MNull \/ fr_at s = MFreed \/ exists x, last (fr_q s) = Some x /\ fr_at s = MAt x).
  Proof.
    intros HP fuel cs s os Hcs Hr. destruct (re_reach HP _ _ _ _ Hcs Hr) as (d & [T Q N A S At] & Hd). destruct HP as (H1 & H2 & H3 & H4).
    pose proof md_nn as Hmd.
    assert (HI : inv cap md d).
    { eapply e_run_keeps; [..|exact Hd]; try done. split; [apply Forall_nil_2|cbn; lia]. }
    split_and!.
    - rewrite Q. apply NoDup_ListNoDup, NoDup_rev, NoDup_ListNoDup, (tb_nodup _ _ _ _ T).
    - intros id. rewrite Q, elem_of_list_In, <- in_rev, <- elem_of_list_In. apply (tab_in _ _ _ _ _ T).
    - cbn. rewrite (tb_nobj _ _ _ _ T), Q, rev_length. unfold xids. by rewrite fmap_length.
    - cbn. rewrite (tb_occ _ _ _ _ T). apply xnn_bytes; [done|apply HI].
    - cbn. rewrite (tb_occ _ _ _ _ T). apply HI.
    - destruct (e_at d); cbn in At; [by left| |by right; left]. right. right. destruct At as (x & Hx & E). exists x. split; [|done].
      rewrite Q. destruct (xids (e_l d)); [done|]. injection Hx as ->. cbn [rev]. apply last_snoc.
  Qed.

  (** Programs without remove and to_evict run to their end, if some examined
      object is evicted ([n_keep < n_exam]) and there is a retain policy.  The
      full claim, for all programs and parameters, is false: see the refutations
      below. *)
  Theorem C80_completes_partial : re_params -> n_keep < n_exam -> none = false -> forall fuel cs, Forall (re_call md) cs -> (length cs <= fuel)%nat ->
    exists s os, run O fuel s0 cs = Ok (s, os) /\ fr_at s <> MFreed.
  Proof.
    intros HP Hlt Hno fuel cs Hcs Hf. pose proof HP as (H1 & H2 & H3 & H4). pose proof md_nn as Hmd.
    assert (Hcs' : Forall (call_ok (req_ok md)) cs).
    { eapply Forall_impl; [exact Hcs|]. intros c. by destruct c. }
    pose proof (re_run HP fuel cs Hcs') as H.
    destruct (e_run_some cap md n_exam n_keep none rank Hmd H1 H2 H4 fuel cs 0 d0 Hno Hlt Hcs) as (d & os & E & G); [lia|done|].
    rewrite E in H. destruct (run O fuel s0 cs) as [[s os']|]; [|done]. destruct H as [R1 R2]. cbn in R1, R2. exists s, os'. split; [done|].
    pose proof (fe_at _ _ _ _ R1) as At. destruct (e_at d); cbn in At; [by rewrite At| |done]. destruct At as (x & _ & ->). done.
  Qed.

  (** Eviction with at most [n_exam] objects: the oldest object leaves, whatever
      its hits. *)
  Theorem C80_evict_small : re_params -> forall fuel cs s os r q v, Forall (call_ok (req_ok md)) cs -> run O fuel s0 cs = Ok (s, os) ->
    fr_at s <> MFreed -> op_nobj O s <= n_exam -> fr_q s = q ++ [v] ->
    exists s', op_evict O s r = Ok s' /\ fr_q s' = q /\ (forall j, is_Some (c_tbl (fr_c s') !! j) <-> is_Some (c_tbl (fr_c s) !! j) /\ j <> v).
  Proof.
    intros HP fuel cs s os r q v Hcs Hr Hat Hn Hq. destruct (re_reach HP _ _ _ _ Hcs Hr) as (d & HR & _). destruct HP as (H1 & H2 & H3 & H4).
    pose proof md_nn as Hmd. pose proof (frel_evict cap md n_exam n_keep none rank Hmd H1 H2 H4 s d r HR) as HE.
    pose proof HR as [T Q N A S At]. cbn [op_nobj op_evict fr_ops] in *. rewrite (tb_nobj _ _ _ _ T) in Hn.
    rewrite Q in Hq. apply (f_equal (@rev Z)) in Hq. rewrite rev_involutive, rev_app_distr in Hq. cbn in Hq.
    destruct (e_l d) as [|x l] eqn:El; [done|]. cbn in Hq. injection Hq as Hv Hl.
    assert (Hg : e_at d <> Gone). { intros X. rewrite X in At. done. }
    assert (E : exists p, e_evict n_exam n_keep none rank d r = Ok (mkRei l (e_now d) p (e_seed d) (e_adm d))).
    { unfold e_evict. rewrite El, decide_True by done. destruct (e_at d); try done; by eexists. }
    destruct E as (p & E). rewrite E in HE. destruct (fr_evict _ _ _ _ s r) as [s'|]; [|done]. cbn in HE. exists s'. split; [done|].
    pose proof HE as [T' Q' _ _ _ _]. cbn [e_l] in *. split; [rewrite Q'; unfold xids; rewrite Hl; apply rev_involutive|].
    intros j. rewrite <- (tab_in _ _ _ _ _ T'), <- (tab_in _ _ _ _ _ T). cbn. pose proof (tb_nodup _ _ _ _ T) as ND. cbn in ND. apply NoDup_cons in ND as [ND _].
    rewrite elem_of_cons. subst v. split.
    - intros X. split; [by right|]. intros ->. done.
    - intros [[X|X] Y]; done.
  Qed.

  (** Eviction with more than [n_exam] objects.  [w]: the [n_exam] oldest objects,
      oldest first, [ml]: the same objects in the order of qsort.  The first
      [n_exam - n_keep] of [ml] leave the cache.  The others become the newest, the
      last of [ml] the newest of all, with their hits halved.  The objects not
      examined keep their place and are not touched. *)
  Theorem C80_evict : re_params -> forall fuel cs s os r q w, Forall (call_ok (req_ok md)) cs -> run O fuel s0 cs = Ok (s, os) ->
    none = false -> fr_at s <> MFreed -> op_nobj O s > n_exam -> fr_q s = q ++ rev w -> Z.of_nat (length w) = n_exam ->
    exists s' vs ml, op_evict O s r = Ok s' /\
      xids vs = w /\ (forall x, x ∈ vs -> exists o, c_tbl (fr_c s) !! x_id x = Some o /\ fr_view (x_id x) o = x) /\
      ml = (rank (fr_seed s) (c_nreq (fr_c s)) vs).1 /\
      fr_q s' = rev (xids (drop (Z.to_nat (n_exam - n_keep)) ml)) ++ q /\
      (forall j, is_Some (c_tbl (fr_c s') !! j) <-> is_Some (c_tbl (fr_c s) !! j) /\ j ∉ xids (take (Z.to_nat (n_exam - n_keep)) ml)) /\
      (forall x, x ∈ drop (Z.to_nat (n_exam - n_keep)) ml -> exists o, c_tbl (fr_c s') !! x_id x = Some o /\
         o_size o = x_sz x /\ o_p1 o = Z.quot (x_fr x + 1) 2 /\ o_p2 o = x_last x /\ o_next o = x_next x) /\
      (forall j, j ∈ q -> exists o o', c_tbl (fr_c s) !! j = Some o /\ c_tbl (fr_c s') !! j = Some o' /\
         o_size o' = o_size o /\ o_p1 o' = o_p1 o /\ o_p2 o' = o_p2 o /\ o_next o' = o_next o).
  Proof.
    intros HP fuel cs s os r q w Hcs Hr Hno Hat Hn Hq Hw. destruct (re_reach HP _ _ _ _ Hcs Hr) as (d & HR & _). destruct HP as (H1 & H2 & H3 & H4).
    pose proof md_nn as Hmd. pose proof (frel_evict cap md n_exam n_keep none rank Hmd H1 H2 H4 s d r HR) as HE.
    pose proof HR as [T Q N A S At]. cbn [op_nobj op_evict fr_ops] in *. rewrite (tb_nobj _ _ _ _ T) in Hn.
    rewrite Q in Hq. apply (f_equal (@rev Z)) in Hq. rewrite rev_involutive, rev_app_distr, rev_involutive in Hq.
    assert (Hg : e_at d <> Gone). { intros X. rewrite X in At. done. }
    set (n := Z.to_nat n_exam) in *. set (k := Z.to_nat (n_exam - n_keep)) in *.
    assert (Hwn : n = length w) by lia.
    assert (Ht : xids (take n (e_l d)) = w).
    { unfold xids. rewrite fmap_take. fold (xids (e_l d)). rewrite Hq, Hwn. apply take_app. }
    assert (Hdr : xids (drop n (e_l d)) = rev q).
    { unfold xids. rewrite fmap_drop. fold (xids (e_l d)). rewrite Hq, Hwn. apply drop_app. }
    pose proof (H4 (e_seed d) (e_now d) (take n (e_l d))) as Hp.
    set (ml := (rank (e_seed d) (e_now d) (take n (e_l d))).1) in *.
    assert (E : exists sd, e_evict n_exam n_keep none rank d r = Ok (mkRei (drop n (e_l d) ++ (halve <$> drop k ml)) (e_now d) Oldest sd (e_adm d))).
    { exists (rank (e_seed d) (e_now d) (take n (e_l d))).2. unfold e_evict. rewrite Hno. destruct (e_l d) as [|x l] eqn:El; [cbn in Hn; lia|].
      rewrite decide_False by lia. fold n k. rewrite (surjective_pairing (rank (e_seed d) (e_now d) (take n (x :: l)))). fold ml. destruct (e_at d); done. }
    destruct E as (sd & E). rewrite E in HE. destruct (fr_evict _ _ _ _ s r) as [s'|]; [|done]. cbn [rrel] in HE.
    pose proof HE as [T' Q' _ _ _ _]. cbn [e_l] in *.
    pose proof (tb_known _ _ _ _ T) as K. rewrite Forall_forall in K. pose proof (tb_known _ _ _ _ T') as K'. rewrite Forall_forall in K'.
    exists s', (take n (e_l d)), ml. split; [done|]. split; [done|]. split.
    { intros x Hx. destruct (K x) as (o & E1 & V & _); [rewrite <- (take_drop n (e_l d)); apply elem_of_app; by left|]. by exists o. }
    split; [by rewrite S, N|]. split.
    { rewrite Q', xids_app, xids_halve, rev_app_distr, Hdr, rev_involutive. done. }
    assert (Hperm : e_l d ≡ₚ take k ml ++ drop k ml ++ drop n (e_l d)) by (rewrite app_assoc, take_drop, Hp, take_drop; done).
    split.
    { intros j. rewrite <- (tab_in _ _ _ _ _ T'), <- (tab_in _ _ _ _ _ T). pose proof (tb_nodup _ _ _ _ T) as ND.
      rewrite (xids_perm _ _ Hperm) in ND |- *. rewrite !xids_app, xids_halve in *. apply NoDup_app in ND as (_ & ND & _).
      rewrite !elem_of_app in *. specialize (ND j). rewrite elem_of_app in ND. tauto. }
    split.
    { intros x Hx. destruct (K' (halve x)) as (o & E1 & V & _); [apply elem_of_app; right; by apply elem_of_list_fmap_1|].
      exists o. split; [exact E1|]. unfold fr_view, halve in V. injection V as V1 V2 V3 V4. done. }
    { intros j Hj. assert (X : j ∈ xids (drop n (e_l d))) by (rewrite Hdr, elem_of_list_In, <- in_rev, <- elem_of_list_In; done).
      apply elem_of_list_fmap in X as (x & -> & Hx).
      destruct (K x) as (o & E1 & V & _); [rewrite <- (take_drop n (e_l d)); apply elem_of_app; by right|].
      destruct (K' x) as (o' & E1' & V' & _); [apply elem_of_app; by left|].
      exists o, o'. split; [done|]. split; [done|]. rewrite <- V' in V. unfold fr_view in V. injection V as V1 V2 V3 V4. done. }
  Qed.

  (** If qsort orders the objects by a metric, then no examined object that stays
      has a smaller metric than one that leaves. *)
  Theorem C80_keeps_best : re_params -> forall (metric : Z -> rob -> Z), 
    (forall sd now l, StronglySorted (fun x y => metric now x <= metric now y) (rank sd now l).1) ->
    forall fuel cs s os r q w s' i j oi oj, Forall (call_ok (req_ok md)) cs -> run O fuel s0 cs = Ok (s, os) ->
    none = false -> fr_at s <> MFreed -> op_nobj O s > n_exam -> fr_q s = q ++ rev w -> Z.of_nat (length w) = n_exam ->
    op_evict O s r = Ok s' ->
    i ∈ w -> j ∈ w -> c_tbl (fr_c s) !! i = Some oi -> c_tbl (fr_c s) !! j = Some oj ->
    is_Some (c_tbl (fr_c s') !! i) -> c_tbl (fr_c s') !! j = None ->
    metric (c_nreq (fr_c s)) (fr_view j oj) <= metric (c_nreq (fr_c s)) (fr_view i oi).
  Proof.
    intros HP metric Hs fuel cs s os r q w s' i j oi oj Hcs Hr Hno Hat Hn Hq Hw Hev Hi Hj Ei Ej Hin Hout.
    destruct (C80_evict HP fuel cs s os r q w Hcs Hr Hno Hat Hn Hq Hw) as (s1 & vs & ml & E & Hvs & Hob & Hml & _ & Hres & _).
    rewrite Hev in E. injection E as <-. specialize (Hs (fr_seed s) (c_nreq (fr_c s)) vs). rewrite <- Hml in Hs.
    destruct HP as (H1 & H2 & H3 & H4). pose proof (H4 (fr_seed s) (c_nreq (fr_c s)) vs) as Hp. rewrite <- Hml in Hp.
    assert (V : forall x o, x ∈ w -> c_tbl (fr_c s) !! x = Some o -> fr_view x o ∈ ml).
    { intros x o Hx Ex. rewrite Hp. rewrite <- Hvs in Hx. apply elem_of_list_fmap in Hx as (v & -> & Hv). destruct (Hob v Hv) as (o' & E1 & E2).
      rewrite Ex in E1. injection E1 as <-. by rewrite E2. }
    pose proof (V i oi Hi Ei) as Vi. pose proof (V j oj Hj Ej) as Vj. set (k := Z.to_nat (n_exam - n_keep)) in *.
    assert (Ji : i ∉ xids (take k ml)) by (by apply Hres in Hin as [_ X]).
    assert (Jj : j ∈ xids (take k ml)).
    { destruct (decide (j ∈ xids (take k ml))) as [X|X]; [done|]. exfalso.
      assert (Y : is_Some (c_tbl (fr_c s') !! j)) by (apply Hres; split; [by rewrite Ej|done]). rewrite Hout in Y. by destruct Y. }
    assert (Hnd : NoDup (xids ml)).
    { rewrite (xids_perm _ _ Hp), Hvs. destruct (C80_invariant (conj H1 (conj H2 (conj H3 H4))) _ _ _ _ Hcs Hr) as (ND & _). rewrite Hq in ND.
      apply NoDup_app in ND as (_ & _ & ND). apply NoDup_ListNoDup, NoDup_rev in ND. rewrite rev_involutive in ND. by apply NoDup_ListNoDup. }
    assert (Di : fr_view i oi ∈ drop k ml).
    { rewrite <- (take_drop k ml) in Vi. apply elem_of_app in Vi as [X|X]; [|done]. destruct Ji. by apply (elem_of_list_fmap_1 x_id) in X. }
    assert (Dj : fr_view j oj ∈ take k ml).
    { rewrite <- (take_drop k ml) in Vj. apply elem_of_app in Vj as [X|X]; [done|]. exfalso.
      rewrite <- (take_drop k ml), xids_app in Hnd. apply NoDup_app in Hnd as (_ & ND & _). apply (ND j Jj). by apply (elem_of_list_fmap_1 x_id) in X. }
    rewrite <- (take_drop k ml) in Hs. clear -Hs Di Dj. revert Hs Dj. generalize (take k ml). intros l1. induction l1 as [|x l1 IH]; intros Hs Dj.
    - by apply elem_of_nil in Dj.
    - cbn [app] in Hs. apply StronglySorted_inv in Hs as [Hs Hx]. apply elem_of_cons in Dj as [<-|Dj]; [|by apply IH].
      rewrite Forall_forall in Hx. apply Hx, elem_of_app. by right.
  Qed.

  (** With [n_keep = n_exam], which the assertions of FIFO_Reinsertion_init allow:
      a cache of more than [n_exam] objects without room for the request never
      leaves the eviction loop of get. *)
  Theorem C80_spin : re_params -> n_keep = n_exam -> none = false -> forall fuel cs s os r, Forall (call_ok (req_ok md)) cs -> run O fuel s0 cs = Ok (s, os) ->
    fr_at s <> MFreed -> op_nobj O s > n_exam -> op_occupied O s + r_size r + op_md O s > op_size O s ->
    forall n, evict_loop O n s r = Err OutOfFuel.
  Proof.
    intros HP Hk Hno fuel cs s os r Hcs Hr Hat Hn Hb n. destruct (re_reach HP _ _ _ _ Hcs Hr) as (d & HR & _). destruct HP as (H1 & H2 & H3 & H4).
    pose proof md_nn as Hmd. pose proof (frel_in_step cap md n_exam n_keep none rank Hmd H1 H2 H4) as HS.
    pose proof (in_step_loop _ _ _ _ HS n s d r HR) as HL.
    rewrite (is_nobj _ _ _ _ HS _ _ HR) in Hn. rewrite (is_occ _ _ _ _ HS _ _ HR), (is_size _ _ _ _ HS _ _ HR), (is_md _ _ _ _ HS _ _ HR) in Hb.
    cbn [op_nobj op_occupied op_size op_md e_ops] in Hn, Hb.
    rewrite (e_spin cap md n_exam n_keep none rank H1 H2 H4 n d r Hno Hk) in HL; try done.
    - destruct (evict_loop O n s r); [done|]. cbn in HL. by subst.
    - intros X. pose proof (fe_at _ _ _ _ HR) as At. rewrite X in At. done.
  Qed.
End C80.

(** ** Cases *)
(** a request for object [i] of one byte *)
Definition rq1 (i : Z) : req := mkReq i 1 0 0 0.
(** qsort by the number of hits, an insertion sort *)
Fixpoint put_by (f : rob -> Z) (x : rob) (l : list rob) : list rob :=
  match l with [] => [x] | y :: l' => if decide (f x <= f y) then x :: l else y :: put_by f x l' end.
Definition by_hits (seed now : Z) (l : list rob) : list rob * Z := (foldr (put_by x_fr) [] l, seed).
Lemma put_by_perm f x l : put_by f x l ≡ₚ x :: l.
Proof. induction l as [|y l IH]; [done|]. cbn. destruct (decide _); [done|]. rewrite IH. apply Permutation_swap. Qed.
Lemma by_hits_perm seed now l : (by_hits seed now l).1 ≡ₚ l.
Proof. cbn. induction l as [|x l IH]; [done|]. cbn. by rewrite put_by_perm, IH. Qed.
Lemma put_by_sorted f x l : StronglySorted (fun a b => f a <= f b) l -> StronglySorted (fun a b => f a <= f b) (put_by f x l).
Proof.
  induction 1 as [|y l Hs IH Hy]; cbn.
  - constructor; constructor.
  - destruct (decide (f x <= f y)).
    + constructor; [by constructor|]. constructor; [done|]. eapply Forall_impl; [exact Hy|]. intros z Hz. cbn in *. lia.
    + constructor; [done|]. rewrite put_by_perm. constructor; [lia|done].
Qed.
Lemma by_hits_sorted seed now l : StronglySorted (fun a b => x_fr a <= x_fr b) (by_hits seed now l).1.
Proof. cbn. induction l as [|x l IH]; [constructor|]. cbn. by apply put_by_sorted. Qed.
Lemma by_hits_params n_exam n_keep cap : 0 < n_exam -> 0 <= n_keep <= n_exam -> 0 <= cap -> re_params n_exam n_keep by_hits cap.
Proof. intros H1 H2 H3. split_and!; try lia. apply by_hits_perm. Qed.

Ltac calls80 := repeat (apply Forall_cons_2; [first [exact Logic.I|unfold re_call, call_ok, req_ok; cbn; lia]|]); apply Forall_nil_2.
Definition view80 (x : res (frstate * list obs)) : res (list Z * mptr * list obs) :=
  let! (s, os) := x in Ok (fr_q s, fr_at s, os).

(** four objects, 2 has two hits; three are examined (1, 2, 3), one is kept: 1
    and 3 leave, 2 becomes the newest *)
Example C80_evict_ex :
  view80 (run (fr_ops 3 1 false by_hits) 10 (fr_init false 4 AdmNone 0)
    [CGet (rq1 1); CGet (rq1 2); CGet (rq1 3); CGet (rq1 4); CGet (rq1 2); CGet (rq1 2); CGet (rq1 5)]) =
  Ok ([5; 2; 4], MAt 4, [OBool false; OBool false; OBool false; OBool false; OBool true; OBool true; OBool false]).
Proof. vm_compute. reflexivity. Qed.
Example C80_completes_ex : exists s os, run (fr_ops 3 1 false by_hits) 10 (fr_init false 4 AdmNone 0)
    [CGet (rq1 1); CGet (rq1 2); CGet (rq1 3); CGet (rq1 4); CGet (rq1 2); CGet (rq1 2); CGet (rq1 5)] = Ok (s, os) /\ fr_at s <> MFreed.
Proof. apply C80_completes_partial; [apply by_hits_params; lia|lia|done|calls80|cbn; lia]. Qed.
Example C80_best_ex : forall sd now l, StronglySorted (fun x y => (fun _ => x_fr) now x <= (fun _ => x_fr) now y) (by_hits sd now l).1.
Proof. apply by_hits_sorted. Qed.

(** removing an object that is not the oldest does no harm *)
Example C80_refines_ex :
  view80 (run (fr_ops 3 1 false by_hits) 10 (fr_init false 4 AdmNone 0)
    [CGet (rq1 1); CGet (rq1 2); CGet (rq1 3); CEvict (rq1 0); CRemove 3; CGet (rq1 4); CEvict (rq1 0); CFind (rq1 4) false]) =
  Ok ([4], MAt 4, [OBool false; OBool false; OBool false; OUnit; OBool true; OBool false; OUnit; OBool true]).
Proof. vm_compute. reflexivity. Qed.

(** ** Where it fails *)
(** "Objects with hits are reinserted": not with at most n_exam objects (100 by
    default).  Object 1 has three hits, the others none; it is the one evicted. *)
Theorem C80_reinsert_refuted : exists n_exam n_keep rank cap cs, re_params n_exam n_keep rank cap /\ 0 < n_keep < n_exam /\ Forall (re_call 0) cs /\
  view80 (run (fr_ops n_exam n_keep false rank) 10 (fr_init false cap AdmNone 0) cs) =
  Ok ([4; 3; 2], MAt 2, [OBool false; OBool false; OBool false; OBool true; OBool true; OBool true; OBool false]).
Proof.
  exists 4, 2, by_hits, 3, [CGet (rq1 1); CGet (rq1 2); CGet (rq1 3); CGet (rq1 1); CGet (rq1 1); CGet (rq1 1); CGet (rq1 4)].
  split; [apply by_hits_params; lia|]. split; [lia|]. split; [calls80|]. vm_compute. reflexivity.
Qed.
(** get need not return: n_keep = n_exam *)
Theorem C80_spin_refuted : exists n_exam n_keep rank cap cs, re_params n_exam n_keep rank cap /\ Forall (re_call 0) cs /\
  forall fuel, run (fr_ops n_exam n_keep false rank) fuel (fr_init false cap AdmNone 0) cs = Err OutOfFuel.
Proof.
  exists 1, 1, by_hits, 2, [CGet (rq1 1); CGet (rq1 2); CGet (rq1 3)].
  assert (HP : re_params 1 1 by_hits 2) by (apply by_hits_params; lia). split; [done|]. split; [calls80|]. intros fuel.
  pose proof (C80_refines 1 1 false by_hits 2 false AdmNone 0 HP fuel [CGet (rq1 1); CGet (rq1 2); CGet (rq1 3)]) as H.
  assert (X : run (e_ops 2 0 1 1 false by_hits) fuel (e_init AdmNone 0) [CGet (rq1 1); CGet (rq1 2); CGet (rq1 3)] = Err OutOfFuel).
  { set (d1 := mkRei [mkRob 1 1 0 1 0] 1 Fresh 0 AdmNone). set (d2 := mkRei [mkRob 1 1 0 1 0; mkRob 2 1 0 2 0] 2 Fresh 0 AdmNone).
    assert (L1 : step (e_ops 2 0 1 1 false by_hits) fuel (e_init AdmNone 0) (CGet (rq1 1)) = Ok (d1, OBool false)) by (destruct fuel; vm_compute; reflexivity).
    assert (L2 : step (e_ops 2 0 1 1 false by_hits) fuel d1 (CGet (rq1 2)) = Ok (d2, OBool false)) by (destruct fuel; vm_compute; reflexivity).
    assert (L3 : step (e_ops 2 0 1 1 false by_hits) fuel d2 (CGet (rq1 3)) = Err OutOfFuel).
    { set (d3 := mkRei [mkRob 1 1 0 1 0; mkRob 2 1 0 2 0] 3 Fresh 0 AdmNone). unfold step, cache_get_base.
      assert (F1 : op_find (e_ops 2 0 1 1 false by_hits) (op_tick (e_ops 2 0 1 1 false by_hits) d2) (rq1 3) true = Ok (d3, false)) by (vm_compute; reflexivity).
      assert (F2 : op_can_insert (e_ops 2 0 1 1 false by_hits) d3 (rq1 3) = Ok (d3, true)) by (vm_compute; reflexivity).
      rewrite F1. cbn [rbind]. rewrite F2. cbn [rbind]. rewrite (e_spin 2 0 1 1 false by_hits); try done. apply by_hits_perm. }
    cbn [run]. rewrite L1. cbn [rbind]. rewrite L2. cbn [rbind]. rewrite L3. done. }
  change (if false then 4 else 0) with 0 in H. rewrite X in H. destruct (run (fr_ops 1 1 false by_hits) fuel _ _) as [[s os]|]; [destruct H; calls80|]. f_equal. apply H. calls80.
Qed.
(** remove leaves next_to_merge dangling *)
Theorem C80_remove_refuted : exists n_exam n_keep rank cap cs, re_params n_exam n_keep rank cap /\ n_keep < n_exam /\ Forall (call_ok (req_ok 0)) cs /\
  forall fuel, (length cs <= fuel)%nat -> run (fr_ops n_exam n_keep false rank) fuel (fr_init false cap AdmNone 0) cs = Err UseAfterFree.
Proof.
  exists 3, 1, by_hits, 5, [CGet (rq1 1); CGet (rq1 2); CGet (rq1 3); CEvict (rq1 0); CRemove 2; CEvict (rq1 0)].
  split; [apply by_hits_params; lia|]. split; [lia|]. split; [calls80|]. intros fuel Hf. destruct fuel; [cbn in Hf; lia|]. vm_compute. reflexivity.
Qed.
(** the retain policy "none" aborts *)
Theorem C80_policy_none_refuted : exists n_exam n_keep rank cap cs, re_params n_exam n_keep rank cap /\ n_keep < n_exam /\ Forall (re_call 0) cs /\
  run (fr_ops n_exam n_keep true rank) 10 (fr_init false cap AdmNone 0) cs = Err AssertFail.
Proof.
  exists 2, 0, by_hits, 3, [CGet (rq1 1); CGet (rq1 2); CGet (rq1 3); CGet (rq1 4)].
  split; [apply by_hits_params; lia|]. split; [lia|]. split; [calls80|]. vm_compute. reflexivity.
Qed.
Theorem C80_to_evict_refuted : forall n_exam n_keep p rank s r, op_to_evict (fr_ops n_exam n_keep p rank) s r = Err AssertFail.
Proof. done. Qed.
