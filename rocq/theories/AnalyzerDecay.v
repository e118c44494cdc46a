(** Popularity decay: what each line of the output counts. *)
From stdpp Require Import gmap list numbers fin_maps sorting.
From Verif Require Import Base ModelAnalyzer SpecAnalyzer AnalyzerFacts AnalyzerWin AnalyzerStats.
Open Scope Z_scope.

Lemma i32_add1 a : i32 (i32 a + 1) = i32 (a + 1).
Proof.
  unfold i32. f_equal.
  replace ((a + 2 ^ 31) mod 2 ^ 32 - 2 ^ 31 + 1 + 2 ^ 31) with ((a + 2 ^ 31) mod 2 ^ 32 + 1) by lia.
  rewrite Zplus_mod_idemp_l. f_equal. lia.
Qed.

Section decay.
  Context (tw warm : Z) (Htw : 0 < tw) (Hwarm : 0 <= warm) (Hmul : warm mod tw = 0).
  Notation K := (warm / tw).

  Lemma warm_eq : warm = K * tw.
  Proof using Htw Hmul. pose proof (Z.div_mod warm tw). lia. Qed.
  Lemma K_nonneg : 0 <= K.
  Proof using Htw Hwarm. apply Z.div_pos; lia. Qed.
  Lemma warm_win t : warm <= t <-> K <= t / tw.
  Proof using Htw Hmul.
    split; intros H.
    - by apply Z.div_le_mono.
    - pose proof (Z.mul_div_le t tw Htw). pose proof warm_eq. nia.
  Qed.

  (** 0 without warm-up: then the first line is that of window 0 *)
  Definition delta : Z := if decide (warm = 0) then 0 else 1.
  Lemma delta_range : 0 <= delta <= 1.
  Proof. unfold delta. destruct (decide (warm = 0)); lia. Qed.

  (** a first request, in window [w], for an object born in window [c] *)
  Definition cell (w c : Z) (e : ereq) : bool :=
    bool_decide (ewin tw e = w) && bool_decide (e_create e / tw = c) && e_first e.
  (** what the statistic considers *)
  Definition item (e : ereq) : Prop := warm <= e_time e /\ warm <= e_create e.

  Record pd_inv (n : Z) (A : list ereq) (s : pdecay) : Prop := {
    pi_n : - delta <= n;
    pi_le : Forall (fun e => ewin tw e <= K + n) A;
    pi_born : Forall (fun e => K <= ewin tw e) A;
    pi_l1 : Z.of_nat (length (pd_nreq s)) = n + 1 + delta;
    pi_l2 : Z.of_nat (length (pd_nobj s)) = n + 1 + delta;
    pi_rows : Z.of_nat (length (pd_rows s)) = n + delta;
    pi_row : forall r row, pd_rows s !! r = Some row ->
      length row = S r /\
      forall c x, row !! c = Some x ->
        x = i32 (cnt (cell (K + Z.of_nat r - delta) (K + Z.of_nat c)) A);
    pi_cur : forall c x, pd_nobj s !! c = Some x ->
        x = i32 (cnt (cell (K + n) (K + Z.of_nat c)) A)
  }.

  Definition next_ok (n next t : Z) : Prop :=
    (n = -1 /\ exists w, next = (w + 1) * tw /\ 0 <= w /\ w + 1 <= K /\ w <= t / tw) \/
    (0 <= n /\ next = (K + n + 1) * tw /\ K + n <= t / tw).

  Lemma cnt_cell_above w c A n :
    Forall (fun e => ewin tw e <= K + n) A -> K + n < w -> cnt (cell w c) A = 0.
  Proof.
    intros HA Hw. unfold cnt. rewrite filter_nil_iff; [done|].
    eapply Forall_impl; [exact HA|]. intros e He Hc. cbn in He. unfold cell in Hc.
    rewrite bool_decide_false in Hc by lia. done.
  Qed.

  Lemma pd_inv_row n A s :
    pd_inv n A s ->
    pd_inv (n + 1) A (mkPD (pd_next s + tw) (replicate (S (length (pd_nreq s))) 0)
                         (replicate (S (length (pd_nobj s))) 0) (pd_rows s ++ [pd_nobj s])).
  Proof.
    intros [Hn Hle Hb H1 H2 H3 H4 H5]. constructor; cbn [pd_nreq pd_nobj pd_rows].
    - lia.
    - eapply Forall_impl; [exact Hle|]. cbn. lia.
    - done.
    - rewrite replicate_length. lia.
    - rewrite replicate_length. lia.
    - rewrite app_length. cbn [length]. lia.
    - intros r row Hr. apply lookup_app_Some in Hr as [Hr|[Hl Hr]]; [by apply H4|].
      destruct (r - length (pd_rows s))%nat as [|d] eqn:E; [|done].
      cbn in Hr. apply Some_inj in Hr as <-. split; [lia|].
      intros c x Hx. replace (K + Z.of_nat r - delta) with (K + n) by lia. by apply H5.
    - intros c x Hx. apply lookup_replicate in Hx as [-> _].
      rewrite (cnt_cell_above _ _ A n) by (done || lia). done.
  Qed.

  Lemma pd_flush_ok clock m : forall fuel n A s,
    pd_inv n A s -> pd_next s = (K + n + 1) * tw -> -1 <= n ->
    clock / tw = K + n + Z.of_nat m -> (m <= fuel)%nat ->
    exists s', pd_flush fuel tw warm clock s = Ok s' /\
      pd_inv (clock / tw - K) A s' /\ pd_next s' = (clock / tw + 1) * tw.
  Proof using Htw Hmul.
    induction m as [|m IH]; intros fuel n A s Hinv Hnx Hn Hm Hf.
    - destruct fuel; cbn [pd_flush];
        (rewrite decide_True by (rewrite Hnx; apply div_window; lia);
         exists s; split; [done|]; split; [by replace (clock / tw - K) with n by lia|];
         rewrite Hnx; f_equal; lia).
    - destruct fuel as [|fuel]; [lia|]. cbn [pd_flush].
      rewrite decide_False by (rewrite Hnx, div_window by lia; lia).
      rewrite decide_False by (rewrite Hnx; pose proof warm_eq; nia).
      apply (IH fuel (n + 1)); [by apply pd_inv_row|cbn [pd_next]; lia|lia|lia|lia].
  Qed.

  Lemma pd_flush_start clock n A s :
    pd_inv n A s -> next_ok n (pd_next s) clock -> K <= clock / tw ->
    exists s', pd_flush (S (win_fuel tw clock (pd_next s))) tw warm clock s = Ok s' /\
      pd_inv (clock / tw - K) A s' /\ pd_next s' = (clock / tw + 1) * tw.
  Proof using Htw Hwarm Hmul.
    intros Hinv [[-> (w & Hnx & Hw0 & HwK & Hwt)]|(Hn & Hnx & Hc)] HK.
    - rewrite Hnx, win_fuel_eq by lia.
      pose proof warm_eq as HwE.
      destruct (decide (w + 1 = K)) as [E|E].
      + apply (pd_flush_ok clock (Z.to_nat (clock / tw - w)) _ (-1)); try done; try lia.
      + cbn [pd_flush].
        rewrite decide_False by (rewrite Hnx, div_window by lia; lia).
        rewrite decide_True by (rewrite Hnx; nia).
        apply (pd_flush_ok clock (Z.to_nat (clock / tw - K + 1)) _ (-1)); try lia.
        * by destruct Hinv; constructor.
        * cbn [pd_next]. lia.
    - rewrite Hnx, win_fuel_eq by lia.
      apply (pd_flush_ok clock (Z.to_nat (clock / tw - K - n)) _ n); try done; lia.
  Qed.

  Lemma pd_skip_ok clock m : forall w,
    clock / tw = w + Z.of_nat m -> pd_skip m tw clock ((w + 1) * tw) = Ok ((clock / tw + 1) * tw).
  Proof using Htw.
    induction m as [|m IH]; intros w Hm; cbn [pd_skip].
    - rewrite decide_True by (apply div_window; lia). repeat f_equal; lia.
    - rewrite decide_False by (rewrite div_window by lia; lia).
      replace ((w + 1) * tw + tw) with ((w + 1 + 1) * tw) by lia. apply IH. lia.
  Qed.

  Lemma pd_inv_incr A s e :
    pd_inv (ewin tw e - K) A s -> K <= ewin tw e -> K <= e_create e / tw <= ewin tw e ->
    let i := Z.to_nat (e_create e / tw - K) in
    exists x y, pd_nreq s !! i = Some x /\ pd_nobj s !! i = Some y /\
      forall next,
      pd_inv (ewin tw e - K) (A ++ [e])
        (mkPD next (<[i := i32 (x + 1)]> (pd_nreq s))
              (if e_first e then <[i := i32 (y + 1)]> (pd_nobj s) else pd_nobj s) (pd_rows s)).
  Proof.
    intros [Hn Hle Hb H1 H2 H3 H4 H5] HK Hcr i.
    pose proof delta_range.
    destruct (lookup_lt_is_Some_2 (pd_nreq s) i) as [x Hx]; [lia|].
    destruct (lookup_lt_is_Some_2 (pd_nobj s) i) as [y Hy]; [lia|].
    exists x, y. split; [done|]. split; [done|]. intros next.
    constructor; cbn [pd_nreq pd_nobj pd_rows]; try done.
    - apply Forall_app. split; [done|]. constructor; [lia|constructor].
    - apply Forall_app. split; [done|]. constructor; [lia|constructor].
    - by rewrite insert_length.
    - destruct (e_first e); [by rewrite insert_length|done].
    - intros r row Hr. destruct (H4 r row Hr) as [Hl Hc]. split; [done|].
      intros c z Hz. rewrite cnt_app, cnt_cons, cnt_nil. unfold cell at 2.
      assert (Hrl : (r < length (pd_rows s))%nat) by (by eapply lookup_lt_Some).
      rewrite bool_decide_false by lia. rewrite (Hc c z Hz). f_equal. cbn. lia.
    - intros c z Hz. rewrite cnt_app, cnt_cons, cnt_nil. unfold cell at 2.
      rewrite bool_decide_true by lia. cbn [andb].
      destruct (e_first e).
      + rewrite andb_true_r. destruct (decide (c = i)) as [->|E].
        * rewrite list_lookup_insert in Hz by lia. apply Some_inj in Hz as <-.
          rewrite (H5 i y Hy), i32_add1. rewrite bool_decide_true by lia. f_equal; lia.
        * rewrite list_lookup_insert_ne in Hz by done. rewrite (H5 c z Hz).
          rewrite bool_decide_false by lia. f_equal; lia.
      + rewrite andb_false_r. rewrite (H5 c z Hz). f_equal; lia.
  Qed.

  Lemma pd_run_ok es : forall t n A s,
    pd_inv n A s -> next_ok n (pd_next s) t ->
    rising (t / tw) (ewin tw <$> es) ->
    Forall (fun e => 0 <= e_create e <= e_time e /\ e_time e < 2 ^ 31) es ->
    exists s' n' t', pd_run tw warm s es = Ok s' /\
      pd_inv n' (A ++ filter item es) s' /\ next_ok n' (pd_next s') t' /\
      (filter item es = [] -> n' = n) /\
      (forall l e, filter item es = l ++ [e] -> n' = ewin tw e - K).
  Proof using Htw Hwarm Hmul.
    induction es as [|e es IH]; intros t n A s Hinv Hnx Hr Hf.
    { exists s, n, t. cbn. rewrite app_nil_r. split; [done|]. split; [done|].
      split; [done|]. split; [done|]. intros l e H. by destruct l. }
    cbn [fmap list_fmap rising] in Hr. destruct Hr as [Hw Hr].
    apply Forall_cons in Hf as [[Hcr Het] Hf].
    pose proof K_nonneg as HK0. pose proof warm_eq as HwE.
    assert (Hne : pd_next s <> -1).
    { destruct Hnx as [[_ (w & -> & ? & ? & ?)]|(? & -> & ?)]; nia. }
    cbn [pd_run]. unfold pd_add. rewrite (decide_False (P := pd_next s = -1)) by done.
    rewrite filter_cons.
    destruct (decide (e_time e < warm)) as [Hlt|Hge].
    - (* during the warm-up *)
      assert (Hwin : ewin tw e + 1 <= K).
      { assert (~ K <= ewin tw e); [|lia]. unfold ewin. rewrite <- warm_win. lia. }
      destruct Hnx as [[-> (w & Hn1 & Hw0 & HwK & Hwt)]|(Hn & Hn1 & Hc)]; [|unfold ewin in *; lia].
      rewrite Hn1. rewrite win_fuel_eq by (unfold ewin in *; lia).
      rewrite pd_skip_ok by (unfold ewin in *; lia). cbn [rbind].
      rewrite (decide_False (P := item e)) by (unfold item; lia).
      edestruct (IH (e_time e) (-1) A (mkPD ((e_time e / tw + 1) * tw) (pd_nreq s) (pd_nobj s) (pd_rows s)))
        as (s' & n' & t' & -> & Hi & Hn' & Hnil & Hlast).
      + by destruct Hinv; constructor.
      + left. split; [done|]. exists (e_time e / tw). cbn [pd_next]. unfold ewin in *.
        split; [done|]. split; [apply Z.div_pos; lia|]. lia.
      + done.
      + done.
      + exists s', n', t'. done.
    - rewrite win_idx_small by lia.
      assert (HKe : K <= ewin tw e) by (apply warm_win; lia).
      destruct (decide (e_create e / tw < K)) as [Hold|Hnew].
      + (* an object born during the warm-up *)
        assert (~ warm <= e_create e) by (rewrite warm_win; lia).
        rewrite (decide_False (P := item e)) by (unfold item; lia). cbn [rbind].
        edestruct (IH (e_time e) n A (mkPD (pd_next s) (pd_nreq s) (pd_nobj s) (pd_rows s)))
          as (s' & n' & t' & -> & Hi & Hn' & Hnil & Hlast).
        * by destruct Hinv; constructor.
        * destruct Hnx as [[-> (w & ? & ? & ? & ?)]|(? & ? & ?)]; cbn [pd_next].
          -- left. split; [done|]. exists w. unfold ewin in *. repeat split; try done; lia.
          -- right. unfold ewin in *. repeat split; try done; lia.
        * done.
        * done.
        * exists s', n', t'. done.
      + assert (warm <= e_create e) by (rewrite warm_win; lia).
        rewrite (decide_True (P := item e)) by (unfold item; lia).
        edestruct (pd_flush_start (e_time e) n A (mkPD (pd_next s) (pd_nreq s) (pd_nobj s) (pd_rows s)))
          as (s1 & Hs1 & Hi1 & Hx1).
        { by destruct Hinv; constructor. }
        { cbn [pd_next]. destruct Hnx as [[-> (w & ? & ? & ? & ?)]|(? & ? & ?)].
          -- left. split; [done|]. exists w. unfold ewin in *. repeat split; try done; lia.
          -- right. unfold ewin in *. repeat split; try done; lia. }
        { exact HKe. }
        cbn [pd_next] in Hs1. rewrite Hs1. cbn [rbind].
        assert (e_create e / tw <= e_time e / tw) by (apply Z.div_le_mono; lia).
        destruct (pd_inv_incr A s1 e) as (x & y & -> & -> & Hinc); [exact Hi1|done|unfold ewin; lia|].
        cbn [rbind].
        specialize (Hinc (pd_next s1)).
        edestruct (IH (e_time e) (ewin tw e - K) (A ++ [e]) _ Hinc)
          as (s' & n' & t' & -> & Hi & Hn' & Hnil & Hlast).
        * right. cbn [pd_next]. rewrite Hx1. unfold ewin in *.
          split; [lia|]. split; [f_equal; lia|lia].
        * done.
        * done.
        * exists s', n', t'. split; [done|]. rewrite <- app_assoc in Hi. split; [done|].
          split; [done|]. split; [done|].
          intros l e' Hle. destruct (filter item es) as [|f fs] eqn:Ef.
          -- rewrite (Hnil eq_refl). destruct l as [|? l]; [by injection Hle as ->|].
             cbn in Hle. injection Hle as _ Hl. by destruct l.
          -- destruct l as [|e1 l]; [by cbn in Hle|]. cbn in Hle. injection Hle as _ Hl.
             by apply (Hlast l).
  Qed.

  Lemma pop_decay_ok es :
    rising 0 (ewin tw <$> es) -> (e_time <$> head es) = Some 0 ->
    Forall (fun e => 0 <= e_create e <= e_time e /\ e_time e < 2 ^ 31) es ->
    exists s n, pop_decay tw warm es = Ok s /\
      pd_inv n (filter item es) s /\
      (filter item es = [] -> n = - delta) /\
      (forall l e, filter item es = l ++ [e] -> n = ewin tw e - K).
  Proof using Htw Hwarm Hmul.
    intros Hr Hh Hf. destruct es as [|e es]; [done|]. cbn in Hh. apply Some_inj in Hh.
    assert (pop_decay tw warm (e :: es)
            = pd_run tw warm (mkPD ((0 + 1) * tw) [0] [0] []) (e :: es)) as ->.
    { unfold pop_decay. cbn [pd_run]. f_equal. unfold pd_add. cbn [pd_next].
      rewrite (decide_True (P := -1 = -1)) by done.
      rewrite (decide_False (P := (0 + 1) * tw = -1)) by lia. rewrite Hh.
      replace ((0 + 1) * tw) with (0 + tw) by lia. done. }
    pose proof K_nonneg as HK0. pose proof warm_eq as HwE.
    assert (H0 : 0 / tw = 0) by (by apply Z.div_0_l; lia).
    edestruct (pd_run_ok (e :: es) 0 (- delta) [] (mkPD ((0 + 1) * tw) [0] [0] []))
      as (s & n & t & -> & Hi & Hn & Hnil & Hl).
    - constructor; cbn [pd_nreq pd_nobj pd_rows length]; try done; try lia.
      intros c x Hx. destruct c as [|c]; [|done]. cbn in Hx. apply Some_inj in Hx as <-.
      done.
    - unfold next_ok, delta. cbn [pd_next]. rewrite H0.
      destruct (decide (warm = 0)) as [E|E].
      + right. rewrite E, H0. lia.
      + left. split; [done|]. exists 0. assert (K <> 0) by nia. lia.
    - by rewrite H0.
    - done.
    - exists s, n. done.
  Qed.
End decay.
