(** Evicting the object with the farthest next use minimises the misses. *)
From stdpp Require Import gmap list numbers sets fin_sets fin_maps.
From Verif Require Import Base Driver Abs AbsFacts Sim SpecOpt LRUStack.
Open Scope Z_scope.

(** position of the next request for [y]; the length when there is none *)
Fixpoint nu (xs : list Z) (y : Z) : nat :=
  match xs with [] => 0%nat | x :: xs => if decide (y = x) then 0%nat else S (nu xs y) end.

(** number of objects of [X] requested within the next [u] requests *)
Definition cnt (X : gset Z) (xs : list Z) (u : nat) : nat :=
  size (filter (fun y => (nu xs y < u)%nat) X).

Inductive farthest (k : nat) : gset Z -> list Z -> nat -> Prop :=
| fa_end B : farthest k B [] 0
| fa_hit B x xs n : x ∈ B -> farthest k B xs n -> farthest k B (x :: xs) n
| fa_room B x xs n : x ∉ B -> (size B < k)%nat -> farthest k ({[x]} ∪ B) xs n -> farthest k B (x :: xs) (S n)
| fa_evict B x xs v n : x ∉ B -> size B = k -> v ∈ B -> (forall y, y ∈ B -> (nu xs y <= nu xs v)%nat) ->
    farthest k ({[x]} ∪ B ∖ {[v]}) xs n -> farthest k B (x :: xs) (S n).

Lemma cnt_sub X Y xs u : X ⊆ Y -> (cnt X xs u <= cnt Y xs u)%nat.
Proof. intros H. apply subseteq_size. set_solver. Qed.
Lemma cnt_size X xs u : (cnt X xs u <= size X)%nat.
Proof. apply subseteq_size. set_solver. Qed.
Lemma cnt_all X xs u : (forall y, y ∈ X -> (nu xs y < u)%nat) -> cnt X xs u = size X.
Proof. intros H. unfold cnt. f_equal. apply set_eq. intros y. rewrite elem_of_filter. naive_solver. Qed.

Lemma cnt_add X xs u x : x ∉ X ->
  cnt ({[x]} ∪ X) xs u = ((if decide (nu xs x < u)%nat then 1 else 0) + cnt X xs u)%nat.
Proof.
  intros Hx. unfold cnt. destruct (decide _) as [Hd|Hd].
  - replace (filter _ ({[x]} ∪ X)) with ({[x]} ∪ filter (fun y => (nu xs y < u)%nat) X).
    + rewrite size_union by set_solver. by rewrite size_singleton.
    + apply set_eq. intros y. rewrite elem_of_union, !elem_of_filter, elem_of_union, !elem_of_singleton.
      naive_solver.
  - cbn. f_equal. apply set_eq. intros y. rewrite !elem_of_filter, elem_of_union, !elem_of_singleton. naive_solver.
Qed.

Lemma cnt_remove X xs u v : v ∈ X -> (u <= nu xs v)%nat -> cnt (X ∖ {[v]}) xs u = cnt X xs u.
Proof.
  intros Hv Hu. unfold cnt. f_equal. apply set_eq. intros y.
  rewrite !elem_of_filter, elem_of_difference, elem_of_singleton. split; [tauto|].
  intros [H1 H2]. split_and!; auto. intros ->. lia.
Qed.

(** objects other than the requested one come one request closer *)
Lemma cnt_tail X x xs u : x ∉ X -> cnt X (x :: xs) (S u) = cnt X xs u.
Proof.
  intros Hx. unfold cnt. f_equal. apply set_eq. intros y. rewrite !elem_of_filter. cbn.
  split; intros [H1 H2]; (split; [|done]); destruct (decide (y = x)); subst; try done; lia.
Qed.
Lemma cnt_tail_in X x xs u : x ∈ X -> cnt X (x :: xs) (S u) = S (cnt (X ∖ {[x]}) xs u).
Proof.
  intros Hx. replace X with ({[x]} ∪ X ∖ {[x]}) at 1.
  - rewrite cnt_add by set_solver.
    assert (Hn : nu (x :: xs) x = 0%nat) by (cbn; by rewrite decide_True).
    rewrite Hn, decide_True by lia. rewrite cnt_tail by set_solver. done.
  - apply set_eq. intros y. rewrite elem_of_union, elem_of_difference, elem_of_singleton.
    destruct (decide (y = x)); naive_solver.
Qed.

Lemma split_in (X : gset Z) (x : Z) : x ∈ X -> X = {[x]} ∪ X ∖ {[x]}.
Proof.
  intros H. apply set_eq. intros y. rewrite elem_of_union, elem_of_difference, elem_of_singleton.
  destruct (decide (y = x)); naive_solver.
Qed.

Lemma size_rm (X : gset Z) (x : Z) : x ∈ X -> size X = S (size (X ∖ {[x]})).
Proof. intros H. rewrite (split_in X x H) at 1. rewrite size_union by set_solver. by rewrite size_singleton. Qed.

(** The whole argument: [p] bounds by how many objects the strategy can be
    ahead of Belady within any horizon. *)
Lemma farthest_optimal k xs : forall A B p mb ma,
  farthest k B xs mb -> strategy k A xs ma ->
  (size A <= k)%nat -> (size B <= k)%nat ->
  (forall u, (cnt A xs u <= cnt B xs u + p)%nat) ->
  (mb <= ma + p)%nat.
Proof.
  induction xs as [|x xs IH]; intros A B p mb ma HB HA Hka Hkb Hp.
  { inversion HB; lia. }
  set (i := fun u => if decide (nu xs x < u)%nat then 1%nat else 0%nat).
  (* Belady's side after the request, and what it can have lost *)
  assert (HA' : exists C', (size C' <= k)%nat /\ C' ⊆ {[x]} ∪ A ∖ {[x]} /\
            (x ∈ A \/ x ∈ C') /\ exists n, strategy k C' xs n /\ ma = (n + if decide (x ∈ A) then 0 else 1)%nat).
  { inversion HA; subst.
    - exists C'. split_and!.
      + etrans; [|exact Hka]. by apply subseteq_size.
      + rewrite <- split_in by done. done.
      + by left.
      + exists ma. split; [done|]. rewrite decide_True by done. lia.
    - exists C'. split_and!; [done| |by right|].
      + intros y Hy. apply H3 in Hy. rewrite elem_of_union in Hy |- *. rewrite elem_of_difference, elem_of_singleton.
        rewrite elem_of_singleton in Hy. destruct (decide (y = x)); naive_solver.
      + exists n. split; [done|]. rewrite decide_False by done. lia. }
  destruct HA' as (C' & HkC & HsubC & HxC & n & HAr & ->).
  assert (HcC : forall u, (cnt C' xs u <= i u + cnt (A ∖ {[x]}) xs u)%nat).
  { intros u. etrans; [apply cnt_sub, HsubC|]. rewrite cnt_add by set_solver. done. }
  (* within a horizon that misses [x], the strategy's contents leave a slot unused *)
  assert (HcC1 : forall u, i u = 0%nat -> (cnt C' xs u <= k - 1)%nat).
  { intros u Hi. destruct HxC as [HxA|HxC'].
    - specialize (HcC u). rewrite Hi in HcC. pose proof (cnt_size (A ∖ {[x]}) xs u).
      pose proof (size_rm A x HxA). lia.
    - assert (cnt C' xs u <= cnt (C' ∖ {[x]}) xs u)%nat.
      { assert (u <= nu xs x)%nat.
        { unfold i in Hi. destruct (decide (nu xs x < u)%nat); [discriminate|lia]. }
        rewrite cnt_remove by done. done. }
      pose proof (cnt_size (C' ∖ {[x]}) xs u). pose proof (size_rm C' x HxC'). lia. }
  assert (HpA : forall u, ((if decide (x ∈ A) then 1 else 0) + cnt (A ∖ {[x]}) xs u <=
                  (if decide (x ∈ B) then 1 else 0) + cnt (B ∖ {[x]}) xs u + p)%nat).
  { intros u. specialize (Hp (S u)). 
    assert (Heq : forall X, cnt X (x :: xs) (S u) = ((if decide (x ∈ X) then 1 else 0) + cnt (X ∖ {[x]}) xs u)%nat).
    { intros X. destruct (decide (x ∈ X)); [by apply cnt_tail_in|]. rewrite cnt_tail by done. cbn.
      f_equal. set_solver. }
    rewrite !Heq in Hp. lia. }
  inversion HB as [|? ? ? ? HxB HBr|? ? ? nb HxB Hroom HBr|? ? ? v nb HxB Hfull Hv Hfar HBr]; subst.
  - (* Belady hits *)
    destruct (decide (x ∈ B)) as [_|Hc] in HpA; [|done].
    destruct (decide (x ∈ A)) as [HxA|HxA].
    + assert (mb <= n + p)%nat; [|lia]. apply (IH C' B); auto. intros u.
      rewrite (split_in B x HxB) at 1. rewrite cnt_add by set_solver.
      specialize (HcC u). specialize (HpA u). unfold i in HcC. lia.
    + assert (mb <= n + (p + 1))%nat; [|lia]. apply (IH C' B); auto. intros u.
      rewrite (split_in B x HxB) at 1. rewrite cnt_add by set_solver.
      specialize (HcC u). specialize (HpA u). unfold i in HcC. lia.
  - (* Belady misses, with room *)
    destruct (decide (x ∈ B)) as [Hc|_] in HpA; [done|]. assert (HBx : B ∖ {[x]} = B) by set_solver. rewrite HBx in HpA.
    assert (HkB : (size ({[x]} ∪ B) <= k)%nat).
    { rewrite size_union by set_solver. rewrite size_singleton. lia. }
    destruct (decide (x ∈ A)) as [HxA|HxA].
    + assert (1 <= p)%nat.
      { specialize (HpA 0%nat). unfold cnt in HpA.
        assert (Hz : forall X : gset Z, filter (fun y => (nu xs y < 0)%nat) X = ∅).
        { intros X. apply set_eq. intros y. rewrite elem_of_filter. split; [lia|set_solver]. }
        rewrite !Hz in HpA. rewrite size_empty in HpA. lia. }
      assert (nb <= n + (p - 1))%nat; [|lia]. apply (IH C' ({[x]} ∪ B)); auto. intros u.
      rewrite cnt_add by done. specialize (HcC u). specialize (HpA u). unfold i in HcC. lia.
    + assert (nb <= n + p)%nat; [|lia]. apply (IH C' ({[x]} ∪ B)); auto. intros u.
      rewrite cnt_add by done. specialize (HcC u). specialize (HpA u). unfold i in HcC. lia.
  - (* Belady misses and evicts *)
    destruct (decide (x ∈ B)) as [Hc|_] in HpA; [done|]. assert (HBx : B ∖ {[x]} = B) by set_solver. rewrite HBx in HpA.
    pose proof (size_rm B v Hv) as HsB.
    assert (HkB : (size ({[x]} ∪ B ∖ {[v]}) <= size B)%nat).
    { rewrite size_union by set_solver. rewrite size_singleton. lia. }
    assert (Hbeyond : forall u, (nu xs v < u)%nat -> (cnt C' xs u <= cnt ({[x]} ∪ B ∖ {[v]}) xs u)%nat).
    { intros u Hu. rewrite cnt_add by set_solver. rewrite (cnt_all (B ∖ {[v]})).
      - fold (i u). destruct (decide (i u = 0%nat)) as [Hi|Hi].
        + specialize (HcC1 u Hi). lia.
        + pose proof (cnt_size C' xs u). unfold i in Hi |- *. destruct (decide (nu xs x < u)%nat); [lia|done].
      - intros y Hy. specialize (Hfar y). set_unfold. destruct Hy as [Hy _]. specialize (Hfar Hy). lia. }
    destruct (decide (x ∈ A)) as [HxA|HxA].
    + assert (1 <= p)%nat.
      { specialize (HpA 0%nat). unfold cnt in HpA.
        assert (Hz : forall X : gset Z, filter (fun y => (nu xs y < 0)%nat) X = ∅).
        { intros X. apply set_eq. intros y. rewrite elem_of_filter. split; [lia|set_solver]. }
        rewrite !Hz in HpA. rewrite size_empty in HpA. lia. }
      assert (nb <= n + (p - 1))%nat; [|lia]. apply (IH C' ({[x]} ∪ B ∖ {[v]})); auto. intros u.
      destruct (decide (nu xs v < u)%nat) as [Hu|Hu]; [specialize (Hbeyond u Hu); lia|].
      rewrite cnt_add by set_solver. rewrite cnt_remove by (done || lia).
      specialize (HcC u). specialize (HpA u). unfold i in HcC. lia.
    + assert (nb <= n + p)%nat; [|lia]. apply (IH C' ({[x]} ∪ B ∖ {[v]})); auto. intros u.
      destruct (decide (nu xs v < u)%nat) as [Hu|Hu]; [specialize (Hbeyond u Hu); lia|].
      rewrite cnt_add by set_solver. rewrite cnt_remove by (done || lia).
      specialize (HcC u). specialize (HpA u). unfold i in HcC. lia.
Qed.

(** ** From cache runs to strategies *)
Section Runs.
  Context (cap sz : Z) (Hsz : 0 < sz) (Hfit : sz <= cap).
  Let k := Z.to_nat (cap / sz).
  Let unif (m : gmap Z entry) := forall id e, m !! id = Some e -> e_size e = sz.

  Lemma k_iff n : sz * Z.of_nat n <= cap <-> (n <= k)%nat.
  Proof.
    unfold k. assert (Hc : Z.of_nat (Z.to_nat (cap / sz)) = cap / sz).
    { apply Z2Nat.id. apply Z.div_pos; lia. }
    split; intros H.
    - assert (Z.of_nat n <= cap / sz); [|lia]. apply Z.div_le_lower_bound; lia.
    - pose proof (Z.mul_div_le cap sz Hsz). nia.
  Qed.

  Lemma unif_size m : unif m -> msum 0 m = sz * Z.of_nat (size m).
  Proof. intros H. rewrite (msum_unif sz 0 m H). lia. Qed.

  Lemma unif_sub m m' : unif m -> m' ⊆ m -> unif m'.
  Proof. intros H Hs id e He. apply (H id). by eapply lookup_weaken. Qed.

  Lemma size_dom_le a : abs_ok cap 0 a -> unif (a_m a) -> (size (dom (a_m a)) <= k)%nat.
  Proof.
    intros Hok Hun. rewrite size_dom. apply k_iff. rewrite <- unif_size by done. apply Hok.
  Qed.

  (** With equal sizes at most one object is evicted. *)
  Lemma evict_to_unif pol m m' : unif m -> (size m <= k)%nat -> evict_to pol cap 0 (sz + 0) m m' ->
    ((size m < k)%nat /\ m' = m) \/
    (size m = k /\ exists v, is_Some (m !! v) /\ pol m v /\ m' = delete v m).
  Proof.
    intros Hun Hk He. assert (Hst : forall m0, unif m0 -> msum 0 m0 + (sz + 0) <= cap <-> (size m0 < k)%nat).
    { intros m0 H0. rewrite unif_size by done. pose proof (k_iff (S (size m0))). nia. }
    inversion He; subst.
    - left. split; [by apply Hst|done].
    - right. assert (Hu' : unif (delete v m)) by (eapply unif_sub; [done|apply delete_subseteq]).
      assert (Hsd : size (delete v m) = (size m - 1)%nat) by (rewrite map_size_delete_Some by done; lia).
      assert (Hm : size m <> 0%nat).
      { intros Hz%map_size_empty_inv. subst m. destruct H0. by rewrite lookup_empty in *. }
      assert (Hfull : size m = k). { pose proof (Hst m Hun). lia. }
      split; [done|]. exists v. split_and!; auto. pose proof (Hst _ Hu') as Hroom.
      inversion H2; subst; [done|]. lia.
  Qed.

  Definition ureq (r : req) : Prop := r_size r = sz /\ req_ok 0 r.

  (** Any cache without admission policy is a strategy. *)
  Lemma abs_run_strategy pol rs : forall a os a', abs_ok cap 0 a -> unif (a_m a) -> a_adm a = AdmNone ->
    Forall ureq rs -> abs_run pol cap 0 a (map CGet rs) os a' ->
    strategy k (dom (a_m a)) (map r_id rs) (misses os).
  Proof.
    induction rs as [|r rs IH]; intros a os a' Hok Hun Hadm Hrs Hr; cbn in Hr.
    - inversion Hr; subst. constructor.
    - apply Forall_cons in Hrs as [[Hr1 Hr2] Hrs].
      inversion Hr as [|? ? o a1 ? os1 ? Hs Hr']; subst. clear Hr.
      pose proof (abs_step_ok _ _ _ _ _ _ _ Hs ltac:(done) Hok) as Hok1.
      inversion Hs; subst; cbn in *; try subst.
      + apply (st_hit _ _ _ _ (dom m)).
        * apply elem_of_dom. eauto.
        * done.
        * assert (Hd : dom m = dom (<[r_id r:=touch t r e]> m)) by (rewrite dom_insert_lookup_L; eauto).
          rewrite Hd. pose proof (IH _ os1 a' Hok1) as Hq. cbn [a_m a_adm] in Hq. apply Hq; [|done|done|exact Hr'].
          intros id e' He'. apply lookup_insert_Some in He' as [[<- <-]|[_ He']]; cbn; [|by apply (Hun id)].
          by apply (Hun (r_id r)).
      + done.
      + lia.
      + match goal with H : admit AdmNone r = _ |- _ => injection H as <- end.
        match goal with H : m !! r_id r = None |- _ => rename H into Hnone end.
        match goal with H : evict_to _ _ _ _ _ _ |- _ => rename H into Hevt end.
        destruct (evict_to_ok _ _ _ _ t _ _ AdmNone Hevt Hok) as (_ & _ & Hsub & _).
        assert (Hun' : unif (<[r_id r:=fresh t r]> m')).
        { intros id e' He'. apply lookup_insert_Some in He' as [[<- <-]|[_ He']]; cbn; [done|].
          apply (Hun id). by eapply lookup_weaken. }
        apply (st_miss _ _ _ _ (dom (<[r_id r:=fresh t r]> m'))).
        * rewrite elem_of_dom, Hnone. by intros [].
        * rewrite dom_insert. set_solver.
        * rewrite dom_insert. apply subseteq_dom in Hsub. set_solver.
        * exact (size_dom_le _ Hok1 Hun').
        * pose proof (IH _ os1 a' Hok1) as Hq. cbn [a_m a_adm] in Hq. apply Hq; [exact Hun'|done|done|exact Hr'].
  Qed.

  (** ** Annotations *)
  Definition ann_dist (off : Z) (rs : list req) (id nx : Z) : Prop :=
    let d := nu (map r_id rs) id in
    (d < length rs)%nat /\ nx = off + Z.of_nat d \/
    d = length rs /\ off + Z.of_nat (length rs) <= nx.

  Lemma nu_le xs y : (nu xs y <= length xs)%nat.
  Proof. induction xs as [|x xs IH]; cbn; [lia|]. destruct (decide _); lia. Qed.

  Lemma nu_first rs id j r' : rs !! j = Some r' -> r_id r' = id ->
    (forall l r'', (l < j)%nat -> rs !! l = Some r'' -> r_id r'' <> id) -> nu (map r_id rs) id = j.
  Proof.
    revert j. induction rs as [|r rs IH]; intros j Hj Hid Hlt; [done|]. cbn.
    destruct j as [|j]; cbn in Hj.
    - injection Hj as <-. by rewrite decide_True.
    - rewrite decide_False.
      + f_equal. apply IH; auto. intros l r'' Hl. apply (Hlt (S l)). lia.
      + intros ->. by apply (Hlt 0%nat r); [lia|done|].
  Qed.

  Lemma nu_none rs id : (forall l r'', rs !! l = Some r'' -> r_id r'' <> id) ->
    nu (map r_id rs) id = length rs.
  Proof.
    induction rs as [|r rs IH]; intros H; [done|]. cbn. rewrite decide_False.
    - f_equal. apply IH. intros l r'' Hl. apply (H (S l) r''). done.
    - intros ->. by apply (H 0%nat r).
  Qed.

  Lemma annotated_head off r rs : annotated off (r :: rs) -> ann_dist (off + 1) rs (r_id r) (r_next r).
  Proof.
    intros H. unfold ann_dist. destruct (H 0%nat r eq_refl) as [(j & r' & Hj & Hr' & Hid & Hn & Hb)|[Hno Hn]].
    - destruct j as [|j]; [lia|]. cbn in Hr'. left.
      rewrite (nu_first rs (r_id r) j r'); auto.
      + split; [by eapply lookup_lt_Some|lia].
      + intros l r'' Hl Hlr. apply (Hb (S l)); [lia|done].
    - right. rewrite nu_none.
      + cbn in Hn. split; [done|lia].
      + intros l r'' Hl. apply (Hno (S l)); [lia|done].
  Qed.

  Lemma annotated_tail off r rs : annotated off (r :: rs) -> annotated (off + 1) rs.
  Proof.
    intros H i r1 Hi. destruct (H (S i) r1 Hi) as [(j & r' & Hj & Hr' & Hid & Hn & Hb)|[Hno Hn]].
    - destruct j as [|j]; [lia|]. left. exists j, r'. split_and!; auto; [lia|lia|].
      intros l r'' Hl Hlr. apply (Hb (S l)); [lia|done].
    - right. cbn in Hn. split; [|lia]. intros l r'' Hl Hlr. apply (Hno (S l)); [lia|done].
  Qed.

  Lemma ann_dist_tail off r rs id nx : id <> r_id r -> ann_dist off (r :: rs) id nx -> ann_dist (off + 1) rs id nx.
  Proof.
    intros Hne. unfold ann_dist. cbn. rewrite decide_False by done. intros [[? ?]|[? ?]]; [left|right]; lia.
  Qed.

  Lemma ann_dist_le off rs i j ni nj : ann_dist off rs i ni -> ann_dist off rs j nj -> ni <= nj ->
    (nu (map r_id rs) i <= nu (map r_id rs) j)%nat.
  Proof. unfold ann_dist. intros [[? ?]|[? ?]] [[? ?]|[? ?]] Hle; lia. Qed.

  Lemma abs_run_farthest rs : forall off a os a', abs_ok cap 0 a -> unif (a_m a) -> a_adm a = AdmNone ->
    Forall ureq rs -> annotated off rs ->
    (forall id e, a_m a !! id = Some e -> ann_dist off rs id (e_next e)) ->
    abs_run pol_belady cap 0 a (map CGet rs) os a' ->
    farthest k (dom (a_m a)) (map r_id rs) (misses os).
  Proof.
    induction rs as [|r rs IH]; intros off a os a' Hok Hun Hadm Hrs Han Hm Hr; cbn in Hr.
    - inversion Hr; subst. constructor.
    - apply Forall_cons in Hrs as [[Hr1 Hr2] Hrs].
      inversion Hr as [|? ? o a1 ? os1 ? Hs Hr']; subst. clear Hr.
      pose proof (abs_step_ok _ _ _ _ _ _ _ Hs ltac:(done) Hok) as Hok1.
      pose proof (annotated_head _ _ _ Han) as Hhead. pose proof (annotated_tail _ _ _ Han) as Htail.
      inversion Hs; subst; cbn in *; try subst.
      + assert (Hd : dom m = dom (<[r_id r:=touch t r e]> m)) by (rewrite dom_insert_lookup_L; eauto).
        apply fa_hit; [apply elem_of_dom; eauto|]. rewrite Hd.
        pose proof (IH (off + 1) _ os1 a' Hok1) as Hq. cbn [a_m a_adm] in Hq. apply Hq; [|done|done|done| |exact Hr'].
        * intros id e' He'. apply lookup_insert_Some in He' as [[<- <-]|[_ He']]; cbn; [|by apply (Hun id)].
          by apply (Hun (r_id r)).
        * intros id e' He'. apply lookup_insert_Some in He' as [[<- <-]|[Hne He']]; cbn; [done|].
          apply (ann_dist_tail off r rs); [congruence|]. by apply Hm.
      + done.
      + lia.
      + match goal with H : admit AdmNone r = _ |- _ => injection H as <- end.
        match goal with H : m !! r_id r = None |- _ => rename H into Hnone end.
        match goal with H : evict_to _ _ _ _ _ _ |- _ => rename H into Hevt end.
        assert (Hnin : r_id r ∉ dom m) by (rewrite elem_of_dom, Hnone; by intros []).
        assert (Hxs : forall m', m' ⊆ m -> abs_ok cap 0 (mkAbs (t + 1) (<[r_id r:=fresh t r]> m') AdmNone) ->
                  abs_run pol_belady cap 0 (mkAbs (t + 1) (<[r_id r:=fresh t r]> m') AdmNone) (map CGet rs) os1 a' ->
                  farthest k ({[r_id r]} ∪ dom m') (map r_id rs) (misses os1)).
        { intros m0 Hsub Hok0 Hr0. rewrite <- (dom_insert_L m0 (r_id r) (fresh t r)).
          pose proof (IH (off + 1) _ os1 a' Hok0) as Hq. cbn [a_m a_adm] in Hq. apply Hq; [|done|done|done| |exact Hr0].
          - intros id e' He'. apply lookup_insert_Some in He' as [[<- <-]|[_ He']]; cbn; [done|].
            apply (Hun id). by eapply lookup_weaken.
          - intros id e' He'. apply lookup_insert_Some in He' as [[<- <-]|[Hne He']]; cbn; [done|].
            apply (ann_dist_tail off r rs); [congruence|]. apply Hm. by eapply lookup_weaken. }
        assert (Hmk : (size m <= k)%nat) by (rewrite <- size_dom; exact (size_dom_le _ Hok Hun)).
        rewrite Hr1 in Hevt.
        destruct (evict_to_unif _ _ _ Hun Hmk Hevt) as [[Hroom ->]|(Hfull & v & Hv & Hpol & ->)].
        * apply fa_room; [done|by rewrite size_dom|]. by apply Hxs.
        * apply (fa_evict _ _ _ _ v); [done|by rewrite size_dom|by apply elem_of_dom| |].
          -- intros y Hy. apply elem_of_dom in Hy as [ey Hy]. destruct Hv as [ev Hv].
             specialize (Hpol ev y ey Hv Hy).
             assert (r_id r <> y /\ r_id r <> v) as [Hy' Hv'] by (split; intros Heq; rewrite Heq in Hnone; congruence).
             pose proof (ann_dist_tail _ _ _ _ _ (not_eq_sym Hy') (Hm _ _ Hy)) as H3.
             pose proof (ann_dist_tail _ _ _ _ _ (not_eq_sym Hv') (Hm _ _ Hv)) as H5.
             by eapply ann_dist_le.
          -- rewrite <- dom_delete_L. apply Hxs; [apply delete_subseteq|done|done].
  Qed.
End Runs.
