(** FIFO_Reinsertion: the code against the machine of SpecReinsert.v. *)
From stdpp Require Import gmap list numbers fin_maps.
From Verif Require Import Base Driver ModelQueue SpecReinsert ModelReinsert.
Open Scope Z_scope.

(** * Two machines in step, errors included *)
Definition rrel {A B} (R : A -> B -> Prop) (x : res A) (y : res B) : Prop :=
  match x, y with Ok a, Ok b => R a b | Err e, Err f => e = f | _, _ => False end.
Lemma rrel_bind {A B C D} (R : A -> B -> Prop) (Q : C -> D -> Prop) x y f g :
  rrel R x y -> (forall a b, R a b -> rrel Q (f a) (g b)) -> rrel Q (rbind x f) (rbind y g).
Proof. intros H K. destruct x, y; cbn in *; try done. by apply K. Qed.

Section Steps.
  Context {S T : Type} (O : ops S) (P : ops T) (ok : req -> Prop) (R : S -> T -> Prop).
  Definition pr {X} (a : S * X) (b : T * X) : Prop := R a.1 b.1 /\ a.2 = b.2.
  Record in_step : Prop := {
    is_find : forall s t r u, R s t -> rrel pr (op_find O s r u) (op_find P t r u);
    is_can : forall s t r, R s t -> rrel pr (op_can_insert O s r) (op_can_insert P t r);
    is_insert : forall s t r, ok r -> R s t -> rrel R (op_insert O s r) (op_insert P t r);
    is_evict : forall s t r, R s t -> rrel R (op_evict O s r) (op_evict P t r);
    is_toev : forall s t r, R s t -> rrel pr (op_to_evict O s r) (op_to_evict P t r);
    is_remove : forall s t id, R s t -> rrel pr (op_remove O s id) (op_remove P t id);
    is_occ : forall s t, R s t -> op_occupied O s = op_occupied P t;
    is_nobj : forall s t, R s t -> op_nobj O s = op_nobj P t;
    is_size : forall s t, R s t -> op_size O s = op_size P t;
    is_md : forall s t, R s t -> op_md O s = op_md P t;
    is_tick : forall s t, R s t -> R (op_tick O s) (op_tick P t)
  }.
  Context (H : in_step).

  Lemma in_step_loop fuel : forall s t r, R s t -> rrel R (evict_loop O fuel s r) (evict_loop P fuel t r).
  Proof using H.
    induction fuel as [|n IH]; intros s t r HR; cbn [evict_loop];
      rewrite (is_occ H _ _ HR), (is_size H _ _ HR), (is_md H _ _ HR); destruct (decide _); try done.
    eapply rrel_bind; [by apply (is_evict H)|]. intros a b Hab. by apply IH.
  Qed.
  Lemma in_step_get fuel s t r : ok r -> R s t -> rrel pr (cache_get_base O fuel s r) (cache_get_base P fuel t r).
  Proof using H.
    intros Hr HR. unfold cache_get_base. eapply rrel_bind; [apply (is_find H), (is_tick H), HR|].
    intros [s1 b1] [t1 b2] [H1 H2]. cbn in H1, H2. subst b2. destruct b1; [done|].
    eapply rrel_bind; [by apply (is_can H)|]. intros [s2 b1] [t2 b2] [H3 H4]. cbn in H3, H4. subst b2. destruct b1; [|done].
    eapply rrel_bind; [by apply in_step_loop|]. intros s3 t3 H5. eapply rrel_bind; [by apply (is_insert H)|]. intros s4 t4 H6. done.
  Qed.
  Lemma in_step_step fuel s t c : call_ok ok c -> R s t -> rrel pr (step O fuel s c) (step P fuel t c).
  Proof using H.
    intros Hc HR. destruct c as [r|r u|r|id|r|r]; cbn in *.
    - eapply rrel_bind; [by apply in_step_get|]. intros [s1 b1] [t1 b2] [H1 H2]. cbn in H1, H2. by subst b2.
    - eapply rrel_bind; [by apply (is_find H)|]. intros [s1 b1] [t1 b2] [H1 H2]. cbn in H1, H2. by subst b2.
    - eapply rrel_bind; [by apply (is_find H)|]. intros [s1 b1] [t1 b2] [H1 H2]. cbn in H1, H2. subst b2. destruct b1; [done|].
      rewrite (is_occ H _ _ HR), (is_size H _ _ HR), (is_md H _ _ HR). destruct (decide _); [done|].
      eapply rrel_bind; [by apply (is_insert H)|]. done.
    - eapply rrel_bind; [by apply (is_remove H)|]. intros [s1 b1] [t1 b2] [H1 H2]. cbn in H1, H2. by subst b2.
    - rewrite (is_nobj H _ _ HR). destruct (decide _); [done|]. eapply rrel_bind; [by apply (is_evict H)|]. done.
    - rewrite (is_nobj H _ _ HR). destruct (decide _); [done|]. eapply rrel_bind; [by apply (is_toev H)|].
      intros [s1 b1] [t1 b2] [H1 H2]. cbn in H1, H2. by subst b2.
  Qed.
  Lemma in_step_run fuel cs : forall s t, Forall (call_ok ok) cs -> R s t -> rrel pr (run O fuel s cs) (run P fuel t cs).
  Proof using H.
    induction cs as [|c cs IH]; intros s t Hc HR; [done|]. apply Forall_cons in Hc as [Hc Hcs]. cbn [run].
    eapply rrel_bind; [by apply in_step_step|]. intros [s1 b1] [t1 b2] [H1 H2]. cbn in H1, H2. subst b2.
    eapply rrel_bind; [by apply IH|]. intros [s2 o1] [t2 o2] [H3 H4]. cbn in H3, H4. by subst o2.
  Qed.
End Steps.

(** * Lists *)
Lemma xids_app l1 l2 : xids (l1 ++ l2) = xids l1 ++ xids l2.
Proof. apply fmap_app. Qed.
Lemma xbytes_app md l1 l2 : xbytes md (l1 ++ l2) = xbytes md l1 + xbytes md l2.
Proof. induction l1 as [|x l IH]; cbn [xbytes app]; lia. Qed.
Lemma xbytes_perm md l1 l2 : l1 ≡ₚ l2 -> xbytes md l1 = xbytes md l2.
Proof. induction 1; cbn [xbytes]; lia. Qed.
Lemma xids_perm l1 l2 : l1 ≡ₚ l2 -> xids l1 ≡ₚ xids l2.
Proof. intros H. unfold xids. by rewrite H. Qed.
Lemma xids_halve l : xids (halve <$> l) = xids l.
Proof. unfold xids. rewrite <- list_fmap_compose. by apply list_fmap_ext. Qed.
Lemma xbytes_halve md l : xbytes md (halve <$> l) = xbytes md l.
Proof. induction l as [|x l IH]; [done|]. rewrite fmap_cons. cbn [xbytes]. rewrite IH. done. Qed.
Lemma xids_hit now r l : xids (hit_by now r <$> l) = xids l.
Proof. unfold xids. rewrite <- list_fmap_compose. apply list_fmap_ext. intros i x _. cbn. unfold hit_by. by destruct (decide _). Qed.
Lemma xbytes_hit md now r l : xbytes md (hit_by now r <$> l) = xbytes md l.
Proof. induction l as [|x l IH]; [done|]. rewrite fmap_cons. cbn [xbytes]. rewrite IH. unfold hit_by. by destruct (decide _). Qed.

Lemma q_del_app id l1 l2 : q_del id (l1 ++ l2) = q_del id l1 ++ q_del id l2.
Proof. apply filter_app. Qed.
Lemma q_del_notin id l : id ∉ l -> q_del id l = l.
Proof.
  induction l as [|y l IH]; intros H; [done|]. apply not_elem_of_cons in H as [H1 H2]. unfold q_del. rewrite filter_cons_True by done.
  f_equal. by apply IH.
Qed.
Lemma q_del_head id l : id ∉ l -> q_del id (id :: l) = l.
Proof. intros H. unfold q_del. rewrite filter_cons_False by tauto. by apply q_del_notin. Qed.
Lemma q_del_rev id l : q_del id (rev l) = rev (q_del id l).
Proof.
  induction l as [|y l IH]; [done|]. cbn [rev]. rewrite q_del_app, IH. unfold q_del at 2 3. rewrite !filter_cons.
  destruct (decide _); [done|]. by rewrite app_nil_r.
Qed.
Lemma xids_filter id l : xids (filter (fun x => x_id x <> id) l) = q_del id (xids l).
Proof.
  induction l as [|y l IH]; [done|]. unfold q_del in *. cbn [xids fmap list_fmap]. rewrite !filter_cons.
  destruct (decide (x_id y <> id)); [|done]. cbn [xids fmap list_fmap]. by f_equal.
Qed.
Lemma filter_notin id l : id ∉ xids l -> filter (fun x => x_id x <> id) l = l.
Proof.
  induction l as [|y l IH]; intros H; [done|]. apply not_elem_of_cons in H as [H1 H2]. rewrite filter_cons_True by done.
  f_equal. by apply IH.
Qed.
(** [q] without the ids in [l] *)
Definition q_minus (l q : list Z) : list Z := filter (fun y => y ∉ l) q.
Lemma q_minus_nil q : q_minus [] q = q.
Proof. induction q as [|y q IH]; [done|]. unfold q_minus. rewrite filter_cons_True by apply not_elem_of_nil. f_equal. apply IH. Qed.
Lemma q_minus_del id l q : q_minus l (q_del id q) = q_minus (id :: l) q.
Proof.
  unfold q_minus, q_del. rewrite list_filter_filter. apply list_filter_iff. intros y. rewrite not_elem_of_cons. tauto.
Qed.
Lemma q_minus_minus l1 l2 q : q_minus l2 (q_minus l1 q) = q_minus (l1 ++ l2) q.
Proof. unfold q_minus. rewrite list_filter_filter. apply list_filter_iff. intros y. rewrite not_elem_of_app. tauto. Qed.
Lemma q_minus_app l q1 q2 : q_minus l (q1 ++ q2) = q_minus l q1 ++ q_minus l q2.
Proof. apply filter_app. Qed.
Lemma q_minus_none l q : (forall x, x ∈ q -> x ∉ l) -> q_minus l q = q.
Proof.
  induction q as [|y q IH]; intros H; [done|]. unfold q_minus. rewrite filter_cons_True by (apply H, elem_of_list_here). f_equal.
  apply IH. intros x Hx. by apply H, elem_of_list_further.
Qed.
Lemma q_minus_all l q : (forall x, x ∈ q -> x ∈ l) -> q_minus l q = [].
Proof.
  induction q as [|y q IH]; intros H; [done|]. unfold q_minus. rewrite filter_cons_False by (intros X; apply X, H, elem_of_list_here).
  apply IH. intros x Hx. by apply H, elem_of_list_further.
Qed.
Lemma q_minus_ext l l' q : (forall x, x ∈ l <-> x ∈ l') -> q_minus l q = q_minus l' q.
Proof. intros H. unfold q_minus. apply list_filter_iff. intros y. by rewrite H. Qed.

(** * The table *)
Section Tab.
  Context (cap md : Z).
  Definition known (c : cache) (x : rob) : Prop :=
    exists o, c_tbl c !! x_id x = Some o /\ fr_view (x_id x) o = x /\ 0 <= x_sz x /\ x_sz x + md < 2 ^ 32.
  Record tab (c : cache) (l : list rob) : Prop := {
    tb_nodup : NoDup (xids l);
    tb_known : Forall (known c) l;
    tb_dom : forall id, is_Some (c_tbl c !! id) -> id ∈ xids l;
    tb_nobj : c_nobj c = Z.of_nat (length l);
    tb_occ : c_occ c = xbytes md l;
    tb_size : c_size c = cap;
    tb_md : c_md c = md
  }.
  Context (Hmd : 0 <= md).

  Lemma tab_perm c l l' : l ≡ₚ l' -> tab c l -> tab c l'.
  Proof using.
    intros HP []. split; try done.
    - by rewrite <- (xids_perm _ _ HP).
    - by rewrite <- HP.
    - intros id Hid. rewrite <- (xids_perm _ _ HP). by apply tb_dom0.
    - by rewrite <- HP.
    - by rewrite <- (xbytes_perm md _ _ HP).
  Qed.
  Lemma tab_in c l id : tab c l -> id ∈ xids l <-> is_Some (c_tbl c !! id).
  Proof using.
    intros H. split; [|apply (tb_dom _ _ H)]. intros Hin. apply elem_of_list_fmap in Hin as (x & -> & Hx).
    pose proof (tb_known _ _ H) as K. rewrite Forall_forall in K. destruct (K x Hx) as (o & E & _). by rewrite E.
  Qed.
  Lemma known_ext c c' l : (forall id, id ∈ xids l -> c_tbl c' !! id = c_tbl c !! id) -> Forall (known c) l -> Forall (known c') l.
  Proof using.
    intros He H. rewrite Forall_forall in *. intros x Hx. destruct (H x Hx) as (o & E). exists o.
    rewrite He; [done|]. by apply elem_of_list_fmap_1.
  Qed.

  Lemma tab_remove c x l : tab c (x :: l) -> exists c', cache_remove_obj_base c (x_id x) = Ok c' /\ tab c' l /\
    c_nreq c' = c_nreq c /\ c_adm c' = c_adm c.
  Proof using Hmd.
    intros [N K D B Oc S M]. apply Forall_cons in K as [(o & E & V & Z1 & Z2) K]. apply NoDup_cons in N as [N1 N2].
    unfold cache_remove_obj_base. rewrite E. eexists. split; [done|]. split; [|done]. split; cbn [c_tbl c_nobj c_occ c_size c_md]; try done.
    - eapply known_ext; [|exact K]. intros id Hid. cbn. rewrite lookup_delete_ne; [done|]. intros <-. done.
    - intros id [o' Hid]. apply lookup_delete_Some in Hid as [Hne Hid].
      assert (X : id ∈ xids (x :: l)) by (apply D; by rewrite Hid). apply elem_of_cons in X as [X|X]; [congruence|done].
    - rewrite B. cbn [length]. lia.
    - rewrite Oc. cbn [xbytes]. assert (o_size o = x_sz x) as -> by (by rewrite <- V). rewrite M. unfold u32. rewrite Z.mod_small by lia. lia.
  Qed.
  Lemma tab_upd c x l f y : tab c (x :: l) -> x_id y = x_id x -> x_sz y = x_sz x ->
    (forall o, fr_view (x_id x) o = x -> fr_view (x_id x) (f o) = y) -> tab (c_upd c (x_id x) f) (y :: l).
  Proof using.
    intros [N K D B Oc S M] Hi Hs Hf. apply Forall_cons in K as [(o & E & V & Z1 & Z2) K].
    assert (Hids : xids (y :: l) = xids (x :: l)) by (cbn; by rewrite Hi).
    split; try done.
    - by rewrite Hids.
    - apply Forall_cons. split.
      + exists (f o). rewrite Hi, Hs. cbn. rewrite lookup_alter, E. split; [done|]. split; [by apply Hf|done].
      + eapply known_ext; [|exact K]. intros id Hid. cbn. apply lookup_alter_ne. intros <-. by apply NoDup_cons in N as [N _].
    - intros id Hid. rewrite Hids. apply D. cbn in Hid. destruct (decide (x_id x = id)) as [<-|Hne].
      + by rewrite E.
      + by rewrite lookup_alter_ne in Hid.
    - cbn [xbytes]. rewrite Hs. exact Oc.
  Qed.
  Lemma tab_insert c l r : req_ok md r -> tab c l -> r_id r ∉ xids l -> exists c1, cache_insert_base c r = Ok c1 /\
    c_nreq c1 = c_nreq c /\ c_adm c1 = c_adm c /\
    tab (c_upd c1 (r_id r) (fun o => o_set_next (o_set_p2 (o_set_p1 o 0) (c_nreq c1)) (r_next r)))
      (mkRob (r_id r) (r_size r) 0 (c_nreq c) (r_next r) :: l).
  Proof using Hmd.
    intros [R1 R2] HT Hin. unfold cache_insert_base.
    assert (E : c_tbl c !! r_id r = None).
    { destruct (c_tbl c !! r_id r) eqn:E; [|done]. destruct Hin. apply (tb_dom _ _ HT). by rewrite E. }
    rewrite E. eexists. split; [done|]. split; [done|]. split; [done|]. cbn [c_nreq].
    assert (Hu : u32 (r_size r) = r_size r) by (unfold u32; apply Z.mod_small; lia).
    destruct HT as [N K D B Oc S M]. split.
    - cbn. apply NoDup_cons. done.
    - apply Forall_cons. split.
      + eexists. cbn. rewrite lookup_alter, lookup_insert. split; [done|]. unfold fr_view. cbn. rewrite Hu. split; [done|lia].
      + eapply known_ext; [|exact K]. intros id Hid. cbn. rewrite lookup_alter_ne by (intros <-; done).
        rewrite lookup_insert_ne by (intros <-; done). done.
    - intros id Hid. cbn in Hid. cbn. apply elem_of_cons. destruct (decide (r_id r = id)) as [<-|Hne]; [by left|].
      right. apply D. by rewrite lookup_alter_ne, lookup_insert_ne in Hid.
    - cbn. rewrite B. cbn [length]. lia.
    - cbn. rewrite Oc, M, Hu. lia.
    - done.
    - done.
  Qed.
  Lemma tab_views c l0 l : tab c l0 -> (forall x, x ∈ l -> x ∈ l0) -> fr_views c (xids l) = Ok l.
  Proof using.
    intros HT. induction l as [|x l IH]; intros Hs; [done|]. cbn [xids fmap list_fmap fr_views].
    pose proof (tb_known _ _ HT) as K. rewrite Forall_forall in K. destruct (K x (Hs x (elem_of_list_here _ _))) as (o & E & V & _).
    rewrite E. unfold xids in IH. rewrite IH by (intros y Hy; by apply Hs, elem_of_list_further). cbn. by rewrite V.
  Qed.

  Lemma drop_all_ok dl : forall c q p sd l, tab c (dl ++ l) -> (forall x, p = MAt x -> x ∉ xids dl) ->
    exists c', fr_drop_all (mkFr c q p sd) dl = Ok (mkFr c' (q_minus (xids dl) q) p sd) /\ tab c' l /\
      c_nreq c' = c_nreq c /\ c_adm c' = c_adm c.
  Proof using Hmd.
    induction dl as [|x dl IH]; intros c q p sd l HT Hp.
    - exists c. cbn. by rewrite q_minus_nil.
    - cbn [fr_drop_all]. destruct (tab_remove _ _ _ HT) as (c1 & E & T1 & E1 & E2).
      unfold fr_remove_obj. cbn [fr_c fr_q fr_at fr_seed]. rewrite E. cbn [rbind].
      assert (Hpp : after_free (x_id x) p = p).
      { destruct p; try done. cbn. rewrite decide_False; [done|]. intros ->. apply (Hp _ eq_refl). apply elem_of_list_here. }
      rewrite Hpp. destruct (IH c1 (q_del (x_id x) q) p sd l T1) as (c' & F & T' & F1 & F2).
      { intros y Hy X. apply (Hp _ Hy). by apply elem_of_list_further. }
      exists c'. rewrite F, q_minus_del. split; [done|]. split; [done|]. split; congruence.
  Qed.
  Lemma keep_all_ok kl : forall c q p sd l, tab c (kl ++ l) ->
    exists c', fr_keep_all (mkFr c q p sd) kl = Ok (mkFr c' (rev (xids kl) ++ q_minus (xids kl) q) p sd) /\
      tab c' ((halve <$> kl) ++ l) /\ c_nreq c' = c_nreq c /\ c_adm c' = c_adm c.
  Proof using.
    induction kl as [|x kl IH]; intros c q p sd l HT.
    - exists c. cbn. by rewrite q_minus_nil.
    - cbn [fr_keep_all fr_c fr_q fr_at fr_seed].
      assert (X : is_Some (c_tbl c !! x_id x)) by (apply (tab_in _ _ _ HT), elem_of_list_here).
      destruct X as [o E]. rewrite E.
      assert (HT' : tab (c_upd c (x_id x) (fun o => o_set_p1 o (Z.quot (o_p1 o + 1) 2))) (halve x :: kl ++ l)).
      { apply (tab_upd _ _ _ _ _ HT); try done. intros o' V. unfold fr_view in *. cbn. rewrite <- V at 2. unfold halve. cbn. done. }
      destruct (IH (c_upd c (x_id x) (fun o => o_set_p1 o (Z.quot (o_p1 o + 1) 2))) (q_to_head (x_id x) q) p sd (halve x :: l)) as (c' & F & T' & F1 & F2).
      { eapply tab_perm; [|exact HT']. by rewrite Permutation_middle. }
      exists c'. rewrite F. split.
      + assert (N : x_id x ∉ xids kl).
        { pose proof (tb_nodup _ _ HT) as N. cbn in N. apply NoDup_cons in N as [N _]. intros X. apply N. fold (xids (kl ++ l)). rewrite xids_app.
          apply elem_of_app. by left. }
        do 2 f_equal. cbn [xids fmap list_fmap rev]. fold (xids kl). rewrite <- app_assoc. f_equal.
        unfold q_to_head, q_minus at 1. rewrite filter_cons_True by done. fold (q_minus (xids kl) (q_del (x_id x) q)).
        rewrite q_minus_del. done.
      + split; [|done]. eapply tab_perm; [|exact T']. rewrite fmap_cons. cbn [app]. by rewrite Permutation_middle.
  Qed.
End Tab.

(** * The relation *)
Section Rel.
  Context (cap md n_exam n_keep : Z) (none : bool) (rank : Z -> Z -> list rob -> list rob * Z).
  Context (Hmd : 0 <= md) (Hex : 0 < n_exam) (Hkeep : 0 <= n_keep <= n_exam).
  Context (Hrank : forall seed now l, (rank seed now l).1 ≡ₚ l).

  Definition at_ok (p : mptr) (a : place) (l : list rob) : Prop :=
    match a with
    | Fresh => p = MNull
    | Oldest => exists x, head (xids l) = Some x /\ p = MAt x
    | Gone => p = MFreed
    end.
  Record frel (s : frstate) (d : rei) : Prop := {
    fe_tab : tab cap md (fr_c s) (e_l d);
    fe_q : fr_q s = rev (xids (e_l d));
    fe_now : c_nreq (fr_c s) = e_now d;
    fe_adm : c_adm (fr_c s) = e_adm d;
    fe_seed : fr_seed s = e_seed d;
    fe_at : at_ok (fr_at s) (e_at d) (e_l d)
  }.
  Local Notation O := (fr_ops n_exam n_keep none rank).
  Local Notation P := (e_ops cap md n_exam n_keep none rank).

  Lemma fr_exam_straight n : forall rq cur, (n < length cur)%nat -> fr_exam n rq cur = Ok (take n cur, drop n cur).
  Proof using.
    clear. induction n as [|n IH]; intros rq cur Hn; [done|]. destruct cur as [|x cur]; cbn in Hn; [lia|]. cbn.
    destruct cur as [|y cur]; [cbn in Hn; lia|]. rewrite IH by lia. done.
  Qed.
  Lemma frel_cur s d : frel s d -> e_at d <> Gone ->
    match fr_at s with MNull => Ok (rev (fr_q s)) | MAt p => Ok (fr_from p (rev (fr_q s))) | MFreed => Err UseAfterFree end = Ok (xids (e_l d)).
  Proof using.
    intros [_ Q _ _ _ A] Hg. rewrite Q, rev_involutive. destruct (e_at d); cbn in A; [by rewrite A| |done].
    destruct A as (x & Hh & ->). destruct (xids (e_l d)) as [|y l]; [done|]. injection Hh as ->. cbn. by rewrite decide_True.
  Qed.

  Lemma frel_find s d r u : frel s d -> rrel (pr frel) (fr_find s r u) (e_find d r u).
  Proof using.
    intros HR. pose proof HR as [T Q N A S At]. unfold fr_find, cache_find_base, e_find.
    destruct (decide (r_id r ∈ xids (e_l d))) as [Hin|Hin].
    - pose proof (proj1 (tab_in _ _ _ _ _ T) Hin) as [o E]. rewrite E. destruct u; cbn [andb]; cbn [rrel].
      + split; [|done]. cbn [fst]. set (f1 := fun o0 => o_set_freq (o_set_next o0 (r_next r)) (o_freq o0 + 1)).
        apply elem_of_list_fmap in Hin as (x & Hx & Hin). apply elem_of_list_split in Hin as (l1 & l2 & Hl).
        assert (Hh : hit_by (e_now d) r <$> e_l d = l1 ++ mkRob (x_id x) (x_sz x) (x_fr x + 1) (e_now d) (r_next r) :: l2).
        { rewrite Hl. rewrite fmap_app, fmap_cons. pose proof (tb_nodup _ _ _ _ T) as ND. rewrite Hl, xids_app in ND. cbn in ND.
          apply NoDup_app in ND as (N1 & N2 & N3). apply NoDup_cons in N3 as [N3 N4]. f_equal; [|f_equal].
          - rewrite <- (list_fmap_id l1) at 2. apply list_fmap_ext. intros i y Hy. unfold hit_by. rewrite decide_False; [done|].
            rewrite Hx. intros X. apply (N2 (x_id x)); [|apply elem_of_list_here]. rewrite <- X. apply elem_of_list_fmap_1. by eapply elem_of_list_lookup_2.
          - unfold hit_by. by rewrite decide_True.
          - rewrite <- (list_fmap_id l2) at 2. apply list_fmap_ext. intros i y Hy. unfold hit_by. rewrite decide_False; [done|].
            rewrite Hx. intros X. apply N3. rewrite <- X. apply elem_of_list_fmap_1. by eapply elem_of_list_lookup_2. }
        split; cbn [fr_c fr_q fr_at fr_seed fr_set_c e_l e_now e_at e_seed e_adm]; try done.
        * rewrite Hh, Hx. eapply tab_perm; [apply Permutation_middle|].
          assert (T' : tab cap md (c_upd (c_upd (fr_c s) (x_id x) f1) (x_id x) (fun o0 => o_set_next (o_set_p2 (o_set_p1 o0 (o_p1 o0 + 1)) (c_nreq (fr_c s))) (r_next r)))
                         (mkRob (x_id x) (x_sz x) (x_fr x + 1) (e_now d) (r_next r) :: l1 ++ l2)).
          { apply (tab_upd cap md _ (mkRob (x_id x) (x_sz x) (x_fr x) (x_last x) (r_next r))); try done.
            - apply (tab_upd cap md _ x); try done.
              + eapply tab_perm; [|exact T]. rewrite Hl. symmetry. apply Permutation_middle.
              + intros o0 V. rewrite <- V. done.
            - intros o0 V. unfold fr_view in *. cbn in *. injection V as V1 V2 V3 V4. rewrite V1, V2, N. done. }
          exact T'.
        * by rewrite xids_hit.
        * destruct (e_at d); cbn in At |- *; try done. by rewrite xids_hit.
      + split; [|done]. cbn [fst]. destruct s. done.
    - assert (E : c_tbl (fr_c s) !! r_id r = None).
      { destruct (c_tbl (fr_c s) !! r_id r) eqn:E; [|done]. destruct Hin. apply (tab_in _ _ _ _ _ T). by rewrite E. }
      rewrite E. cbn [andb rrel]. split; [|done]. cbn [fst]. destruct s. done.
  Qed.
  Lemma frel_can s d r : frel s d -> rrel (pr frel) (fr_can_insert s r) (e_can cap md d r).
  Proof using.
    intros [T Q N A S At]. unfold fr_can_insert, cache_can_insert_default, e_can. rewrite A. destruct (admit (e_adm d) r) as [a ok].
    assert (HR : frel (fr_set_c s (c_set_adm (fr_c s) a)) (mkRei (e_l d) (e_now d) (e_at d) (e_seed d) a)).
    { split; try done. destruct T. by split. }
    rewrite (tb_md _ _ _ _ T), (tb_size _ _ _ _ T). destruct ok; cbn [andb].
    - destruct (decide _); cbn [rrel]; (split; [done|]); cbn [snd]; [rewrite bool_decide_false by lia|rewrite bool_decide_true by lia]; done.
    - cbn [rrel]. done.
  Qed.
  Lemma frel_insert s d r : req_ok md r -> frel s d -> rrel frel (fr_insert s r) (e_insert d r).
  Proof using Hmd.
    intros Hr [T Q N A S At]. unfold fr_insert, e_insert. destruct (decide (r_id r ∈ xids (e_l d))) as [Hin|Hin].
    - pose proof (proj1 (tab_in _ _ _ _ _ T) Hin) as [o E]. unfold cache_insert_base. by rewrite E.
    - destruct (tab_insert cap md Hmd _ _ _ Hr T Hin) as (c1 & E & E1 & E2 & T1). rewrite E. cbn [rbind rrel].
      split; cbn [fr_c fr_q fr_at fr_seed e_l e_now e_at e_seed e_adm]; try done.
      + eapply tab_perm; [|exact T1]. rewrite N, Permutation_cons_append. done.
      + rewrite xids_app, rev_app_distr, Q. done.
      + cbn. congruence.
      + cbn. congruence.
      + destruct (e_at d); cbn in At |- *; try done. destruct At as (x & H1 & H2). exists x. split; [|done].
        rewrite xids_app. destruct (xids (e_l d)); done.
  Qed.
  Lemma frel_remove s d id : frel s d -> rrel (pr frel) (fr_remove s id) (e_remove d id).
  Proof using Hmd. clear Hkeep Hex Hrank rank n_exam n_keep none.
    intros [T Q N A S At]. unfold fr_remove, e_remove. destruct (decide (id ∈ xids (e_l d))) as [Hin|Hin].
    - pose proof (proj1 (tab_in _ _ _ _ _ T) Hin) as [o E]. rewrite E.
      apply elem_of_list_fmap in Hin as (x & -> & Hin). apply elem_of_list_split in Hin as (l1 & l2 & Hl).
      pose proof (tb_nodup _ _ _ _ T) as ND. rewrite Hl, xids_app in ND. cbn in ND.
      apply NoDup_app in ND as (N1 & N2 & N3). apply NoDup_cons in N3 as [N3 N4].
      assert (Hf : filter (fun y => x_id y <> x_id x) (e_l d) = l1 ++ l2).
      { rewrite Hl, filter_app, filter_cons_False by tauto. rewrite !filter_notin; try done. intros X. apply (N2 _ X), elem_of_list_here. }
      destruct (tab_remove cap md Hmd (fr_c s) x (l1 ++ l2)) as (c1 & F & T1 & F1 & F2).
      { eapply tab_perm; [|exact T]. rewrite Hl. symmetry. apply Permutation_middle. }
      unfold fr_remove_obj. rewrite F. cbn [rbind rrel]. split; [|done]. cbn [fst].
      split; cbn [fr_c fr_q fr_at fr_seed e_l e_now e_at e_seed e_adm]; try done.
      + by rewrite Hf.
      + rewrite Q, q_del_rev, xids_filter. done.
      + congruence.
      + congruence.
      + destruct (e_at d); cbn in At.
        * rewrite At. done.
        * destruct At as (y & Hy & ->). cbn. destruct (decide (head (xids (e_l d)) = Some (x_id x))) as [Hd|Hd].
          -- rewrite Hd in Hy. injection Hy as <-. rewrite decide_True by done. done.
          -- rewrite decide_False by congruence. cbn. exists y. split; [|done]. rewrite Hf, xids_app.
             rewrite Hl, xids_app in Hy, Hd. destruct (xids l1); [|done]. cbn in Hd. congruence.
        * rewrite At. done.
    - assert (E : c_tbl (fr_c s) !! id = None).
      { destruct (c_tbl (fr_c s) !! id) eqn:E; [|done]. destruct Hin. apply (tab_in _ _ _ _ _ T). by rewrite E. }
      rewrite E. done.
  Qed.
  Lemma frel_evict s d r : frel s d -> rrel frel (fr_evict n_exam n_keep none rank s r) (e_evict n_exam n_keep none rank d r).
  Proof using Hmd Hex Hkeep Hrank.
    intros HR. pose proof HR as [T Q N A S At]. unfold fr_evict, e_evict.
    assert (e_at d = Gone \/ e_at d <> Gone) as [Hg|Hg] by (destruct (e_at d); auto; by right).
    { rewrite Hg in *. cbn in At. rewrite At. done. }
    rewrite (frel_cur s d HR Hg). cbn [rbind]. rewrite (tb_nobj _ _ _ _ T).
    assert (Hsp : forall (X : res rei), match e_at d with Gone => Err UseAfterFree | _ => X end = X) by (intros X; by destruct (e_at d)).
    destruct (e_l d) as [|x l] eqn:El.
    { rewrite decide_True by (cbn; lia). cbn. destruct (e_at d); done. }
    assert (Hm : forall (X : list rob -> res rei), match e_at d with Gone => Err UseAfterFree | _ => X l end = X l) by (intros X; by destruct (e_at d)).
    match goal with |- rrel _ _ (match e_at d with Fresh => ?X | Oldest => _ | Gone => _ end) =>
      assert (He : forall Z, rrel frel Z X -> rrel frel Z (match e_at d with Fresh => X | Oldest => X | Gone => Err UseAfterFree end))
        by (intros Z HZ; destruct (e_at d); done); apply He; clear He end.
    destruct (decide (Z.of_nat (length (x :: l)) <= n_exam)) as [Hn|Hn].
    - cbn [xids fmap list_fmap].
      destruct (tab_remove cap md Hmd _ _ _ T) as (c1 & F & T1 & F1 & F2). unfold fr_remove_obj. rewrite F. cbn [rbind rrel].
      split; cbn [fr_c fr_q fr_at fr_seed e_l e_now e_at e_seed e_adm]; try done.
      + rewrite Q, q_del_rev. f_equal. cbn [xids fmap list_fmap]. apply q_del_head. pose proof (tb_nodup _ _ _ _ T) as ND. by apply NoDup_cons in ND as [ND _].
      + congruence.
      + congruence.
      + destruct l as [|y l]; [done|]. cbn. by eexists.
    - assert (Hlen : (Z.to_nat n_exam < length (x :: l))%nat) by lia.
      rewrite fr_exam_straight by (unfold xids; rewrite fmap_length; lia). cbn [rbind]. destruct none; [done|].
      set (L := x :: l) in *. set (n := Z.to_nat n_exam) in *. set (k := Z.to_nat (n_exam - n_keep)).
      assert (Htk : take n (xids L) = xids (take n L)) by (unfold xids; by rewrite fmap_take). rewrite Htk.
      assert (Hdr : drop n (xids L) = xids (drop n L)) by (unfold xids; by rewrite fmap_drop). rewrite Hdr.
      rewrite (tab_views cap md _ L) by (done || (intros y Hy; rewrite <- (take_drop n L); apply elem_of_app; by left)). cbn [rbind].
      rewrite N, S. pose proof (Hrank (e_seed d) (e_now d) (take n L)) as Hp.
      destruct (rank (e_seed d) (e_now d) (take n L)) as [ml sd]. cbn [fst] in Hp.
      assert (Hperm : L ≡ₚ take k ml ++ drop k ml ++ drop n L).
      { rewrite app_assoc, take_drop, Hp, take_drop. done. }
      pose proof (tb_nodup _ _ _ _ T) as ND.
      assert (ND2 : forall z, z ∈ xids (drop n L) -> z ∉ xids ml).
      { intros z Hz Hz'. rewrite (xids_perm _ _ Hp) in Hz'. rewrite <- (take_drop n L), xids_app in ND.
        apply NoDup_app in ND as (_ & ND & _). by apply (ND z). }
      destruct (drop n L) as [|y rest] eqn:ED.
      { pose proof (drop_length L n) as HH. rewrite ED in HH. change (length (@nil rob)) with 0%nat in HH. clear -HH Hlen. lia. }
      cbn [xids fmap list_fmap].
      destruct (drop_all_ok cap md Hmd (take k ml) (fr_c s) (fr_q s) (MAt (x_id y)) sd (drop k ml ++ y :: rest)) as (c1 & F & T1 & F1 & F2).
      { eapply tab_perm; [exact Hperm|done]. }
      { intros z Hz. injection Hz as <-. intros X. apply (ND2 (x_id y)); [apply elem_of_list_here|]. rewrite <- (take_drop k ml), xids_app. apply elem_of_app. by left. }
      cbn [fr_c fr_q fr_at fr_seed] in F |- *. rewrite F. cbn [rbind].
      destruct (keep_all_ok cap md (drop k ml) c1 (q_minus (xids (take k ml)) (fr_q s)) (MAt (x_id y)) sd (y :: rest) T1) as (c2 & G & T2 & G1 & G2).
      rewrite G. cbn [rrel]. split; cbn [fr_c fr_q fr_at fr_seed e_l e_now e_at e_seed e_adm]; try done.
      + eapply tab_perm; [|exact T2]. apply Permutation_app_comm.
      + rewrite xids_app, xids_halve, rev_app_distr. f_equal. rewrite q_minus_minus, <- xids_app, take_drop, Q.
        rewrite <- (take_drop n L), ED, xids_app, rev_app_distr, q_minus_app.
        rewrite q_minus_none, (q_minus_all _ (rev (xids (take n L)))), app_nil_r; [done| |].
        * intros z Hz. rewrite <- in_rev, elem_of_list_In in Hz || rewrite elem_of_list_In, <- in_rev, <- elem_of_list_In in Hz. by rewrite (xids_perm _ _ Hp).
        * intros z Hz. rewrite elem_of_list_In, <- in_rev, <- elem_of_list_In in Hz. by apply ND2.
      + congruence.
      + congruence.
      + by eexists.
  Qed.

  Lemma frel_in_step : in_step O P (req_ok md) frel.
  Proof using Hmd Hex Hkeep Hrank.
    split.
    - apply frel_find.
    - apply frel_can.
    - apply frel_insert.
    - apply frel_evict.
    - intros s t r _. done.
    - apply frel_remove.
    - intros s d H. apply (tb_occ _ _ _ _ (fe_tab _ _ H)).
    - intros s d H. apply (tb_nobj _ _ _ _ (fe_tab _ _ H)).
    - intros s d H. apply (tb_size _ _ _ _ (fe_tab _ _ H)).
    - intros s d H. apply (tb_md _ _ _ _ (fe_tab _ _ H)).
    - intros s d [[] Q N A S At]. split; try done. cbn. by rewrite N.
  Qed.
End Rel.

(** * The machine on the list *)
Section Machine.
  Context (cap md n_exam n_keep : Z) (none : bool) (rank : Z -> Z -> list rob -> list rob * Z).
  Context (Hmd : 0 <= md) (Hex : 0 < n_exam) (Hkeep : 0 <= n_keep <= n_exam).
  Context (Hrank : forall seed now l, (rank seed now l).1 ≡ₚ l).
  Local Notation P := (e_ops cap md n_exam n_keep none rank).

  Definition xnn (l : list rob) : Prop := Forall (fun x => 0 <= x_sz x) l.
  Lemma xnn_app l1 l2 : xnn (l1 ++ l2) <-> xnn l1 /\ xnn l2.
  Proof using. apply Forall_app. Qed.
  Lemma xnn_bytes l : xnn l -> 0 <= xbytes md l.
  Proof using Hmd. clear Hkeep Hex Hrank. induction 1; cbn [xbytes]; lia. Qed.
  Lemma xnn_halve l : xnn l -> xnn (halve <$> l).
  Proof using. unfold xnn. intros H. apply Forall_fmap. eapply Forall_impl; [exact H|]. done. Qed.

  (** What eviction does to the list, in any case. *)
  Lemma e_evict_inv d r d' : e_evict n_exam n_keep none rank d r = Ok d' ->
    exists gone kept rest, e_l d ≡ₚ gone ++ kept ++ rest /\ e_l d' = rest ++ (halve <$> kept) /\ e_now d' = e_now d /\ e_adm d' = e_adm d /\
      e_at d <> Gone /\ e_at d' <> Gone /\ (n_keep < n_exam -> gone <> []).
  Proof using Hkeep Hex Hrank.
    unfold e_evict. intros H.
    assert (Hg : e_at d <> Gone) by (intros E; by rewrite E in H).
    destruct (e_l d) as [|x l] eqn:El; [by destruct (e_at d)|].
    assert (H' : (if decide (Z.of_nat (length (x :: l)) <= n_exam) then
          Ok (mkRei l (e_now d) (match l with [] => Fresh | _ => Oldest end) (e_seed d) (e_adm d))
        else if none then Err AssertFail
        else let '(ml, seed) := rank (e_seed d) (e_now d) (take (Z.to_nat n_exam) (x :: l)) in
          Ok (mkRei (drop (Z.to_nat n_exam) (x :: l) ++ (halve <$> drop (Z.to_nat (n_exam - n_keep)) ml))
                (e_now d) Oldest seed (e_adm d))) = Ok d') by (by destruct (e_at d)).
    clear H. destruct (decide _) as [Hn|Hn].
    - injection H' as <-. exists [x], [], l. cbn. rewrite app_nil_r. split_and!; try done. by destruct l.
    - destruct none; [done|]. pose proof (Hrank (e_seed d) (e_now d) (take (Z.to_nat n_exam) (x :: l))) as Hp.
      destruct (rank _ _ _) as [ml sd]. cbn [fst] in Hp. injection H' as <-. cbn [e_l e_now e_adm e_at].
      eexists (take (Z.to_nat (n_exam - n_keep)) ml), _, _. split; [|split; [done|]].
      + rewrite app_assoc, take_drop, Hp, take_drop. done.
      + split_and!; try done. intros Hlt E. apply Permutation_length in Hp. rewrite take_length in Hp.
        apply (f_equal length) in E. rewrite take_length in E. change (length (@nil rob)) with 0%nat in E. lia.
  Qed.

  Definition inv (d : rei) : Prop := xnn (e_l d) /\ xbytes md (e_l d) <= cap.
  Lemma e_evict_keeps d r d' : inv d -> e_evict n_exam n_keep none rank d r = Ok d' -> inv d'.
  Proof using Hmd Hkeep Hex Hrank.
    intros [I1 I2] H. apply e_evict_inv in H as (g & k & rs & Hp & E & _). unfold inv. rewrite E, xnn_app.
    assert (Hx : xnn (g ++ k ++ rs)) by (unfold xnn; by rewrite <- Hp).
    apply xnn_app in Hx as [Hx1 Hx]. apply xnn_app in Hx as [Hx2 Hx3]. rewrite (xbytes_perm _ _ _ Hp), !xbytes_app in I2.
    pose proof (xnn_bytes _ Hx1). rewrite xbytes_app, xbytes_halve. split; [|lia]. split; [done|]. by apply xnn_halve.
  Qed.
  Lemma e_loop_keeps fuel : forall d r d', inv d -> evict_loop P fuel d r = Ok d' ->
    inv d' /\ xbytes md (e_l d') + r_size r + md <= cap.
  Proof using Hmd Hkeep Hex Hrank.
    induction fuel as [|n IH]; intros d r d' HI H; cbn [evict_loop op_occupied op_size op_md P] in H; destruct (decide _) as [Hd|Hd]; try done.
    - injection H as <-. split; [done|lia].
    - destruct (op_evict P d r) as [d1|] eqn:E; [|done]. cbn [rbind] in H. eapply IH; [|exact H]. eapply e_evict_keeps; [done|exact E].
    - injection H as <-. split; [done|lia].
  Qed.
  Lemma e_find_keeps d r u d' b : e_find d r u = Ok (d', b) -> (inv d -> inv d') /\ length (e_l d') = length (e_l d) /\ e_at d' = e_at d /\
    e_adm d' = e_adm d /\ (e_l d = [] -> e_l d' = []) /\ (b = false -> r_id r ∉ xids (e_l d')).
  Proof using.
    unfold e_find, inv. destruct (decide _) as [Hi|Hi].
    - intros H. destruct u; injection H as <- <-; [|done]. cbn [e_l e_at e_adm]. rewrite fmap_length, xbytes_hit. split_and!; try done.
      + intros [I1 I2]. split; [|done]. unfold xnn. apply Forall_fmap. eapply Forall_impl; [exact I1|]. intros x Hx. cbn. unfold hit_by. by destruct (decide _).
      + by intros ->.
    - intros H. injection H as <- <-. split_and!; done.
  Qed.
  Lemma e_insert_keeps d r d' : req_ok md r -> xbytes md (e_l d) + r_size r + md <= cap -> inv d -> e_insert d r = Ok d' -> inv d'.
  Proof using Hmd.
    clear Hkeep Hex Hrank. unfold e_insert, inv. intros [R1 R2] Hb [I1 I2] H. destruct (decide _); [done|]. injection H as <-. cbn [e_l].
    rewrite xnn_app, xbytes_app. cbn [xbytes x_sz]. split; [split; [done|]|lia]. by apply Forall_singleton.
  Qed.
  Lemma e_step_keeps fuel d c d' o : call_ok (req_ok md) c -> inv d -> step P fuel d c = Ok (d', o) -> inv d'.
  Proof using Hmd Hkeep Hex Hrank.
    intros Hc HI H. destruct c as [r|r u|r|id|r|r]; cbn [step call_ok] in *.
    - unfold cache_get_base in H. destruct (op_find P _ r true) as [[d1 b]|] eqn:E; [|done]. cbn [rbind] in H.
      destruct (e_find_keeps _ _ _ _ _ E) as (K & _). destruct b.
      + cbn [rbind] in H. injection H as <- <-. by apply K.
      + cbn [op_can_insert P] in H. unfold e_can in H. destruct (admit _ _) as [a ok]. cbn [rbind] in H. destruct (ok && _)%bool.
        * destruct (evict_loop P fuel _ r) as [d2|] eqn:E2; [|done]. cbn [rbind] in H.
          apply e_loop_keeps in E2 as [I2 B2]; [|apply K, HI].
          destruct (op_insert P d2 r) as [d3|] eqn:E3; [|done]. cbn [rbind] in H. injection H as <- <-. eapply e_insert_keeps; [exact Hc|exact B2|exact I2|exact E3].
        * cbn [rbind] in H. injection H as <- <-. apply K, HI.
    - destruct (op_find P d r u) as [[d1 b]|] eqn:E; [|done]. cbn [rbind] in H. injection H as <- <-. destruct (e_find_keeps _ _ _ _ _ E) as (K & _). by apply K.
    - destruct (op_find P d r false) as [[d1 b]|] eqn:E; [|done]. cbn [rbind] in H. destruct b; [by injection H as <- <-|].
      destruct (decide _) as [Hd|Hd]; [by injection H as <- <-|]. destruct (op_insert P d r) as [d3|] eqn:E3; [|done]. cbn [rbind] in H.
      injection H as <- <-. cbn [op_occupied op_size op_md P] in Hd. eapply e_insert_keeps; [done| |done|exact E3]. lia.
    - cbn [op_remove P] in H. unfold e_remove in H. destruct (decide _); cbn [rbind] in H; injection H as <- <-; [|done].
      destruct HI as [I1 I2]. unfold inv. cbn [e_l]. split.
      { unfold xnn in *. rewrite Forall_forall in *. intros x Hx. apply elem_of_list_filter in Hx as [_ Hx]. by apply I1. }
      clear -I1 I2 Hmd. enough (xbytes md (filter (fun x => x_id x <> id) (e_l d)) <= xbytes md (e_l d)) by lia. clear I2.
      induction I1 as [|x l Hx I1 IH]; [done|]. rewrite filter_cons. destruct (decide _); cbn [xbytes]; lia.
    - destruct (decide _); [by injection H as <- <-|]. destruct (op_evict P d r) as [d3|] eqn:E3; [|done]. cbn [rbind] in H. injection H as <- <-.
      eapply e_evict_keeps; [exact HI|exact E3].
    - destruct (decide _); [by injection H as <- <-|done].
  Qed.
  Lemma e_run_keeps fuel cs : forall d d' os, Forall (call_ok (req_ok md)) cs -> inv d -> run P fuel d cs = Ok (d', os) -> inv d'.
  Proof using Hmd Hkeep Hex Hrank.
    induction cs as [|c cs IH]; intros d d' os Hc HI H; cbn [run] in H; [by injection H as <- <-|].
    apply Forall_cons in Hc as [Hc Hcs]. destruct (step P fuel d c) as [[d1 o]|] eqn:E; [|done]. cbn [rbind] in H.
    destruct (run P fuel d1 cs) as [[d2 os']|] eqn:E2; [|done]. cbn [rbind] in H. injection H as <- <-.
    eapply IH; [done| |exact E2]. by eapply e_step_keeps.
  Qed.

  (** ** Completion *)
  Definition live (n : nat) (d : rei) : Prop := e_at d <> Gone /\ (length (e_l d) <= n)%nat.
  Lemma e_evict_some d r : none = false -> e_at d <> Gone -> e_l d <> [] -> exists d', e_evict n_exam n_keep none rank d r = Ok d'.
  Proof using.
    intros -> Hg Hl. unfold e_evict. destruct (e_l d) as [|x l]; [done|]. destruct (e_at d); try done;
      (destruct (decide _); [by eexists|]; destruct (rank _ _ _); by eexists).
  Qed.
  Lemma e_evict_live n d r d' : n_keep < n_exam -> live (S n) d -> e_evict n_exam n_keep none rank d r = Ok d' -> live n d'.
  Proof using Hkeep Hex Hrank.
    intros Hlt [L1 L2] H. apply e_evict_inv in H as (g & k & rs & Hp & E & _ & _ & _ & G & Hne). split; [done|]. specialize (Hne Hlt).
    rewrite Hp, !app_length in L2. rewrite E, app_length, fmap_length. destruct g; [done|]. cbn [length] in L2. lia.
  Qed.
  Lemma e_loop_some fuel : forall d r, none = false -> n_keep < n_exam -> r_size r + md <= cap -> live fuel d ->
    exists d', evict_loop P fuel d r = Ok d' /\ live fuel d' /\ (forall x, x ∈ xids (e_l d') -> x ∈ xids (e_l d)).
  Proof using Hkeep Hex Hrank.
    induction fuel as [|n IH]; intros d r Hno Hlt Hr HL; cbn [evict_loop op_occupied op_size op_md P]; destruct (decide _) as [Hd|Hd]; try (by exists d).
    - destruct HL as [_ HL]. destruct (e_l d); [|cbn in HL; lia]. cbn [xbytes] in Hd. lia.
    - destruct (e_evict_some d r Hno) as (d1 & E).
      { apply HL. } { intros X. rewrite X in Hd. cbn [xbytes] in Hd. lia. }
      cbn [op_evict P]. rewrite E. cbn [rbind]. destruct (IH d1 r Hno Hlt Hr) as (d' & F & F1 & F2).
      { by eapply e_evict_live. }
      exists d'. split; [exact F|]. split; [destruct F1; split; [done|lia]|]. intros x Hx. apply F2 in Hx.
      apply e_evict_inv in E as (g & k & rs & Hp & El & _). rewrite El, xids_app, xids_halve in Hx. rewrite (xids_perm _ _ Hp), !xids_app.
      rewrite !elem_of_app in *. tauto.
  Qed.
  Lemma e_step_some fuel n d c : none = false -> n_keep < n_exam -> re_call md c -> (n <= fuel)%nat -> live n d ->
    exists d' o, step P fuel d c = Ok (d', o) /\ live (S n) d'.
  Proof using Hmd Hkeep Hex Hrank.
    intros Hno Hlt Hc Hf HL. destruct c as [r|r u|r|id|r|r]; cbn [step re_call] in *; try done.
    - unfold cache_get_base. destruct (op_find P (op_tick P d) r true) as [[d1 b]|] eqn:E; [|cbn in E; unfold e_find in E; by destruct (decide _)].
      cbn [rbind]. destruct (e_find_keeps _ _ _ _ _ E) as (_ & K1 & K2 & K3 & K4 & K5). cbn [op_tick P e_l e_at e_adm] in *.
      assert (HL1 : live n d1) by (destruct HL; split; [by rewrite K2|by rewrite K1]).
      destruct b; [do 2 eexists; split; [done|]; destruct HL1; split; [done|lia]|].
      cbn [op_can_insert P]. unfold e_can. destruct (admit _ _) as [a ok]. cbn [rbind]. destruct (ok && _)%bool eqn:Eb.
      + apply andb_true_iff in Eb as [_ Eb]. apply bool_decide_eq_true in Eb.
        destruct (e_loop_some fuel (mkRei (e_l d1) (e_now d1) (e_at d1) (e_seed d1) a) r Hno Hlt Eb) as (d2 & F & F1 & F2).
        { destruct HL1; split; [done|cbn [e_l]; lia]. }
        assert (Hlen : live n d2).
        { destruct HL1 as [A1 A2]. clear -F A1 A2 Hno Hlt Hkeep Hex Hrank Eb. revert F. 
          assert (X : live n (mkRei (e_l d1) (e_now d1) (e_at d1) (e_seed d1) a)) by done. revert X.
          generalize (mkRei (e_l d1) (e_now d1) (e_at d1) (e_seed d1) a). induction fuel as [|k IH]; intros e X F; cbn [evict_loop] in F; destruct (decide _); try done.
          - by injection F as <-.
          - destruct (op_evict P e r) as [e1|] eqn:E; [|done]. cbn [rbind] in F. apply (IH e1); [|done].
            destruct X as [X1 X2]. destruct (e_evict_live n e r e1 Hlt) as [Y1 Y2]; [split; [done|lia]|exact E|]. done.
          - by injection F as <-. }
        rewrite F. cbn [rbind op_insert P]. unfold e_insert. rewrite decide_False by (intros X; apply F2 in X; by apply K5).
        cbn [rbind]. do 2 eexists. split; [done|]. destruct Hlen. split; [done|]. cbn [e_l]. rewrite app_length. cbn. lia.
      + do 2 eexists. split; [done|]. destruct HL1. split; [done|]. cbn [e_l]. lia.
    - destruct (op_find P d r u) as [[d1 b]|] eqn:E; [|cbn in E; unfold e_find in E; by destruct (decide _)].
      destruct (e_find_keeps _ _ _ _ _ E) as (_ & K1 & K2 & _). cbn [rbind]. do 2 eexists. split; [done|]. destruct HL. split; [by rewrite K2|rewrite K1; lia].
    - destruct (op_find P d r false) as [[d1 b]|] eqn:E; [|cbn in E; unfold e_find in E; by destruct (decide _)].
      destruct HL as [L1 L2]. cbn [rbind]. destruct b; [do 2 eexists; split; [done|]; split; [done|lia]|].
      destruct (decide _); [do 2 eexists; split; [done|]; split; [done|lia]|].
      cbn in E. unfold e_find in E. destruct (decide (r_id r ∈ xids (e_l d))) as [Hi|Hi]; [done|].
      cbn [op_insert P]. unfold e_insert. rewrite decide_False by done. cbn [rbind]. do 2 eexists. split; [done|]. split; [done|].
      cbn [e_l]. rewrite app_length. cbn. lia.
    - cbn [op_nobj P]. destruct (decide _) as [Hd|Hd]; [do 2 eexists; split; [done|]; destruct HL; split; [done|lia]|].
      destruct (e_evict_some d r Hno) as (d1 & E).
      { apply HL. } { intros X. rewrite X in Hd. cbn in Hd. lia. }
      cbn [op_evict P]. rewrite E. cbn [rbind]. do 2 eexists. split; [done|].
      destruct (e_evict_live n d r d1 Hlt) as [Y1 Y2]; [destruct HL; split; [done|lia]|exact E|]. split; [done|lia].
  Qed.
  Lemma e_run_some fuel cs : forall n d, none = false -> n_keep < n_exam -> Forall (re_call md) cs -> (n + length cs <= fuel)%nat -> live n d ->
    exists d' os, run P fuel d cs = Ok (d', os) /\ e_at d' <> Gone.
  Proof using Hmd Hkeep Hex Hrank.
    induction cs as [|c cs IH]; intros n d Hno Hlt Hc Hf HL; [do 2 eexists; split; [done|apply HL]|].
    apply Forall_cons in Hc as [Hc Hcs]. cbn [length] in Hf. cbn [run].
    destruct (e_step_some fuel n d c Hno Hlt Hc) as (d1 & o & E & L1); [lia|done|]. rewrite E. cbn [rbind].
    destruct (IH (S n) d1 Hno Hlt Hcs) as (d2 & os & F & G); [lia|done|]. rewrite F. cbn [rbind]. by do 2 eexists.
  Qed.

  (** ** n_keep = n_exam *)
  Lemma e_spin fuel : forall d r, none = false -> n_keep = n_exam -> e_at d <> Gone -> Z.of_nat (length (e_l d)) > n_exam ->
    xbytes md (e_l d) + r_size r + md > cap -> evict_loop P fuel d r = Err OutOfFuel.
  Proof using Hkeep Hex Hrank.
    induction fuel as [|n IH]; intros d r Hno Hk Hg Hl Hb; cbn [evict_loop op_occupied op_size op_md P]; rewrite decide_True by done; [done|].
    destruct (e_evict_some d r Hno Hg) as (d1 & E). { intros X. rewrite X in Hl. cbn in Hl. lia. }
    cbn [op_evict P]. rewrite E. cbn [rbind]. unfold e_evict in E. destruct (e_l d) as [|x l] eqn:El; [cbn in Hl; lia|].
    assert (E' : (let '(ml, seed) := rank (e_seed d) (e_now d) (take (Z.to_nat n_exam) (x :: l)) in
          Ok (mkRei (drop (Z.to_nat n_exam) (x :: l) ++ (halve <$> drop (Z.to_nat (n_exam - n_keep)) ml))
                (e_now d) Oldest seed (e_adm d))) = Ok d1).
    { rewrite decide_False in E by lia. rewrite Hno in E. destruct (e_at d); done. }
    clear E. pose proof (Hrank (e_seed d) (e_now d) (take (Z.to_nat n_exam) (x :: l))) as Hp. destruct (rank _ _ _) as [ml sd]. cbn [fst] in Hp.
    replace (Z.to_nat (n_exam - n_keep)) with 0%nat in E' by lia. rewrite drop_0 in E'. injection E' as <-.
    apply IH; cbn [e_l e_at]; try done.
    - rewrite app_length, fmap_length, Hp, Nat.add_comm, <- app_length, take_drop. done.
    - rewrite xbytes_app, xbytes_halve, (xbytes_perm _ _ _ Hp).
      pose proof (xbytes_app md (take (Z.to_nat n_exam) (x :: l)) (drop (Z.to_nat n_exam) (x :: l))) as X. rewrite take_drop in X. lia.
  Qed.
End Machine.
