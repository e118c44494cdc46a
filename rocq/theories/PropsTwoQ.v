(** C16: 2Q keeps A1in, A1out and Am disjoint and within their sizes, promotes
    to Am exactly on a ghost hit, and every get/find/remove program runs to
    completion.  The parts of the claim that do not hold of the code are
    refuted below with concrete programs. *)
From stdpp Require Import gmap list numbers fin_maps.
From Verif Require Import Base Driver ModelQueue QueueFacts QList SpecApi SpecComp CompFacts ModelTwoQ TwoQFacts.
Open Scope Z_scope.

Definition twoq_md (cmd : bool) : Z := if cmd then 16 else 0.

(** Membership of an id in one of the three queues: the lookup of that queue. *)
Definition in_ain (s : twoq) (id : Z) : Prop := resident fifo_ops (t_in s) id.
Definition in_aout (s : twoq) (id : Z) : Prop := resident fifo_ops (t_out s) id.
Definition in_am (s : twoq) (id : Z) : Prop := resident lru_ops (t_am s) id.

Section Props.
  Context (cmd : bool) (cap ain aout : Z) (G : Z -> Z -> Prop).
  Context (Hain : 0 <= ain) (Haout : 0 <= aout) (Hcap : 2 * ain <= cap).
  Notation md := (twoq_md cmd).
  Notation s0 := (twoq_init cmd cap ain aout).
  Notation ok := (tok G md cap ain aout).

  Lemma md_nonneg : 0 <= md. Proof. unfold twoq_md. destruct cmd; lia. Qed.

  Lemma ok_in s li lo lm : ok s li lo lm -> (forall id, in_ain s id <-> id ∈ ids li) /\
    (forall id, in_aout s id <-> id ∈ ids lo) /\ (forall id, in_am s id <-> id ∈ ids lm).
  Proof.
    intros []. unfold in_ain, in_aout, in_am. split_and!.
    - apply (in_q fifo_ops _ _ _ _ tok_in). by left.
    - apply (in_q fifo_ops _ _ _ _ tok_out). by left.
    - apply (in_q lru_ops _ _ _ _ tok_am). by right.
  Qed.

  Lemma ok_res s li lo lm : ok s li lo lm ->
    (forall id, resident twoq_ops s id <-> id ∈ ids li \/ id ∈ ids lm) /\
    (forall id, absent twoq_ops s id <-> ~ (id ∈ ids li \/ id ∈ ids lm)).
  Proof.
    intros H. unfold resident, absent. cbn [op_find twoq_ops]. split; intros id; split.
    - intros HF. destruct (HF (mkReq id 0 0 0 0) eq_refl) as (s' & Hf). rewrite (tok_find_false _ _ _ _ _ _ _ _ _ _ H) in Hf.
      injection Hf as _ Hf. by apply bool_decide_eq_true in Hf.
    - intros Hid r <-. exists s. rewrite (tok_find_false _ _ _ _ _ _ _ _ _ _ H). by rewrite bool_decide_eq_true_2.
    - intros HF. destruct (HF (mkReq id 0 0 0 0) eq_refl) as (s' & Hf). rewrite (tok_find_false _ _ _ _ _ _ _ _ _ _ H) in Hf.
      injection Hf as _ Hf. by apply bool_decide_eq_false in Hf.
    - intros Hid r <-. exists s. rewrite (tok_find_false _ _ _ _ _ _ _ _ _ _ H). by rewrite bool_decide_eq_false_2.
  Qed.

  Lemma ok_nobj s li lo lm : ok s li lo lm ->
    op_nobj twoq_ops s = Z.of_nat (length li + length lm) /\
    op_occupied twoq_ops s = bytes 0 li + bytes md lm.
  Proof.
    intros []. cbn. unfold q_nobj, q_occ. rewrite (qok_nobj _ _ _ _ tok_in), (qok_nobj _ _ _ _ tok_am).
    rewrite (qok_occ _ _ _ _ tok_in), (qok_occ _ _ _ _ tok_am). split; lia.
  Qed.

  Lemma ok_step s li lo lm fuel c : ok s li lo lm -> comp_call G md c ->
    (length li + length lm <= fuel)%nat ->
    (exists s' o li' lo' lm', step twoq_ops fuel s c = Ok (s', o) /\ ok s' li' lo' lm' /\
       (length li' + length lm' <= length li + length lm + 1)%nat) \/
    ((exists r, c = CEvict r) /\ step twoq_ops fuel s c = Err NullDeref).
  Proof.
    intros H Hc Hf. pose proof md_nonneg as Hmd. destruct c as [r|r u|r|id|r|r]; cbn [comp_call] in Hc; try done; cbn [step].
    - destruct Hc as [Hr HG]. left.
      destruct (tok_get G md cap ain aout Hmd Hain Hcap s li lo lm r fuel H Hr HG Hf)
        as (s' & li' & lo' & lm' & -> & H' & Hl & _). cbn [rbind].
      eexists s', _, li', lo', lm'. split_and!; done.
    - left. cbn [op_find twoq_ops]. destruct u.
      + destruct (tok_find_true G md cap ain aout s li lo lm r H) as (s' & b & lo' & lm' & -> & H' & _ & _ & Hl & _).
        cbn [rbind]. eexists s', _, li, lo', lm'. split_and!; try done. lia.
      + rewrite (tok_find_false _ _ _ _ _ _ _ _ _ _ H). cbn [rbind].
        eexists s, _, li, lo, lm. split_and!; try done. lia.
    - left. cbn [op_remove twoq_ops].
      destruct (tok_remove G md cap ain aout Hmd s li lo lm id H) as (s' & -> & H'). cbn [rbind].
      eexists s', _, _, _, _. split_and!; try done. pose proof (length_del_le id li). pose proof (length_del_le id lm). lia.
    - destruct (decide (op_nobj twoq_ops s <= 0)).
      { left. eexists s, _, li, lo, lm. split_and!; try done. lia. }
      cbn [op_evict twoq_ops].
      destruct (tok_evict G md cap ain aout Hmd Hain Hcap s li lo lm r H)
        as [(Hb & s1 & li1 & v & o & lo1 & -> & -> & H1 & _)|[(Hb & s1 & lm1 & v & o & -> & -> & H1 & _)|(Hb & -> & ->)]].
      + left. cbn [rbind]. eexists s1, _, li1, lo1, lm. split_and!; try done. rewrite app_length. lia.
      + left. cbn [rbind]. eexists s1, _, li, lo, lm1. split_and!; try done. rewrite app_length. lia.
      + right. split; [by exists r|done].
  Qed.

  Lemma ok_run cs : forall s li lo lm fuel, ok s li lo lm -> Forall (comp_call G md) cs ->
    (length li + length lm + length cs <= fuel)%nat ->
    (exists s' os li' lo' lm', run twoq_ops fuel s cs = Ok (s', os) /\ ok s' li' lo' lm' /\
       (length li' + length lm' <= length li + length lm + length cs)%nat) \/
    (Exists (fun c => exists r, c = CEvict r) cs /\ run twoq_ops fuel s cs = Err NullDeref).
  Proof.
    induction cs as [|c cs IH]; intros s li lo lm fuel H Hc Hf.
    - left. eexists s, [], li, lo, lm. split_and!; try done. cbn. lia.
    - apply Forall_cons in Hc as [Hc Hcs]. cbn [length] in Hf. cbn [run].
      destruct (ok_step s li lo lm fuel c H Hc ltac:(lia)) as [(s1 & o & li1 & lo1 & lm1 & -> & H1 & Hl)|[He ->]].
      + cbn [rbind]. destruct (IH s1 li1 lo1 lm1 fuel H1 Hcs ltac:(lia))
          as [(s' & os & li' & lo' & lm' & -> & H' & Hl')|[He ->]].
        * left. cbn [rbind length]. eexists s', _, li', lo', lm'. split_and!; try done. lia.
        * right. cbn [rbind]. split; [by apply Exists_cons_tl|done].
      + right. cbn [rbind]. split; [by apply Exists_cons_hd|done].
  Qed.

  Lemma ok_reach s : comp_reaches twoq_ops s0 (comp_call G md) s -> exists li lo lm, ok s li lo lm.
  Proof.
    intros (cs & fuel & os & Hcs & Hf & Hr).
    assert (H0 : ok s0 [] [] []) by (by apply tok_init; try done; apply md_nonneg).
    destruct (ok_run cs _ _ _ _ fuel H0 Hcs ltac:(cbn; lia)) as [(s' & os' & li & lo & lm & Hr' & H' & _)|[_ Hr']];
      rewrite Hr in Hr'; [|done]. injection Hr' as <- <-. by exists li, lo, lm.
  Qed.

  (** Every program of gets, finds and removes completes. *)
  Theorem C16_twoq_completes_partial : forall cs fuel, Forall (comp_call_noevict G md) cs -> (length cs <= fuel)%nat ->
    exists s os, run twoq_ops fuel s0 cs = Ok (s, os).
  Proof.
    intros cs fuel Hcs Hf.
    assert (H0 : ok s0 [] [] []) by (by apply tok_init; try done; apply md_nonneg).
    destruct (ok_run cs _ _ _ _ fuel H0) as [(s' & os & _ & _ & _ & Hr & _)|[He _]].
    - apply (Forall_impl _ _ _ Hcs). by intros c [? _].
    - cbn. lia.
    - by exists s', os.
    - exfalso. apply Exists_exists in He as (c & Hc & r & ->). rewrite Forall_forall in Hcs.
      by apply Hcs in Hc as [_ ?].
  Qed.

  (** The three queues share no id; the bounds of the queues and of the whole;
      the counters are the number of resident objects and their bytes, every
      size being one the client asked for that id. *)
  Theorem C16_twoq_invariant : forall s, comp_reaches twoq_ops s0 (comp_call G md) s ->
    (forall id, ~ (in_ain s id /\ in_aout s id)) /\
    (forall id, ~ (in_ain s id /\ in_am s id)) /\
    (forall id, ~ (in_aout s id /\ in_am s id)) /\
    (forall id, resident twoq_ops s id <-> in_ain s id \/ in_am s id) /\
    op_occupied twoq_ops s <= cap + md /\
    op_occupied fifo_ops (t_out s) <= aout /\
    op_occupied lru_ops (t_am s) <= cap - ain /\
    exists L1 L2, ledger twoq_ops (L1 ++ L2) G s /\
      (forall id, in_ain s id <-> id ∈ L1.*1) /\ (forall id, in_am s id <-> id ∈ L2.*1) /\
      op_occupied twoq_ops s = total_bytes L1 + total_bytes L2 + md * Z.of_nat (length L2).
  Proof.
    intros s (li & lo & lm & H)%ok_reach. pose proof (ok_in _ _ _ _ H) as (Hi & Ho & Hm).
    pose proof (ok_res _ _ _ _ H) as (HR & HA). pose proof (ok_nobj _ _ _ _ H) as (Hn & Hocc). pose proof H as [].
    split_and!.
    - intros id. rewrite Hi, Ho. intros [? ?]. by apply (tok_io id).
    - intros id. rewrite Hi, Hm. intros [? ?]. by apply (tok_im id).
    - intros id. rewrite Ho, Hm. intros [? ?]. by apply (tok_om id).
    - intros id. by rewrite Hi, Hm.
    - rewrite Hocc. lia.
    - cbn. unfold q_occ. by rewrite (qok_occ _ _ _ _ tok_out).
    - cbn. unfold q_occ. by rewrite (qok_occ _ _ _ _ tok_am).
    - exists (szs li), (szs lm).
      split_and!.
      + unfold ledger. rewrite fmap_app, !szs_ids. split_and!.
        * apply NoDup_app. split_and!; [apply tok_in|intros id ? ?; by apply (tok_im id)|apply tok_am].
        * intros id. rewrite HR, elem_of_app. done.
        * intros id. rewrite HA, elem_of_app. done.
        * rewrite Hn, app_length, !szs_length. done.
        * apply Forall_app. split; apply szs_G; [exact tok_gi|exact tok_gm].
      + intros id. by rewrite Hi, szs_ids.
      + intros id. by rewrite Hm, szs_ids.
      + rewrite Hocc, !szs_bytes, szs_length. lia.
  Qed.

  (** A lookup without update changes nothing; a get hits exactly on a resident
      object, and a hit keeps the resident set; a missed object that 2Q agrees
      to cache goes to Am if it was a ghost, otherwise to A1in; an object
      larger than A1in changes nothing but the ghosts. *)
  Theorem C16_twoq_get : forall s, comp_reaches twoq_ops s0 (comp_call G md) s ->
    forall r fuel, req_ok md r -> G (r_id r) (r_size r) -> op_nobj twoq_ops s <= Z.of_nat fuel ->
    (exists b, op_find twoq_ops s r false = Ok (s, b)) /\
    exists s' h, cache_get_base twoq_ops fuel s r = Ok (s', h) /\
      (h = true <-> resident twoq_ops s (r_id r)) /\
      (h = true -> forall id, resident twoq_ops s' id <-> resident twoq_ops s id) /\
      (h = false -> ain < r_size r -> forall id, resident twoq_ops s' id <-> resident twoq_ops s id) /\
      (h = false -> r_size r <= ain ->
         (forall id, resident twoq_ops s' id -> id = r_id r \/ resident twoq_ops s id) /\
         (~ in_aout s (r_id r) -> in_ain s' (r_id r)) /\
         (in_aout s (r_id r) -> r_size r + md <= cap - ain -> in_am s' (r_id r))).
  Proof.
    intros s (li & lo & lm & H)%ok_reach r fuel Hr HG Hf. pose proof md_nonneg as Hmd.
    pose proof (ok_in _ _ _ _ H) as (Hi & Ho & Hm).
    pose proof (ok_res _ _ _ _ H) as (HR & HA). pose proof (ok_nobj _ _ _ _ H) as (Hn & Hocc).
    split. { eexists. apply (tok_find_false _ _ _ _ _ _ _ _ _ _ H). }
    destruct (tok_get G md cap ain aout Hmd Hain Hcap s li lo lm r fuel H Hr HG ltac:(lia))
      as (s' & li' & lo' & lm' & He & H' & _ & Hhit & Hbig & Hmiss).
    pose proof (ok_in _ _ _ _ H') as (Hi' & Ho' & Hm').
    pose proof (ok_res _ _ _ _ H') as (HR' & HA').
    eexists _, _. split; [exact He|]. rewrite HR. split_and!.
    - apply bool_decide_eq_true.
    - intros Hb%bool_decide_eq_true id. destruct (Hhit Hb) as (-> & -> & Hid & _). by rewrite HR', HR, Hid.
    - intros Hb%bool_decide_eq_false Hs id. destruct (Hbig Hb Hs) as (-> & ->). by rewrite HR', HR.
    - intros Hb%bool_decide_eq_false Hs. destruct (Hmiss Hb Hs) as (Hlo' & Hcase).
      destruct (decide (r_id r ∈ ids lo)) as [Hg|Hg].
      + destruct Hcase as ((d & Hd) & Hfit). split_and!.
        * intros id Hid. rewrite HR' in Hid. rewrite HR. destruct Hid as [Hid|Hid].
          -- right. left. rewrite Hd, ids_app. apply elem_of_app. by left.
          -- destruct (decide (id = r_id r)) as [->|Hne]; [by left|]. right. right.
             destruct (decide (r_size r + md <= cap - ain)) as [Hfi|Hfi].
             ++ destruct Hfit as (l1 & d' & -> & ->). rewrite ids_app. apply elem_of_app. left.
                change (ids (?x :: ?y)) with (x.1 :: ids y) in Hid. by apply elem_of_cons in Hid as [?|?].
             ++ destruct Hfit as (d' & ->). rewrite ids_app. apply elem_of_app. by left.
        * intros Hng. exfalso. by apply Hng, Ho.
        * intros _ Hfi. apply Hm'. rewrite decide_True in Hfit by done. destruct Hfit as (l1 & d' & -> & _). left.
      + destruct Hcase as ((l1 & d & -> & Hd) & (d' & Hd')). split_and!.
        * intros id Hid. rewrite HR' in Hid. rewrite HR. destruct Hid as [Hid|Hid].
          -- change (ids (?x :: ?y)) with (x.1 :: ids y) in Hid. apply elem_of_cons in Hid as [->|Hid]; [by left|].
             right. left. rewrite Hd, ids_app. apply elem_of_app. by left.
          -- right. right. rewrite Hd', ids_app. apply elem_of_app. by left.
        * intros _. apply Hi'. left.
        * intros Hgh. exfalso. by apply Hg, Ho.
  Qed.

  (** remove takes the id out of all three queues and touches nothing else.
      Its answer is true also for a mere ghost. *)
  Theorem C16_twoq_remove : forall s, comp_reaches twoq_ops s0 (comp_call G md) s -> forall id,
    exists s' b, op_remove twoq_ops s id = Ok (s', b) /\
      (b = true <-> resident twoq_ops s id \/ in_aout s id) /\
      ~ in_ain s' id /\ ~ in_aout s' id /\ ~ in_am s' id /\
      forall j, j <> id -> (in_ain s' j <-> in_ain s j) /\ (in_aout s' j <-> in_aout s j) /\ (in_am s' j <-> in_am s j).
  Proof.
    intros s (li & lo & lm & H)%ok_reach id. pose proof md_nonneg as Hmd.
    pose proof (ok_in _ _ _ _ H) as (Hi & Ho & Hm). pose proof (ok_res _ _ _ _ H) as (HR & HA).
    destruct (tok_remove G md cap ain aout Hmd s li lo lm id H) as (s' & He & H').
    pose proof (ok_in _ _ _ _ H') as (Hi' & Ho' & Hm').
    eexists _, _. split; [exact He|]. rewrite bool_decide_eq_true, HR, Ho, Hi', Ho', Hm', !elem_ids_del.
    split_and!; try tauto. intros j Hj. rewrite Hi', Ho', Hm', !elem_ids_del, Hi, Ho, Hm. tauto.
  Qed.

  (** Eviction takes exactly one object: the one A1in would evict when A1in is
      over its size, which then becomes a ghost if it fits; otherwise the one
      Am would evict.  It fails exactly when A1in is within its size and Am is
      empty. *)
  Theorem C16_twoq_evict : forall s, comp_reaches twoq_ops s0 (comp_call G md) s -> forall r,
    (op_occupied fifo_ops (t_in s) > ain ->
       exists v s', op_to_evict fifo_ops (t_in s) r = Ok (t_in s, Some v) /\
         op_evict twoq_ops s r = Ok s' /\ in_ain s v /\
         (forall j, resident twoq_ops s' j <-> resident twoq_ops s j /\ j <> v) /\
         (forall j, in_aout s' j -> j = v \/ in_aout s j) /\
         ((forall z, G v z -> z <= aout) -> in_aout s' v)) /\
    (op_occupied fifo_ops (t_in s) <= ain -> (exists id, in_am s id) ->
       exists v s', op_to_evict lru_ops (t_am s) r = Ok (t_am s, Some v) /\
         op_evict twoq_ops s r = Ok s' /\ in_am s v /\
         (forall j, resident twoq_ops s' j <-> resident twoq_ops s j /\ j <> v) /\
         (forall j, in_aout s' j <-> in_aout s j)) /\
    (op_occupied fifo_ops (t_in s) <= ain -> (forall id, ~ in_am s id) ->
       op_evict twoq_ops s r = Err NullDeref).
  Proof.
    intros s (li & lo & lm & H)%ok_reach r. pose proof md_nonneg as Hmd.
    pose proof (ok_in _ _ _ _ H) as (Hi & Ho & Hm). pose proof (ok_res _ _ _ _ H) as (HR & HA).
    assert (Hoc : op_occupied fifo_ops (t_in s) = bytes 0 li) by apply (tok_in _ _ _ _ _ _ _ _ _ H).
    rewrite Hoc. cbn [op_to_evict op_evict fifo_ops lru_ops twoq_ops].
    assert (Hdel : forall (l l' : qlist) v o, NoDup (ids l) -> l = l' ++ [(v, o)] ->
              forall j, j ∈ ids l' <-> j ∈ ids l /\ j <> v).
    { intros l l' v o Hnd -> j. pose proof (NoDup_ids_mid l' v o [] Hnd) as (Hv & _).
      rewrite ids_app, elem_of_app. cbn. rewrite elem_of_list_singleton. split; [|tauto].
      intros Hj. split; [by left|]. intros ->. done. }
    destruct (tok_evict G md cap ain aout Hmd Hain Hcap s li lo lm r H)
        as [(Hb & s1 & li1 & v & o & lo1 & Hli & He & H1 & _ & Hsub & Hgh)|[(Hb & s1 & lm1 & v & o & Hlm & He & H1 & _)|(Hb & -> & He)]].
    - split_and!; [|lia|lia]. intros _. exists v, s1.
      pose proof (ok_in _ _ _ _ H1) as (Hi1 & Ho1 & Hm1). pose proof (ok_res _ _ _ _ H1) as (HR1 & HA1).
      assert (Hv : v ∈ ids li) by (rewrite Hli, ids_app; apply elem_of_app; right; left).
      split_and!; try done.
      + apply (qok_to_evict ain 0 _ li1 v o). rewrite <- Hli. apply H.
      + by apply Hi.
      + intros j. rewrite HR1, HR. rewrite (Hdel li li1 v o ltac:(apply (tok_in _ _ _ _ _ _ _ _ _ H)) Hli).
        pose proof (tok_im _ _ _ _ _ _ _ _ _ H v Hv). split; [|tauto].
        intros [[? ?]|Hj]; [tauto|]. split; [by right|]. by intros ->.
      + intros j Hj%Ho1%Hsub. by rewrite Ho.
      + intros HG. apply Ho1, Hgh, HG. apply (allG_elem _ _ _ _ (tok_gi _ _ _ _ _ _ _ _ _ H)).
        rewrite Hli. apply elem_of_app. right. left.
    - split_and!; [lia| |].
      + intros _ _. exists v, s1.
        pose proof (ok_in _ _ _ _ H1) as (Hi1 & Ho1 & Hm1). pose proof (ok_res _ _ _ _ H1) as (HR1 & HA1).
        assert (Hv : v ∈ ids lm) by (rewrite Hlm, ids_app; apply elem_of_app; right; left).
        split_and!; try done.
        * apply (qok_to_evict (cap - ain) md _ lm1 v o). rewrite <- Hlm. apply H.
        * by apply Hm.
        * intros j. rewrite HR1, HR. rewrite (Hdel lm lm1 v o ltac:(apply (tok_am _ _ _ _ _ _ _ _ _ H)) Hlm).
          assert (Hvi : v ∉ ids li) by (intros Hx; by apply (tok_im _ _ _ _ _ _ _ _ _ H v)).
          split; [|tauto]. intros [Hj|[? ?]]; [|tauto]. split; [by left|]. by intros ->.
        * intros j. by rewrite Ho1, Ho.
      + intros _ Hno. exfalso. apply (Hno v), Hm. rewrite Hlm, ids_app. apply elem_of_app. right. left.
    - split_and!; [lia| |by intros _ _].
      intros _ (id & Hid%Hm). by apply elem_of_nil in Hid.
  Qed.

  (** Without object metadata the bound is the configured size. *)
  Theorem C16_twoq_capacity_partial : cmd = false ->
    forall s, comp_reaches twoq_ops s0 (comp_call G md) s -> 0 <= op_occupied twoq_ops s <= cap.
  Proof.
    intros Hc s (li & lo & lm & H)%ok_reach. pose proof (ok_nobj _ _ _ _ H) as (_ & ->). destruct H.
    pose proof (bytes_nonneg _ _ (Z.le_refl 0) (qok_osz _ _ _ _ tok_in)).
    pose proof (bytes_nonneg _ _ md_nonneg (qok_osz _ _ _ _ tok_am)).
    assert (md = 0) by (by rewrite Hc). lia.
  Qed.
End Props.

(** The hypotheses are met: a program in which A1in overflows, ghosts are
    remembered, a ghost hit promotes to Am, and Am and A1in both evict.
    Final contents of A1in, A1out and Am (head first), and the answers. *)
Definition g1 (id : Z) : call := CGet (mkReq id 1 0 0 0).
Example C16_twoq_ex :
  let cs := [g1 1; g1 2; g1 3; g1 4; g1 5; g1 1; g1 1; g1 2; g1 3; CRemove 3; g1 4; g1 6; CEvict (mkReq 0 0 0 0 0)] in
  Forall (comp_call (fun _ z => z = 1) 0) cs /\
  (let! (s, os) := run twoq_ops 20 (twoq_init false 4 1 2) cs in
     Ok (q_q (t_in s), q_q (t_out s), q_q (t_am s), os)) =
  Ok ([6], [5], [4; 2],
      [OBool false; OBool false; OBool false; OBool false; OBool false; OBool false; OBool true; OBool false;
       OBool false; OBool true; OBool false; OBool false; OUnit]).
Proof.
  split; [|vm_compute; reflexivity].
  repeat (apply Forall_cons; split; [cbn; unfold req_ok; cbn; lia|]). constructor.
Qed.

(** Refuted: a direct evict on a non-empty cache can dereference NULL, although
    every object fits and the parameters are the default ones (A1in a quarter). *)
Theorem C16_twoq_evict_refuted :
  exists cs, Forall (comp_call (fun _ z => z = 1) 0) cs /\
    run twoq_ops 9 (twoq_init false 8 2 4) cs = Err NullDeref.
Proof.
  exists [g1 1; CEvict (mkReq 0 0 0 0 0)]. split; [|vm_compute; reflexivity].
  repeat (apply Forall_cons; split; [cbn; unfold req_ok; cbn; lia|]). constructor.
Qed.

(** Refuted: with A1in larger than half the cache (a legal parameter) plain gets
    crash. *)
Theorem C16_twoq_large_ain_refuted :
  exists cs, Forall (comp_call_noevict (fun _ z => z = 6) 0) cs /\
    run twoq_ops 9 (twoq_init false 10 6 5) cs = Err NullDeref.
Proof.
  exists [CGet (mkReq 1 6 0 0 0); CGet (mkReq 2 6 0 0 0)]. split; [|vm_compute; reflexivity].
  repeat (apply Forall_cons; split; [unfold comp_call_noevict; cbn; unfold req_ok; cbn; lia|]). constructor.
Qed.

(** Refuted: when object metadata are counted the occupied bytes exceed the
    configured size, because the outer loop does not reserve the 16 bytes that
    Am charges. *)
Definition g25 (id : Z) : call := CGet (mkReq id 25 0 0 0).
Theorem C16_twoq_capacity_refuted :
  exists cs s os, Forall (comp_call_noevict (fun _ z => z = 25) 16) cs /\
    run twoq_ops 20 (twoq_init true 100 25 50) cs = Ok (s, os) /\ op_occupied twoq_ops s > 100.
Proof.
  assert (H : exists x, (let! (s, os) := run twoq_ops 20 (twoq_init true 100 25 50)
     [g25 1; g25 2; g25 3; g25 4; g25 5; g25 1] in Ok (op_occupied twoq_ops s)) = Ok x /\ x > 100).
  { exists 116. split; [vm_compute; reflexivity|lia]. }
  destruct H as (x & H & Hx).
  exists [g25 1; g25 2; g25 3; g25 4; g25 5; g25 1].
  destruct (run _ _ _ _) as [[s os]|]; [|done]. cbn [rbind] in H. injection H as <-.
  exists s, os. split_and!; [|done|done].
  repeat (apply Forall_cons; split; [unfold comp_call_noevict; cbn; unfold req_ok; cbn; lia|]). constructor.
Qed.

(** Refuted (C05 for 2Q): remove answers true for an object that is only
    remembered as a ghost. *)
Theorem C16_twoq_remove_ghost_refuted :
  (let! (s, os) := run twoq_ops 20 (twoq_init false 4 1 2) [g1 1; g1 2; g1 3; g1 4; g1 5; CFind (mkReq 1 1 0 0 0) false; CRemove 1] in
     Ok os) =
  Ok [OBool false; OBool false; OBool false; OBool false; OBool false; OBool false; OBool true].
Proof. vm_compute. reflexivity. Qed.

(** Refuted: a client that calls insert directly can bring one id into A1in and
    A1out at once. *)
Theorem C16_twoq_direct_insert_refuted :
  (let! (s, os) := run twoq_ops 20 (twoq_init false 4 1 2)
      [g1 1; g1 2; g1 3; g1 4; g1 5; CRemove 5; CInsert (mkReq 1 1 0 0 0)] in
     Ok (q_q (t_in s), q_q (t_out s))) = Ok ([1; 4; 3; 2], [1]).
Proof. vm_compute. reflexivity. Qed.
