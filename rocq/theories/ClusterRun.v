(** Servers are chains of caches; a cluster is its servers side by side. *)
From stdpp Require Import gmap list numbers fin_maps.
From Verif Require Import Base Driver Abs AbsFacts Sim SpecApi ApiFacts ModelPrefetch PrefetchFacts ModelRing SpecCluster.
Open Scope Z_scope.

Section Servers.
  Context {S : Type} (good : req -> Prop).

  (** [c] is a cache that implements the level [l] for the requests in [good] *)
  Definition behaves (c : ops S * S) (l : level) : Prop :=
    exists P R, simulation (lv_pol l) c.1 (lv_cap l) (lv_md l) P R /\ R c.2 (lv_a l) /\ abs_ok (lv_cap l) (lv_md l) (lv_a l) /\
      forall r, good r -> P r.

  Lemma behaves_shows c l : behaves c l -> shows c l.
  Proof.
    intros (P & R & HS & HR & Hok & _). split; [intros id; by apply (resident_iff _ _ _ _ _ _ HS)|].
    split; [intros id; by apply (absent_iff _ _ _ _ _ _ HS)|].
    split; [exact (sim_nobj _ _ _ _ _ _ HS _ _ HR)|]. rewrite (sim_occ _ _ _ _ _ _ HS _ _ HR). split; [done|].
    apply Hok.
  Qed.

  Lemma get_levels cs : forall ls r, Forall2 behaves cs ls -> good r ->
    exists cs' b ls', caches_get cs r = Ok (cs', b) /\ Forall2 behaves cs' ls' /\
      forall rs bs ls'', levels_run ls' rs bs ls'' -> levels_run ls (r :: rs) (b :: bs) ls''.
  Proof.
    induction cs as [|[o s] cs IH]; intros ls r HF Hr.
    - apply Forall2_nil_inv_l in HF as ->. exists [], false, []. split; [done|]. split; [constructor|].
      intros rs bs ls'' H. inversion H; subst. apply (levels_nil (r :: rs)).
    - apply Forall2_cons_inv_l in HF as (l & ls1 & (P & R & HS & HR & Hok & HP) & HF & ->). cbn [fst snd] in *.
      destruct (sim_step _ _ _ _ _ _ HS (steps_of o s) s (lv_a l) (CGet r) Hok HR (HP r Hr)) as (s' & ob & a' & Hst & Ha & HR').
      { exact (steps_enough _ _ _ _ _ _ HS _ _ HR). }
      assert (Hok' : abs_ok (lv_cap l) (lv_md l) a').
      { assert (call_ok (req_ok (lv_md l)) (CGet r)) by (apply (sim_call_ok _ _ _ _ _ _ HS); exact (HP r Hr)). eapply abs_step_ok; eauto. }
      cbn [step] in Hst. cbn [caches_get]. destruct (cache_get_base o (steps_of o s) s r) as [[s1 b]|] eqn:E; [|done].
      cbn [rbind] in *. injection Hst as <- <-.
      assert (Hb : behaves (o, s1) (with_a l a')) by (exists P, R; done).
      destruct b.
      + exists ((o, s1) :: cs), true, (with_a l a' :: ls1). split; [done|]. split; [by constructor|].
        intros rs bs ls'' H. inversion H as [|l0 ls0 rs0 bs0 a bs' ls' H1 H2]; subst. cbn in H1.
        apply (levels_cons l ls1 (r :: rs) (true :: bs0) a bs' ls'); [|exact H2].
        cbn [fmap list_fmap]. econstructor; [exact Ha|exact H1].
      + destruct (IH ls1 r HF Hr) as (cs' & b & ls' & -> & HF' & Hk). cbn [rbind].
        exists ((o, s1) :: cs'), b, (with_a l a' :: ls'). split; [done|]. split; [by constructor|].
        intros rs bs ls'' H. inversion H as [|l0 ls0 rs0 bs0 a bs' ls3 H1 H2]; subst. cbn in H1.
        apply (levels_cons l ls1 (r :: rs) (false :: bs0) a (b :: bs') ls3); [|by apply Hk].
        cbn [fmap list_fmap]. econstructor; [exact Ha|exact H1].
  Qed.

  Fixpoint server_run (v : server S) (rs : list req) : res (server S * list bool) :=
    match rs with
    | [] => Ok (v, [])
    | r :: rs => let! (v, b) := server_get v r in let! (v, bs) := server_run v rs in Ok (v, b :: bs)
    end.

  Lemma down_run v rs : sv_up v = false -> server_run v rs = Ok (v, replicate (length rs) false).
  Proof.
    intros Hv. induction rs as [|r rs IH]; [done|]. cbn [server_run]. unfold server_get. rewrite Hv. cbn [rbind]. by rewrite IH.
  Qed.

  Lemma levels_run_nil ls : levels_run ls [] [] ls.
  Proof.
    induction ls as [|l ls IH]; [apply (levels_nil [])|]. replace l with (with_a l (lv_a l)) at 2 by (by destruct l).
    apply (levels_cons l ls [] [] (lv_a l) [] ls); [constructor|done].
  Qed.

  Lemma up_run rs : forall v ls, sv_up v = true -> Forall2 behaves (sv_caches v) ls -> Forall good rs ->
    exists v' bs ls', server_run v rs = Ok (v', bs) /\ levels_run ls rs bs ls' /\ sv_up v' = true /\ Forall2 behaves (sv_caches v') ls'.
  Proof.
    induction rs as [|r rs IH]; intros v ls Hv HF HG.
    - exists v, [], ls. split; [done|]. split; [apply levels_run_nil|done].
    - apply Forall_cons_1 in HG as [Hr HG]. cbn [server_run]. unfold server_get. rewrite Hv.
      destruct (get_levels _ _ r HF Hr) as (cs' & b & ls1 & -> & HF' & Hk). cbn [rbind].
      destruct (IH (mkSrv true cs') ls1 eq_refl HF' HG) as (v' & bs & ls' & -> & H1 & H2). cbn [rbind].
      exists v', (b :: bs), ls'. split; [done|]. split; [by apply Hk|done].
  Qed.
End Servers.

(** ** The cluster *)
Section Clusters.
  Context {S W : Type} (digest : list Z -> list Z).
  Notation cl := (cluster S W).
  Definition route (g : ring) (id : Z) : res nat := get_server_id digest g id.

  Lemma part_cons rt i r rs : part rt i (r :: rs) = if goes rt i r then r :: part rt i rs else part rt i rs.
  Proof. unfold part. destruct (goes rt i r) eqn:E; [by rewrite filter_cons_True|rewrite filter_cons_False by (by rewrite E); done]. Qed.
  Lemma answers_cons rt i r rs b bs : answers rt i (r :: rs) (b :: bs) = if goes rt i r then b :: answers rt i rs bs else answers rt i rs bs.
  Proof.
    unfold answers. cbn [zip zip_with]. destruct (goes rt i r) eqn:E; [by rewrite filter_cons_True|].
    rewrite filter_cons_False by (cbn; by rewrite E). done.
  Qed.

  (** every server sees its part of the trace, and nothing else *)
  Lemma cluster_parts rs : forall (c c' : cl) bs g, cl_ring c = Some g -> cluster_run digest c rs = Ok (c', bs) ->
    cl_ring c' = Some g /\ cl_weights c' = cl_weights c /\ length (cl_servers c') = length (cl_servers c) /\ length bs = length rs /\
    forall i v, cl_servers c !! i = Some v -> exists v', cl_servers c' !! i = Some v' /\
      server_run v (part (route g) i rs) = Ok (v', answers (route g) i rs bs).
  Proof.
    induction rs as [|r rs IH]; intros c c' bs g Hg Hrun; cbn [cluster_run] in Hrun.
    - injection Hrun as <- <-. split_and!; try done. intros i v Hv. by exists v.
    - destruct (cluster_get digest c r) as [[c1 b]|] eqn:E1; [|done]. cbn [rbind] in Hrun.
      destruct (cluster_run digest c1 rs) as [[c2 bs2]|] eqn:E2; [|done]. cbn [rbind] in Hrun. injection Hrun as <- <-.
      unfold cluster_get in E1. rewrite Hg in E1.
      destruct (get_server_id digest g (r_id r)) as [j|] eqn:Ej; [|done]. cbn [rbind] in E1.
      destruct (cl_servers c !! j) as [v0|] eqn:Ev; [|done].
      destruct (server_get v0 r) as [[v1 b1]|] eqn:Eg; [|done]. cbn [rbind] in E1. injection E1 as <- <-.
      destruct (IH (mkCl (Some g) (cl_weights c) (<[j:=v1]> (cl_servers c))) c2 bs2 g eq_refl E2) as (H1 & H2 & H3 & H4 & H5). cbn [cl_weights cl_servers] in *.
      split; [done|]. split; [done|]. split; [rewrite H3; apply insert_length|]. split; [cbn; by rewrite H4|].
      intros i v Hv. rewrite part_cons, answers_cons. assert (goes (route g) i r = bool_decide (j = i)) as -> by (unfold goes, route; by rewrite Ej).
      case_bool_decide as Hij.
      + subst i. rewrite Ev in Hv. injection Hv as <-. destruct (H5 j v1) as (v' & Hv' & Hr).
        { apply list_lookup_insert. by eapply lookup_lt_Some. }
        exists v'. split; [done|]. cbn [server_run]. rewrite Eg. cbn [rbind]. by rewrite Hr.
      + apply (H5 i v). by rewrite list_lookup_insert_ne.
  Qed.

  (** no fault in the cluster when there is none in the parts *)
  Lemma cluster_total rs : forall (c : cl) g, cl_ring c = Some g ->
    (forall id, exists j, get_server_id digest g id = Ok j /\ (j < length (cl_servers c))%nat) ->
    (forall i v, cl_servers c !! i = Some v -> exists x, server_run v (part (route g) i rs) = Ok x) ->
    exists c' bs, cluster_run digest c rs = Ok (c', bs).
  Proof.
    induction rs as [|r rs IH]; intros c g Hg Hrt Hs; cbn [cluster_run]; [by eexists _, _|].
    destruct (Hrt (r_id r)) as (j & Ej & Hj). destruct (lookup_lt_is_Some_2 _ _ Hj) as [v0 Ev].
    assert (Hgo : forall i, goes (route g) i r = bool_decide (j = i)) by (intros i; unfold goes, route; by rewrite Ej).
    destruct (Hs j v0 Ev) as (x & Hx). rewrite part_cons, Hgo, bool_decide_true in Hx by done. cbn [server_run] in Hx.
    destruct (server_get v0 r) as [[v1 b1]|] eqn:Eg; [|done]. cbn [rbind] in Hx.
    unfold cluster_get. rewrite Hg, Ej. cbn [rbind]. rewrite Ev, Eg. cbn [rbind].
    destruct (IH (mkCl (Some g) (cl_weights c) (<[j:=v1]> (cl_servers c))) g eq_refl) as (c' & bs & ->).
    - intros id. cbn [cl_servers]. rewrite insert_length. apply Hrt.
    - cbn [cl_servers]. intros i v Hv. destruct (decide (j = i)) as [<-|Hne].
      + rewrite list_lookup_insert in Hv by done. injection Hv as <-.
        destruct (server_run v1 (part (route g) j rs)) as [y|]; [by eexists|done].
      + rewrite list_lookup_insert_ne in Hv by done. destruct (Hs i v Hv) as (y & Hy).
        rewrite part_cons, Hgo, bool_decide_false in Hy by done. by exists y.
    - cbn [rbind]. by eexists _, _.
  Qed.
End Clusters.
