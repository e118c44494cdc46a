(** C46 (plain-text traces) and C47 (csv traces): what a user gets from reading
    a text file.  The words used in the statements are in SpecTxt.v; the model
    of the readers is ModelTxt.v. *)
From Coq Require Import String Ascii.
From stdpp Require Import gmap list numbers fin_maps.
From Verif Require Import Base ModelReader ModelTxt SpecTxt TxtFacts TxtCursor CsvFacts CsvRead.
Local Open Scope string_scope.
Local Open Scope list_scope.
Open Scope Z_scope.

(** * Vocabulary *)

(** A line that holds the decimal number [n]; lines may end in CR LF. *)
Definition number_line (l : list Z) (n : Z) : Prop :=
  exists ds, decimal ds n /\ (l = ds \/ l = ds ++ [13]).

(** [r] is the request for object [id] delivered into a buffer that held [q]:
    sizes are 1 if they are to be ignored, and are left alone otherwise (a plain
    text trace has no sizes); so is everything else but the scratch fields. *)
Definition text_request (ignsz : bool) (q : treq) (id : Z) (r : treq) : Prop :=
  r !! F_ID = Some id /\ r !! F_VALID = Some 1 /\
  r !! F_SIZE = (if ignsz then Some 1 else q !! F_SIZE) /\
  forall k, k ∉ [F_ID; F_VALID; F_SIZE; F_HV; F_TTL] -> r !! k = q !! k.

Lemma txt_req_request ignsz q id : text_request ignsz q id (txt_req ignsz q id).
Proof.
  unfold text_request, txt_req, prologue. destruct ignsz; split_and!.
  all: try (intros k Hk; rewrite !lookup_insert_ne by set_solver; done).
  all: repeat first [rewrite lookup_insert; done | rewrite lookup_insert_ne by done].
  all: done.
Qed.

Lemma number_line_ok l n : number_line l n -> line_ok true l /\ strtoull l = Some n.
Proof.
  intros (ds & H & [-> | ->]); [by apply decimal_ok|].
  pose proof (strtoull_decimal ds n [13] H (stops_cr _)) as E1.
  pose proof (strtoull_decimal ds n [13; 10] H (stops_cr _)) as E2.
  split; [|done]. split; [by rewrite E1|]. rewrite <-app_assoc. cbn [app]. congruence.
Qed.

Lemma todo_0 {A} cap (l : list A) : todo cap 0 l = limited cap l.
Proof. unfold todo, limited. by rewrite Z.sub_0_r. Qed.

Lemma limited_fmap {A B} (g : A -> B) cap l : g <$> limited cap l = limited cap (g <$> l).
Proof. unfold limited. destruct (decide _); [|done]. by rewrite fmap_take. Qed.

Lemma Forall_limited {A} (P : A -> Prop) cap l : Forall P l -> Forall P (limited cap l).
Proof. unfold limited. destruct (decide _); [|done]. by apply Forall_take. Qed.

Lemma Forall2_text ignsz q ids : Forall2 (text_request ignsz q) ids (txt_req ignsz q <$> ids).
Proof. induction ids; cbn; constructor; [apply txt_req_request|done]. Qed.

Lemma limited_length {A} cap (l : list A) : (length (limited cap l) <= length l)%nat.
Proof. unfold limited. destruct (decide _); [rewrite take_length; lia|lia]. Qed.

(** * C46: plain-text traces *)

Section c46.
  Context (tof hstr : list Z -> Z).

  (** Both kinds of object ids at once: [idof] gives the id of a line. *)
  Lemma c46_forward_gen f tp qs q ls rd fuel :
    tp_csv tp = false -> (tp_start tp < length f)%nat -> lines_of f ls ->
    Forall (line_ok (tp_isnum tp)) (nonblank ls) ->
    tsetup f tp qs = Ok rd -> (length (nonblank ls) < fuel)%nat ->
    exists T rd' q',
      tread_all tof hstr fuel rd q
        = Ok (txt_req (tp_ignsz tp) q <$> (idf (tp_isnum tp) T <$> limited (tp_cap tp) (nonblank ls)),
              rd', q') /\
      (exists pos n, rd' = t_set rd pos n 0 (t_ltime rd) T) /\ qs `prefix_of` T /\
      (tp_isnum tp = false -> Forall (.∈ T) (limited (tp_cap tp) (nonblank ls))).
  Proof.
    intros Hc Hs Hls Hok Hset Hf. unfold tsetup in Hset. rewrite Hc in Hset. injection Hset as <-.
    pose proof (read_all_txt tof hstr
      (mkT None f (tp_start tp) (tp_start tp) 0 (tp_cap tp) 0 true (tp_ign0 tp)
         (tp_ignsz tp) (tp_isnum tp) 0 (-1) qs) q ls fuel) as HR.
    cbn [t_csv t_left t_mmap t_pos t_nread t_file t_isnum t_cap t_quarks t_ignsz] in HR.
    rewrite todo_0 in HR.
    destruct HR as (T & rd' & q' & E & Hrd & HT & Hin); try done; [unfold t_size; cbn; lia|].
    exists T, rd', q'. done.
  Qed.

  (** A file whose non-blank lines are decimal numbers is read as exactly these
      numbers in order, up to the limit: blank lines and a missing newline at
      the end do not matter. *)
  Theorem c46_forward_numbers f tp qs q ls ns rd fuel :
    tp_csv tp = false -> tp_isnum tp = true -> (tp_start tp < length f)%nat ->
    lines_of f ls -> Forall2 number_line (nonblank ls) ns ->
    tsetup f tp qs = Ok rd -> (length ns < fuel)%nat ->
    exists rs rd' q', tread_all tof hstr fuel rd q = Ok (rs, rd', q') /\
      Forall2 (text_request (tp_ignsz tp) q) (limited (tp_cap tp) ns) rs.
  Proof.
    intros Hc Hi Hs Hls HF Hset Hf.
    assert (Hok : Forall (line_ok (tp_isnum tp)) (nonblank ls)).
    { rewrite Hi. clear -HF. induction HF as [|l n ls' ns' H HF IH]; constructor; [|done].
      by apply number_line_ok in H as [? _]. }
    pose proof (Forall2_length _ _ _ HF) as Hlen.
    destruct (c46_forward_gen f tp qs q ls rd fuel) as (T & rd' & q' & E & _); try done; [lia|].
    eexists _, rd', q'. split; [exact E|].
    rewrite limited_fmap, Hi.
    assert (idf true T <$> nonblank ls = ns) as ->; [|apply Forall2_text].
    clear -HF. induction HF as [|l n ls' ns' H HF IH]; [done|].
    apply number_line_ok in H as [_ H]. cbn [fmap list_fmap]. f_equal; [|done].
    unfold idf. by rewrite H.
  Qed.

  (** With textual object ids, requests get the same id exactly if their lines
      are the same (lines do not contain NUL). *)
  Theorem c46_forward_strings f tp qs q ls rd fuel :
    tp_csv tp = false -> tp_isnum tp = false -> (tp_start tp < length f)%nat ->
    lines_of f ls -> Forall (fun l => 0 ∉ l) ls ->
    tsetup f tp qs = Ok rd -> (length ls < fuel)%nat ->
    exists ids rs rd' q', tread_all tof hstr fuel rd q = Ok (rs, rd', q') /\
      Forall2 (text_request (tp_ignsz tp) q) ids rs /\
      same_pattern ids (limited (tp_cap tp) (nonblank ls)).
  Proof.
    intros Hc Hi Hs Hls HF Hset Hf.
    assert (Hnb : forall l, l ∈ nonblank ls -> l ∈ ls) by (intros l; apply elem_of_list_filter).
    assert (Hok : Forall (line_ok (tp_isnum tp)) (nonblank ls)).
    { rewrite Hi. apply Forall_forall. intros l Hl%Hnb. by eapply Forall_forall in HF. }
    assert (Hlen : (length (nonblank ls) <= length ls)%nat) by apply filter_length.
    destruct (c46_forward_gen f tp qs q ls rd fuel) as (T & rd' & q' & E & _ & _ & Hin); try done; [lia|].
    specialize (Hin Hi). rewrite Hi in E.
    eexists _, _, rd', q'. split; [exact E|]. split; [apply Forall2_text|].
    split; [by rewrite fmap_length|].
    intros i j a b c d Ha Hb Hcc Hd. rewrite list_lookup_fmap, Hcc in Ha. rewrite list_lookup_fmap, Hd in Hb.
    apply Some_inj in Ha as <-. apply Some_inj in Hb as <-. split; [|by intros ->].
    apply idf_inj; [exact (Forall_lookup_1 _ _ _ _ Hin Hcc)|exact (Forall_lookup_1 _ _ _ _ Hin Hd)].
  Qed.

  (** get_num_of_req agrees with what reading delivers. *)
  Theorem c46_count f tp qs ls rd fuel :
    tp_csv tp = false -> (tp_start tp < length f)%nat -> lines_of f ls ->
    (if tp_isnum tp then Forall (fun l => exists n, number_line l n) (nonblank ls)
     else Forall (fun l => 0 ∉ l) ls) ->
    tsetup f tp qs = Ok rd -> (length ls < fuel)%nat ->
    tnum_of_req tof hstr fuel rd tp = Ok (length (limited (tp_cap tp) (nonblank ls))).
  Proof.
    intros Hc Hs Hls HF Hset Hf.
    assert (Hok : Forall (line_ok (tp_isnum tp)) (nonblank ls)).
    { destruct (tp_isnum tp).
      - eapply Forall_impl; [exact HF|]. intros l (n & Hn). by apply number_line_ok in Hn as [? _].
      - apply Forall_forall. intros l [_ Hl]%elem_of_list_filter. by eapply Forall_forall in HF. }
    assert (Hlen : (length (nonblank ls) <= length ls)%nat) by apply filter_length.
    unfold tsetup in Hset. rewrite Hc in Hset. injection Hset as <-.
    unfold tnum_of_req. cbn [t_file t_quarks]. unfold tsetup. rewrite Hc. cbn [rbind t_csv t_file t_start t_pos t_cap t_nread t_fwd t_ign0 t_ignsz t_isnum t_left t_ltime t_quarks].
    pose proof (read_all_txt tof hstr
      (mkT None f (tp_start tp) 0 0 (tp_cap tp) 0 true (tp_ign0 tp)
         (tp_ignsz tp) (tp_isnum tp) 0 (-1) qs) new_req ls fuel) as HR.
    cbn [t_csv t_left t_mmap t_pos t_nread t_file t_isnum t_cap t_quarks t_ignsz] in HR.
    rewrite todo_0 in HR.
    destruct HR as (T & rd' & q' & E & _); try done; [unfold t_size; cbn; lia|unfold t_size; cbn; lia|lia|].
    rewrite E. cbn [rbind]. by rewrite !fmap_length.
  Qed.

  (** After a reset the same object ids come again in the same order, whatever
      the ids are made of. *)
  Theorem c46_replay f tp qs q q2 ls rd fuel :
    tp_csv tp = false -> (tp_start tp < length f)%nat -> lines_of f ls ->
    (if tp_isnum tp then Forall (fun l => exists n, number_line l n) (nonblank ls)
     else Forall (fun l => 0 ∉ l) ls) ->
    tsetup f tp qs = Ok rd -> (length ls < fuel)%nat ->
    exists ids rs rd' q' rs2 rd2 q2',
      tread_all tof hstr fuel rd q = Ok (rs, rd', q') /\
      Forall2 (text_request (tp_ignsz tp) q) ids rs /\
      tread_all tof hstr fuel (treset rd') q2 = Ok (rs2, rd2, q2') /\
      Forall2 (text_request (tp_ignsz tp) q2) ids rs2.
  Proof.
    intros Hc Hs Hls HF Hset Hf.
    assert (Hok : Forall (line_ok (tp_isnum tp)) (nonblank ls)).
    { destruct (tp_isnum tp).
      - eapply Forall_impl; [exact HF|]. intros l (n & Hn). by apply number_line_ok in Hn as [? _].
      - apply Forall_forall. intros l [_ Hl]%elem_of_list_filter. by eapply Forall_forall in HF. }
    assert (Hlen : (length (nonblank ls) <= length ls)%nat) by apply filter_length.
    destruct (c46_forward_gen f tp qs q ls rd fuel)
      as (T & rd' & q' & E & (pos & n & Hrd') & HT & Hin); try done; [lia|].
    unfold tsetup in Hset. rewrite Hc in Hset. injection Hset as <-.
    assert (Hrd1 : treset rd' = mkT None f (tp_start tp) (tp_start tp) 0 (tp_cap tp) 0 true (tp_ign0 tp)
         (tp_ignsz tp) (tp_isnum tp) 0 (-1) T) by (by rewrite Hrd').
    pose proof (read_all_txt tof hstr (treset rd') q2 ls fuel) as HR.
    rewrite Hrd1 in HR.
    cbn [t_csv t_left t_mmap t_pos t_nread t_file t_isnum t_cap t_quarks t_ignsz] in HR.
    rewrite todo_0 in HR.
    destruct HR as (T2 & rd2 & q2' & E2 & _ & HT2 & _); try done; [unfold t_size; cbn; lia|lia|].
    exists (idf (tp_isnum tp) T <$> limited (tp_cap tp) (nonblank ls)).
    eexists _, _, _, _, _, _. split; [exact E|]. split; [apply Forall2_text|].
    split; [rewrite Hrd1; exact E2|].
    assert (idf (tp_isnum tp) T2 <$> limited (tp_cap tp) (nonblank ls)
            = idf (tp_isnum tp) T <$> limited (tp_cap tp) (nonblank ls)) as ->; [|apply Forall2_text].
    apply list_fmap_ext. intros i l Hl. destruct (tp_isnum tp) eqn:Ei; [done|].
    apply idf_prefix; [done|]. exact (Forall_lookup_1 _ _ _ _ (Hin eq_refl) Hl).
  Qed.

  (** ** The cursor *)

  Section textcursor.
    Context (ls : list (list Z)) (tp : tparams) (q0s : list (list Z)).
    Context (Hcsv : tp_csv tp = false) (Hst : tp_start tp = 0%nat)
            (Hclean : Forall clean ls) (Hne : ls <> [])
            (Hok : Forall (line_ok (tp_isnum tp)) ls).

    Local Definition tbase : treader :=
      mkT None (newline_terminated ls) 0 0 0 (tp_cap tp) 0 true (tp_ign0 tp)
         (tp_ignsz tp) (tp_isnum tp) 0 (-1) q0s.
    Local Definition tD (T : list (list Z)) (l : list Z) (q : treq) : treq :=
      txt_req (tp_ignsz tp) q (idf (tp_isnum tp) T l).

    Local Lemma tfile_nil : tfile [] ls = newline_terminated ls.
    Proof. done. Qed.

    Local Lemma nonempty : (0 < length (newline_terminated ls))%nat.
    Proof using All.
      clear -Hne. destruct ls as [|l ls']; [done|]. rewrite nlt_cons, app_length. cbn. lia. Qed.

    Local Lemma tread_text fuel b k n lt qs q :
      ~ (1 < tp_cap tp /\ tp_cap tp <= n) ->
      tread tof hstr (S (S fuel)) (st_at [] ls tbase b k n lt qs) q =
        (let! (rd2, q2, st) := txt_read (st_at [] ls tbase b k (n + 1) lt qs) (prologue q) in
         Ok (rd2, t_sizes tbase q2, st)).
    Proof using All.
      intros Hc. rewrite tread_S.
      assert (t_no_more (st_at [] ls tbase b k n lt qs) = false) as ->.
      { unfold t_no_more. apply orb_false_iff. split.
        - apply Nat.leb_gt. pose proof nonempty. done.
        - cbn. apply andb_false_iff. rewrite Z.ltb_ge, Z.leb_gt. lia. }
      done.
    Qed.

    Local Lemma text_read b k n lt qs q l fuel :
      ls !! k = Some l -> ~ (1 < tp_cap tp /\ tp_cap tp <= n) ->
      exists lt' qs' q',
        tread tof hstr (S (S fuel)) (st_at [] ls tbase b k n lt qs) q
          = Ok (st_at [] ls tbase b (S k) (n + 1) lt' qs', q', 0) /\
        qs `prefix_of` qs' /\ forall T, qs' `prefix_of` T -> q' = tD T l q.
    Proof using All.
      intros Hl Hc. rewrite tread_text by done. unfold txt_read.
      change (t_file (st_at [] ls tbase b k (n + 1) lt qs)) with (tfile [] ls).
      change (t_pos (st_at [] ls tbase b k (n + 1) lt qs)) with (bnd [] ls k).
      cbn [txt_getline]. rewrite (getline_bnd [] ls Hclean k l Hl).
      pose proof (clean_at ls Hclean _ _ Hl) as (Hlen & Hnl & H0).
      assert (l ++ [10] <> [10]) by (destruct l as [|a [|]]; [cbn in Hlen; lia|done..]).
      destruct (decide _); [done|]. cbn [rbind].
      destruct (txt_id_spec (tp_isnum tp) qs l (l ++ [10])) as (v & qs' & E & Hp & _ & HT);
        [by eapply Forall_lookup_1|done|by left|].
      change (t_isnum _) with (tp_isnum tp). change (t_quarks _) with qs.
      rewrite E. cbn [rbind]. eexists lt, qs', _. split_and!; [done|done|].
      intros T HTT. rewrite (HT T HTT). done.
    Qed.

    Local Lemma text_eof b n lt qs q fuel :
      ~ (1 < tp_cap tp /\ tp_cap tp <= n) ->
      exists q', tread tof hstr (S (S fuel)) (st_at [] ls tbase b (length ls) n lt qs) q
        = Ok (st_at [] ls tbase b (length ls) (n + 1) lt qs, q', 1).
    Proof using All.
      intros Hc. rewrite tread_text by done. unfold txt_read.
      change (t_file (st_at [] ls tbase b (length ls) (n + 1) lt qs)) with (tfile [] ls).
      change (t_pos (st_at [] ls tbase b (length ls) (n + 1) lt qs)) with (bnd [] ls (length ls)).
      cbn [txt_getline]. rewrite (getline_bnd_end [] ls Hclean) by done. cbn [rbind].
      eexists. do 3 f_equal.
      assert (bnd [] ls (length ls) = t_size (st_at [] ls tbase b (length ls) (n + 1) lt qs)) as E
        by apply bnd_end.
      by rewrite <-E.
    Qed.

    Local Lemma text_run os b k n lt qs :
      (k <= length ls)%nat ->
      exists rd' l qs', top_run tof hstr tp (st_at [] ls tbase b k n lt qs) os = Ok (rd', l) /\
        qs `prefix_of` qs' /\
        forall T, qs' `prefix_of` T -> tc_run (tD T) (tp_cap tp) ls (mkTC k n) os l.
    Proof using All.
      intros Hk.
      apply (top_run_cursor [] ls Hclean tof hstr tp tbase tD); try done.
      - apply nonempty.
      - intros qs'. unfold tsetup. by rewrite Hcsv, Hst.
      - intros. by apply text_read.
      - intros. by apply text_eof.
    Qed.

    (** reader_set_read_pos(1.0) and go_back_one_req reach the last line. *)
    Local Lemma text_last b k n lt qs q l0 ll c :
      ls = l0 ++ [ll ++ [c]] -> ll <> [] -> is_space c = false ->
      exists lt' qs' q',
        tread_last tof hstr (st_at [] ls tbase b k n lt qs) q
          = Ok (st_at [] ls tbase b (length ls) 1 lt' qs', q') /\
        qs `prefix_of` qs' /\ forall T, qs' `prefix_of` T -> q' = tD T (ll ++ [c]) q.
    Proof using All.
      intros Hls Hll Hc. unfold tread_last.
      change (treset (st_at [] ls tbase b k n lt qs)) with (st_at [] ls tbase b 0 0 lt qs).
      assert (Hlast : ls !! length l0 = Some (ll ++ [c])).
      { rewrite Hls. by rewrite lookup_app_r, Nat.sub_diag by lia. }
      assert (Hlen : length ls = S (length l0)) by (rewrite Hls, app_length; cbn; lia).
      assert (Htake : take (length l0) ls = l0) by (rewrite Hls; apply take_app).
      pose proof (clean_at ls Hclean _ _ Hlast) as (Hl & Hnl & H0).
      rewrite app_length in Hl. cbn [length] in Hl.
      set (N := newline_terminated l0).
      assert (Hf : newline_terminated ls = N ++ ll ++ c :: [10]).
      { rewrite Hls. unfold N. rewrite nlt_app, nlt_cons. cbn. by rewrite <-!app_assoc. }
      assert (Hsz : length (newline_terminated ls) = (length N + length ll + 2)%nat).
      { rewrite Hf, !app_length. cbn. lia. }
      assert (Hsp : tseek_end (st_at [] ls tbase b 0 0 lt qs)
                    = Ok (t_seek (st_at [] ls tbase b 0 0 lt qs) (length N + length ll + 1))).
      { unfold tseek_end. change (t_size _) with (length (newline_terminated ls)).
        change (t_file _) with (newline_terminated ls). rewrite Hsz.
        replace (S (length N + length ll + 2)) with (S (S (length N + length ll + 1))) by lia.
        cbn [back_spaces]. rewrite Hf.
        rewrite lookup_app_r by lia. rewrite lookup_app_r by lia.
        replace (length N + length ll + 2 - 1 - length N - length ll)%nat with 1%nat by lia.
        cbn [lookup list_lookup]. change (is_space 10) with true. cbn match.
        rewrite lookup_app_r by lia. rewrite lookup_app_r by lia.
        replace (length N + length ll + 2 - 1 - 1 - length N - length ll)%nat with 0%nat by lia.
        cbn [lookup list_lookup]. rewrite Hc. cbn [rbind]. do 2 f_equal. lia. }
      rewrite Hsp. cbn [rbind]. unfold tgo_back_one.
      change (t_pos (t_seek _ ?p)) with p. change (t_start _) with 0%nat.
      change (t_file (t_seek _ _)) with (newline_terminated ls).
      rewrite (proj2 (Nat.leb_gt _ _)) by lia.
      assert (Hgb : go_back_loop (S (length N + length ll + 1)) (newline_terminated ls) 0
                 (length N + length ll + 1) (length N + length ll + 1 - 0) 0
               = Ok (length N, 0)).
      { assert (Hnl' : 10 ∉ ll) by set_solver. assert (H0' : 0 ∉ ll) by set_solver.
        assert (1 <= length ll)%nat by (destruct ll; [done|cbn; lia]).
        destruct (decide (l0 = [])) as [E0|E0].
        - assert (EN : N = []) by (unfold N; by rewrite E0). rewrite EN. cbn [length]. rewrite Nat.sub_0_r.
          pose proof (go_back_first (length ll + 1) (newline_terminated ls) [] ll c [10]) as HG.
          cbn [length Nat.add] in HG |- *. apply HG; [rewrite Hf, EN; done|lia|done].
        - destruct (exists_last E0) as (l1 & le & El).
          assert (EN : N = (newline_terminated l1 ++ le) ++ [10]).
          { unfold N. rewrite El, nlt_app, nlt_cons. cbn. by rewrite <-!app_assoc. }
          set (A := newline_terminated l1 ++ le) in EN.
          assert (HA : length N = (length A + 1)%nat) by (rewrite EN, app_length; done).
          rewrite HA. apply (go_back_mid _ _ A ll c [10] 0);
            [|lia|done|lia| |done].
          + rewrite Hf, EN. by rewrite <-!app_assoc.
          + rewrite drop_0. intros Hin.
            apply (nlt_no_nul ls Hclean (length l0)). rewrite Htake. fold N. rewrite EN. set_solver. }
      rewrite Hgb. cbn [rbind].
      assert (HbN : bnd [] ls (length l0) = length N).
      { unfold bnd. rewrite Htake. done. }
      change (t_seek (t_seek (st_at [] ls tbase b 0 0 lt qs) (length N + length ll + 1)) (length N))
        with (t_seek (st_at [] ls tbase b 0 0 lt qs) (length N)).
      rewrite <-HbN.
      change (t_seek (st_at [] ls tbase b 0 0 lt qs) (bnd [] ls (length l0)))
        with (st_at [] ls tbase b (length l0) 0 lt qs).
      unfold read_txt, t_fuel.
      replace (3 * t_size (st_at [] ls tbase b (length l0) 0 lt qs) + 5)%nat
        with (S (S (3 * t_size (st_at [] ls tbase b (length l0) 0 lt qs) + 3))) by lia.
      destruct (text_read b (length l0) 0 lt qs q (ll ++ [c])
                 (3 * t_size (st_at [] ls tbase b (length l0) 0 lt qs) + 3) Hlast)
        as (lt' & qs' & q' & E & Hp & HT); [lia|].
      rewrite E. cbn [rbind].
      exists lt', qs', q'. rewrite Hlen. done.
    Qed.
  End textcursor.

  (** A line has an id; a request for it carries this id. *)
  Definition text_ids (isnum ignsz : bool) (ls : list (list Z)) (idof : list Z -> Z)
    (D : list Z -> treq -> treq) : Prop :=
    (forall l q, text_request ignsz q (idof l) (D l q)) /\
    (isnum = true -> forall l n, l ∈ ls -> number_line l n -> idof l = n) /\
    (isnum = false -> forall l l', l ∈ ls -> l' ∈ ls -> idof l = idof l' -> l = l').

  Lemma tD_ids tp T ls :
    (forall l, l ∈ ls -> l ∈ T) -> text_ids (tp_isnum tp) (tp_ignsz tp) ls (idf (tp_isnum tp) T) (tD tp T).
  Proof.
    intros HT. split_and!.
    - intros l q. apply txt_req_request.
    - intros -> l n _ Hn. apply number_line_ok in Hn as [_ Hn]. unfold idf. by rewrite Hn.
    - intros -> l l' Hl Hl'. apply idf_inj; auto.
  Qed.

  Lemma lines_line_ok tp ls :
    Forall clean ls ->
    (tp_isnum tp = true -> Forall (fun l => exists n, number_line l n) ls) ->
    Forall (line_ok (tp_isnum tp)) ls.
  Proof.
    intros Hcl Hn. destruct (tp_isnum tp).
    - eapply Forall_impl; [by apply Hn|]. intros l (n & H). by apply number_line_ok in H as [? _].
    - eapply Forall_impl; [exact Hcl|]. by intros l (_ & _ & ?).
  Qed.

  (** On a file of lines of 1 to 1022 bytes (no NUL), all ended by newlines, any
      sequence of reading forward or backward, skipping, going back, resetting,
      cloning and changing the direction acts on the reader like on a cursor
      over the lines, and never touches memory out of bounds. *)
  Theorem c46_cursor ls tp qs rd os :
    tp_csv tp = false -> tp_start tp = 0%nat -> ls <> [] -> Forall clean ls ->
    (tp_isnum tp = true -> Forall (fun l => exists n, number_line l n) ls) ->
    tsetup (newline_terminated ls) tp qs = Ok rd ->
    exists rd' l idof D, top_run tof hstr tp rd os = Ok (rd', l) /\
      tc_run D (tp_cap tp) ls (mkTC 0 0) os l /\
      text_ids (tp_isnum tp) (tp_ignsz tp) ls idof D.
  Proof.
    intros Hc Hs Hne Hcl Hn Hset. pose proof (lines_line_ok tp ls Hcl Hn) as Hok.
    destruct (text_run ls tp qs Hc Hs Hcl Hne Hok os true 0 0 (-1) qs) as (rd' & l & qs' & E & _ & HT); [lia|].
    assert (rd = st_at [] ls (tbase ls tp qs) true 0 0 (-1) qs) as ->.
    { unfold tsetup in Hset. rewrite Hc, Hs in Hset. by injection Hset as <-. }
    exists rd', l, (idf (tp_isnum tp) (qs' ++ ls)), (tD tp (qs' ++ ls)). split_and!; [done| |].
    - apply HT. by apply prefix_app_r.
    - apply tD_ids. set_solver.
  Qed.

  (** read_last_req delivers the last line if that has at least two bytes and
      no white space at its end; the reader then stands at the end of the file. *)
  Theorem c46_last ls0 ll c tp qs rd q os :
    tp_csv tp = false -> tp_start tp = 0%nat ->
    let ls := ls0 ++ [ll ++ [c]] in
    ll <> [] -> is_space c = false -> Forall clean ls ->
    (tp_isnum tp = true -> Forall (fun l => exists n, number_line l n) ls) ->
    tsetup (newline_terminated ls) tp qs = Ok rd ->
    exists rd1 q1 rd' l idof D,
      tread_last tof hstr rd q = Ok (rd1, q1) /\ q1 = D (ll ++ [c]) q /\
      top_run tof hstr tp rd1 os = Ok (rd', l) /\
      tc_run D (tp_cap tp) ls (mkTC (length ls) 1) os l /\
      text_ids (tp_isnum tp) (tp_ignsz tp) ls idof D.
  Proof.
    intros Hc Hs ls Hll Hsp Hcl Hn Hset.
    assert (Hne : ls <> []) by (unfold ls; by destruct ls0).
    pose proof (lines_line_ok tp ls Hcl Hn) as Hok.
    assert (rd = st_at [] ls (tbase ls tp qs) true 0 0 (-1) qs) as ->.
    { unfold tsetup in Hset. rewrite Hc, Hs in Hset. by injection Hset as <-. }
    destruct (text_last ls tp qs Hc Hs Hcl Hne Hok true 0 0 (-1) qs q ls0 ll c)
      as (lt1 & qs1 & q1 & E1 & Hp1 & HT1); [done..|].
    destruct (text_run ls tp qs Hc Hs Hcl Hne Hok os true (length ls) 1 lt1 qs1)
      as (rd' & l & qs' & E & Hp & HT); [lia|].
    exists (st_at [] ls (tbase ls tp qs) true (length ls) 1 lt1 qs1), q1, rd', l,
      (idf (tp_isnum tp) (qs' ++ ls)), (tD tp (qs' ++ ls)). split_and!; [done| |done| |].
    - apply HT1. etransitivity; [exact Hp|]. by apply prefix_app_r.
    - apply HT. by apply prefix_app_r.
    - apply tD_ids. set_solver.
  Qed.

  (** Reading backward from the end of the file with read_one_req_above
      delivers the lines before the last one in reverse order, then none. *)
  Lemma cursor_backward (D : list Z -> treq -> treq) cap ls q k n l :
    cap <= 1 -> (1 <= k <= length ls)%nat ->
    tc_run D cap ls (mkTC k n) (replicate k (TAbove q)) l ->
    l = ((fun x => TReq (Some (D x q))) <$> reverse (take (k - 1) ls)) ++ [TReq None].
  Proof.
    intros Hcap. revert n l. induction k as [|k IH]; intros n l Hk Hr; [lia|].
    destruct l as [|a l]; [done|]. cbn [replicate tc_run] in Hr.
    destruct Hr as ([k' n'] & Hs & Hr). cbn in Hs.
    destruct Hs as (b & [k1 n1] & (E1 & -> & E2) & Hs). cbn in E1, E2. subst n1 k1.
    destruct (decide (2 <= S k)%nat) as [H2|H2].
    - rewrite bool_decide_true in Hs by (cbn; lia). destruct Hs as (r & Hrd & ->).
      unfold tc_read in Hrd. rewrite decide_False in Hrd by lia.
      cbn [tc_pos tc_cnt] in Hrd. destruct Hrd as (-> & -> & ->).
      rewrite Nat.min_l in Hr by lia.
      replace (S (k - 1)) with k in Hr by lia.
      destruct (lookup_lt_is_Some_2 ls (k - 1)) as [x Hx]; [lia|].
      apply IH in Hr; [|lia]. rewrite Hr, Hx. cbn [fmap option_fmap option_map].
      replace (S k - 1)%nat with (S (k - 1)) by lia.
      rewrite (take_S_r _ _ _ Hx), reverse_app. done.
    - rewrite bool_decide_false in Hs by (cbn; lia). destruct Hs as [-> _].
      assert (k = 0%nat) as -> by lia. cbn in Hr. destruct l; [|done]. done.
  Qed.

  Theorem c46_backward ls0 ll c tp qs rd q q2 :
    tp_csv tp = false -> tp_start tp = 0%nat -> tp_cap tp <= 1 ->
    let ls := ls0 ++ [ll ++ [c]] in
    ll <> [] -> is_space c = false -> Forall clean ls ->
    (tp_isnum tp = true -> Forall (fun l => exists n, number_line l n) ls) ->
    tsetup (newline_terminated ls) tp qs = Ok rd ->
    exists rd1 q1 rd' idof D,
      tread_last tof hstr rd q = Ok (rd1, q1) /\ q1 = D (ll ++ [c]) q /\
      top_run tof hstr tp rd1 (replicate (length ls) (TAbove q2))
        = Ok (rd', ((fun x => TReq (Some (D x q2))) <$> reverse ls0) ++ [TReq None]) /\
      text_ids (tp_isnum tp) (tp_ignsz tp) ls idof D.
  Proof.
    intros Hc Hs Hcap ls Hll Hsp Hcl Hn Hset.
    destruct (c46_last ls0 ll c tp qs rd q (replicate (length ls) (TAbove q2)) Hc Hs Hll Hsp Hcl Hn Hset)
      as (rd1 & q1 & rd' & l & idof & D & E1 & Hq1 & E & Hr & HD).
    apply cursor_backward in Hr; [|done|unfold ls; rewrite app_length; cbn; lia].
    exists rd1, q1, rd', idof, D. split_and!; [done|done| |done].
    fold ls in E. rewrite E, Hr. do 4 f_equal. f_equal. f_equal.
    unfold ls. rewrite app_length. cbn. replace (length ls0 + 1 - 1)%nat with (length ls0) by lia.
    by rewrite take_app.
  Qed.
End c46.

(** ** Concrete cases *)

Definition bytes (s : string) : list Z :=
  (fun a => Z.of_nat (nat_of_ascii a)) <$> list_ascii_of_string s.
Definition file (ls : list string) : list Z := newline_terminated (bytes <$> ls).
Definition noz : list Z -> Z := fun _ => 0.

(** A plain-text trace with numeric ids, no limit. *)
Definition numtrace (cap : Z) : tparams :=
  mkTP false 0 0 0 0 None 0 0 cap false false true.
Definition strtrace (cap : Z) : tparams :=
  mkTP false 0 0 0 0 None 0 0 cap false false false.

Definition setup (f : list Z) (tp : tparams) : treader :=
  match tsetup f tp [] with
  | Ok rd => rd
  | Err _ => mkT None [] 0 0 0 0 0 true false false false 0 0 []
  end.

Definition ids_of (r : res (list treq * treader * treq)) : res (list (option Z)) :=
  match r with Ok (l, _, _) => Ok ((.!! F_ID) <$> l) | Err e => Err e end.

Lemma is_decimal ds :
  ds <> [] -> forallb is_digit ds = true ->
  (match ds with 48 :: _ :: _ => false | _ => true end) = true ->
  (foldl (fun a c => 10 * a + (c - 48)) 0 ds <? 2 ^ 64) = true ->
  decimal ds (foldl (fun a c => 10 * a + (c - 48)) 0 ds).
Proof.
  intros H1 H2 H3 H4%Z.ltb_lt.
  assert (HF : Forall (fun c => 48 <= c <= 57) ds).
  { apply Forall_forall. intros c Hc. apply elem_of_list_In in Hc.
    rewrite forallb_forall in H2. apply H2 in Hc. unfold is_digit in Hc.
    apply andb_true_iff in Hc as [A B]. apply Z.leb_le in A, B. done. }
  split_and!; [done|done| |done| |done].
  - destruct ds as [|c ds]; [done|]. cbn. intros [= ->]. by destruct ds.
  - clear -HF. assert (G : forall a, 0 <= a -> 0 <= foldl (fun a c => 10 * a + (c - 48)) a ds).
    { induction HF as [|c ds Hc HF IH]; cbn; [done|]. intros a Ha. apply IH. lia. }
    by apply G.
Qed.

(** "12", a blank line, "7" CR, "12" without newline at the end; limit 3, then 2. *)
Definition f1 : list Z := file ["12"; ""] ++ bytes "7" ++ [13; 10] ++ bytes "12".

Example c46_forward_numbers_ex :
  lines_of f1 [bytes "12"; []; bytes "7" ++ [13]; bytes "12"] /\
  Forall2 number_line (nonblank [bytes "12"; []; bytes "7" ++ [13]; bytes "12"]) [12; 7; 12] /\
  ids_of (tread_all noz noz 9 (setup f1 (numtrace 0)) new_req) = Ok [Some 12; Some 7; Some 12] /\
  ids_of (tread_all noz noz 9 (setup f1 (numtrace 2)) new_req) = Ok [Some 12; Some 7].
Proof.
  split_and!; [| |by vm_compute..].
  - split; [repeat constructor; cbn; set_solver by lia|]. right.
    exists [bytes "12"; []; bytes "7" ++ [13]], (bytes "12"). done.
  - change (nonblank _) with [bytes "12"; bytes "7" ++ [13]; bytes "12"].
    repeat constructor.
    + exists (bytes "12"). split; [|by left]. by apply (is_decimal (bytes "12")).
    + exists (bytes "7"). split; [|by right]. by apply (is_decimal (bytes "7")).
    + exists (bytes "12"). split; [|by left]. by apply (is_decimal (bytes "12")).
Qed.

Example c46_forward_strings_ex :
  ids_of (tread_all noz noz 9 (setup (file ["ab"; "c"; ""; "ab"; "d"]) (strtrace 0)) new_req)
    = Ok [Some 1; Some 2; Some 1; Some 3] /\
  same_pattern [1; 2; 1; 3] (bytes <$> ["ab"; "c"; "ab"; "d"]).
Proof.
  split; [by vm_compute|]. split; [done|].
  intros i j a b c d.
  destruct i as [|[|[|[|i]]]]; cbn; try done; destruct j as [|[|[|[|j]]]]; cbn; try done;
    intros [= <-] [= <-] [= <-] [= <-]; split; done.
Qed.

Example c46_count_ex :
  tnum_of_req noz noz 9 (setup f1 (numtrace 0)) (numtrace 0) = Ok 3%nat /\
  tnum_of_req noz noz 9 (setup f1 (numtrace 2)) (numtrace 2) = Ok 2%nat.
Proof. by vm_compute. Qed.

Example c46_replay_ex :
  match tread_all noz noz 9 (setup (file ["ab"; "c"; "ab"]) (strtrace 0)) new_req with
  | Ok (_, rd, q) => ids_of (tread_all noz noz 9 (treset rd) q)
  | Err e => Err e
  end = Ok [Some 1; Some 2; Some 1].
Proof. by vm_compute. Qed.

Definition answers (r : res (treader * list tans)) : res (list (option Z)) :=
  match r with
  | Ok (_, l) => Ok ((fun a => match a with
                       | TReq (Some q) => q !! F_ID
                       | TReq None => None
                       | TBool b => Some (if b then 1 else 0)
                       | TNum n => Some (Z.of_nat n)
                       | TUnit => None
                       end) <$> l)
  | Err e => Err e
  end.

Example c46_cursor_ex :
  Forall clean (bytes <$> ["12"; "7"; "30"]) /\
  answers (top_run noz noz (numtrace 0) (setup (file ["12"; "7"; "30"]) (numtrace 0))
    [TRead ∅; TRead ∅; TBack; TRead ∅; TAbove ∅; TSkip 5; TAbove ∅; TBack2; TClone; TRead ∅])
  = Ok [Some 12; Some 7; Some 1; Some 7; Some 12; Some 2; Some 7; Some 1; None; Some 12].
Proof.
  split; [|by vm_compute].
  repeat constructor; cbn; try lia; set_solver by lia.
Qed.

Example c46_last_ex :
  match tread_last noz noz (setup (file ["1"; "2"; "30"]) (numtrace 0)) new_req with
  | Ok (rd, q) => (q !! F_ID, answers (top_run noz noz (numtrace 0) rd
                     (replicate 3 (TAbove ∅))))
  | Err e => (None, Err e)
  end = (Some 30, Ok [Some 2; Some 1; None]).
Proof. by vm_compute. Qed.

(** ** What does not hold *)

(** Ids with a leading zero are read as octal numbers: "010" is object 8, and
    "010" and "8" are the same object. *)
Theorem c46_leading_zero_refuted :
  exists l1 l2, l1 <> l2 /\ Forall (fun c => 48 <= c <= 57) (l1 ++ l2) /\
    foldl (fun a c => 10 * a + (c - 48)) 0 l1 = 10 /\
    foldl (fun a c => 10 * a + (c - 48)) 0 l2 = 8 /\
    ids_of (tread_all noz noz 9 (setup (newline_terminated [l1; l2]) (numtrace 0)) new_req)
      = Ok [Some 8; Some 8].
Proof.
  exists (bytes "010"), (bytes "8"). split_and!; [done| |by vm_compute..].
  change (bytes "010" ++ bytes "8") with [48; 49; 48; 56]. repeat constructor; lia.
Qed.

(** A line of blanks ends the program although empty lines are fine. *)
Theorem c46_blank_line_refuted :
  ids_of (tread_all noz noz 9 (setup (file ["1"; ""; "2"]) (numtrace 0)) new_req) = Ok [Some 1; Some 2] /\
  ids_of (tread_all noz noz 9 (setup (file ["1"; " "; "2"]) (numtrace 0)) new_req) = Err AssertFail.
Proof. by vm_compute. Qed.

(** Skipping counts blank lines, which reading does not: after skipping one of
    the requests 1, 2, 3 the next one need not be 2. *)
Theorem c46_skip_refuted :
  exists f, ids_of (tread_all noz noz 9 (setup f (numtrace 0)) new_req) = Ok [Some 1; Some 2; Some 3] /\
    answers (top_run noz noz (numtrace 0) (setup f (numtrace 0)) [TSkip 2; TRead ∅])
      = Ok [Some 2; Some 2].
Proof. exists (file ["1"; ""; "2"; "3"]). by vm_compute. Qed.

(** read_last_req gives the last line but one if the last one has one byte. *)
Theorem c46_last_refuted :
  exists f, ids_of (tread_all noz noz 9 (setup f (numtrace 0)) new_req) = Ok [Some 1; Some 2; Some 3] /\
    match tread_last noz noz (setup f (numtrace 0)) new_req with
    | Ok (_, q) => q !! F_ID = Some 2
    | Err _ => False
    end.
Proof. exists (file ["1"; "2"; "3"]). by vm_compute. Qed.

(** Going back over a blank line at the start of the file writes before the
    line buffer. *)
Theorem c46_back_refuted :
  exists f, ids_of (tread_all noz noz 9 (setup f (numtrace 0)) new_req) = Ok [Some 12] /\
    answers (top_run noz noz (numtrace 0) (setup f (numtrace 0)) [TRead ∅; TBack; TBack])
      = Err OutOfBounds.
Proof. exists (file [""; "12"]). by vm_compute. Qed.

(** Going back from behind a line of more than 1022 bytes does not return to
    its start: reading again delivers something else. *)
Theorem c46_long_line_refuted :
  exists l, length l = 1500%nat /\ 10 ∉ l /\ 0 ∉ l /\
    match top_run noz noz (strtrace 0) (setup (newline_terminated [bytes "ab"; l]) (strtrace 0))
            [TRead ∅; TRead ∅; TBack; TRead ∅] with
    | Ok (_, [TReq (Some a); TReq (Some b); TBool true; TReq (Some c)]) =>
        b !! F_ID <> c !! F_ID
    | _ => False
    end.
Proof.
  exists (replicate 1500 65). split_and!; [by rewrite replicate_length| | |].
  - intros H. apply elem_of_replicate in H as [? _]. done.
  - intros H. apply elem_of_replicate in H as [? _]. done.
  - vm_compute. discriminate.
Qed.

(** trace_start_offset does not move the start of a text trace. *)
Theorem c46_start_offset_refuted :
  exists f tp, tp_start tp = 2%nat /\ take 2 f = bytes "1" ++ [10] /\
    ids_of (tread_all noz noz 9 (setup f tp) new_req) = Ok [Some 1; Some 2; Some 3].
Proof.
  exists (file ["1"; "2"; "3"]), (mkTP false 0 0 0 0 None 0 2 0 false false true).
  by vm_compute.
Qed.

(** On a file of white space, looking for the last request does not end. *)
Theorem c46_last_nonterm_refuted :
  exists f, f <> [] /\ forall fuel q,
    back_spaces fuel f (length f) = Err NonTerm /\
    tread_last noz noz (setup f (numtrace 0)) q = Err NonTerm.
Proof.
  exists (file [""; ""]). split; [done|]. intros fuel q. split; [|by vm_compute].
  assert (H0 : forall fuel, back_spaces fuel (file [""; ""]) 0 = Err NonTerm).
  { intros fl. induction fl as [|fl IH]; [done|]. exact IH. }
  destruct fuel as [|[|fuel]]; [done..|]. exact (H0 fuel).
Qed.

(** read_first_req saves and restores mmap_offset, so that a binary trace is
    read on from where it was; a text reader it leaves behind the first line. *)
Theorem c46_first_refuted :
  exists f, match top_run noz noz (numtrace 0) (setup f (numtrace 0)) [TRead ∅; TRead ∅] with
    | Ok (rd, _) =>
        match tread_first noz noz rd ∅ with
        | Ok (rd1, q) => q !! F_ID = Some 1 /\
            answers (top_run noz noz (numtrace 0) rd [TRead ∅]) = Ok [Some 3] /\
            answers (top_run noz noz (numtrace 0) rd1 [TRead ∅]) = Ok [Some 2]
        | Err _ => False
        end
    | Err _ => False
    end.
Proof. exists (file ["1"; "2"; "3"; "4"]). by vm_compute. Qed.

(** * C47: csv traces *)

Section c47.
  Context (tof hstr : list Z -> Z).

  (** [r] is the request of a row with the fields [fs] delivered into a buffer
      that held [q]; [tof] and [hstr] are strtod (truncated to a time) and the
      hash of textual ids.  Fields that the parameters do not name, or that the
      row does not have, keep the value of the buffer. *)
  Definition csv_request (tp : tparams) (fs : list (list Z)) (q r : treq) : Prop :=
    r !! F_ID = match field fs (tp_id tp) with
                | Some s => Some (if tp_isnum tp then dec_value s else u64 (hstr s))
                | None => q !! F_ID
                end /\
    r !! F_TIME = match field fs (tp_time tp) with Some s => Some (tof s) | None => q !! F_TIME end /\
    r !! F_SIZE = (if tp_ignsz tp then Some 1 else
                   match field fs (tp_size tp) with
                   | Some s => Some (dec_value s)
                   | None => q !! F_SIZE
                   end) /\
    r !! F_VALID = Some 1 /\
    forall k, k ∉ [F_ID; F_TIME; F_SIZE; F_VALID; F_HV; F_TTL] -> r !! k = q !! k.

  Lemma csv_req_request tp fs q :
    csv_request tp fs q (sized tp (csv_req tof hstr tp fs (prologue q))).
  Proof.
    unfold csv_request, sized, csv_req, prologue.
    destruct (tp_ignsz tp), (field fs (tp_id tp)), (field fs (tp_time tp)), (field fs (tp_size tp));
      split_and!.
    all: try (intros k Hk; rewrite !lookup_insert_ne by set_solver; done).
    all: repeat first [rewrite lookup_insert; done | rewrite lookup_insert_ne by done].
    all: done.
  Qed.

  (** ** Setting up *)

  Definition occurrences (c : Z) (l : list Z) : Z := Z.of_nat (length (filter (fun x => x = c) l)).

  (** The delimiters that are looked for, the preferred ones first, and their
      weights. *)
  Definition candidates : list (Z * Z) := [(9, 4); (44, 3); (124, 2); (58, 1)].

  Lemma best_delim_spec s cands max d :
    let r := best_delim s cands max d in
    (r = d /\ Forall (fun '(c, w) => count_occ s c * w <= max) cands) \/
    (exists i c w, cands !! i = Some (c, w) /\ r = c /\ max < count_occ s c * w /\
       forall j c' w', cands !! j = Some (c', w') ->
         count_occ s c' * w' <= count_occ s c * w /\
         ((j < i)%nat -> count_occ s c' * w' < count_occ s c * w)).
  Proof.
    revert max d. induction cands as [|[c w] cands IH]; intros max d; cbn [best_delim].
    - left. done.
    - destruct (Z.ltb_spec max (count_occ s c * w)) as [H|H].
      + destruct (IH (count_occ s c * w) c) as [[E HF]|(i & c1 & w1 & Hi & E & Hm & HB)].
        * right. exists 0%nat, c, w. split_and!; [done|exact E|done|].
          intros [|j] c' w' Hj; cbn in Hj; [injection Hj as <- <-; split; lia|].
          eapply Forall_lookup_1 in HF; [|exact Hj]. cbn in HF. split; lia.
        * right. exists (S i), c1, w1. split_and!; [done|exact E|lia|].
          intros [|j] c' w' Hj; cbn in Hj; [injection Hj as <- <-; split; lia|].
          destruct (HB j c' w' Hj). split; [done|]. intros; auto with lia.
      + destruct (IH max d) as [[E HF]|(i & c1 & w1 & Hi & E & Hm & HB)].
        * left. split; [exact E|]. constructor; done.
        * right. exists (S i), c1, w1. split_and!; [done|exact E|lia|].
          intros [|j] c' w' Hj; cbn in Hj; [injection Hj as <- <-; split; lia|].
          destruct (HB j c' w' Hj). split; [done|]. intros; auto with lia.
  Qed.

  Lemma count_occ_line l l' c : l' = l ++ [10] \/ l' = l -> c <> 10 -> count_occ l' c = occurrences c l.
  Proof.
    intros [-> | ->] Hc; [|done]. unfold count_occ, occurrences.
    rewrite filter_app, filter_cons_False by done. by rewrite app_nil_r.
  Qed.

  Lemma countb_line p l l' : l' = l ++ [10] \/ l' = l -> p 10 = false -> countb p l' = countb p l.
  Proof.
    intros [-> | ->] Hp; [|done]. unfold countb.
    rewrite filter_app, filter_cons_False by congruence. by rewrite app_nil_r.
  Qed.

  (** What setup_reader decides about a csv file whose first line is [l0]: the
      delimiter is the given one, which the line must contain, or else the
      candidate with the highest weighted number of occurrences in it (the
      earliest of them); the file has a header if the parameters say so, or
      else unless the line has more digits than letters. *)
  Theorem c47_setup f tp qs l0 ls rd :
    tp_csv tp = true -> lines_of f (l0 :: ls) -> 0 ∉ l0 ->
    tsetup f tp qs = Ok rd ->
    exists d h, t_csv rd = Some (cp tp d h) /\
      (tp_delim tp <> 0 -> d = tp_delim tp /\ d ∈ l0 ++ [10]) /\
      (tp_delim tp = 0 -> exists i w, candidates !! i = Some (d, w) /\ d ∈ l0 /\
         forall j c v, candidates !! j = Some (c, v) ->
           occurrences c l0 * v <= occurrences d l0 * w /\
           ((j < i)%nat -> occurrences c l0 * v < occurrences d l0 * w)) /\
      (forall b, tp_hdr tp = Some b -> h = b) /\
      (tp_hdr tp = None -> h = true <-> ~ countb is_letter l0 < countb is_digit l0).
  Proof.
    intros Hc Hls H0 Hset. unfold tsetup in Hset. rewrite Hc in Hset.
    destruct (csv_setup f tp) as [[[c start] pos]|] eqn:Ecs; cbn [rbind] in Hset; [|done].
    injection Hset as <-. cbn [t_csv].
    assert (Hls' : lines_of (drop 0 f) (l0 :: ls)) by (by rewrite drop_0).
    destruct (getline_some f 0 l0 ls Hls') as (l' & Hl' & Hg & Hp & Hr).
    assert (Hl'' : l' = l0 ++ [10] \/ l' = l0) by naive_solver.
    assert (Hcs : cstr l' = l') by (apply cstr_id; destruct Hl'' as [-> | ->]; set_solver).
    unfold csv_setup in Ecs. unfold detect_delim, detect_header in Ecs.
    assert (Hfl : first_line f = Ok l' \/ first_line f = Err OutOfBounds).
    { unfold first_line. rewrite Hg. destruct (1024 <=? length l')%nat; auto. }
    destruct (if tp_delim tp =? 0 then _ else _) as [d|] eqn:Ed; cbn [rbind] in Ecs; [|done].
    destruct (match tp_hdr tp with Some _ => _ | None => _ end) as [h|] eqn:Eh; cbn [rbind] in Ecs; [|done].
    rewrite Hg, Hcs in Ecs.
    destruct ((tp_delim tp =? 0) || bool_decide (tp_delim tp ∈ l')) eqn:Eck; [|done].
    injection Ecs as <- _ _. exists d, h. split_and!; [done| | | |].
    - intros Hd. apply Z.eqb_neq in Hd. rewrite Hd in Ed, Eck. injection Ed as <-. split; [done|].
      cbn in Eck. apply bool_decide_eq_true in Eck. destruct Hl'' as [-> | ->]; [done|set_solver].
    - intros Hd. apply Z.eqb_eq in Hd. rewrite Hd in Ed.
      destruct Hfl as [E|E]; rewrite E in Ed; cbn [rbind] in Ed; [|done]. rewrite Hcs in Ed.
      pose proof (best_delim_spec l' candidates 0 0) as HB. fold candidates in Ed.
      set (B := best_delim l' candidates 0 0) in *. clearbody B.
      destruct (B =? 0) eqn:Ez; [done|]. injection Ed as Ed.
      destruct HB as [[E0 _]|(i & c & w & Hi & Er & Hm & HB)].
      + rewrite E0 in Ez. done.
      + assert (Hcand : forall j c' v, candidates !! j = Some (c', v) -> c' <> 10 /\ 0 < v).
        { intros [|[|[|[|j]]]] c' v; cbn; try done; intros [= <- <-]; lia. }
        assert (d = c) as -> by congruence.
        destruct (Hcand _ _ _ Hi) as [Hc10 Hw].
        exists i, w. rewrite <-(count_occ_line l0 l' c) by done. split_and!; [done| |].
        * assert (0 < count_occ l' c) as Hpos by nia.
          rewrite (count_occ_line l0 l' c) in Hpos by done. unfold occurrences in Hpos.
          destruct (filter (fun x => x = c) l0) as [|y t] eqn:Ef; [cbn in Hpos; lia|].
          assert (Hy : y ∈ filter (fun x => x = c) l0) by (rewrite Ef; by left).
          by apply elem_of_list_filter in Hy as [-> ?].
        * intros j c' v Hj. destruct (Hcand _ _ _ Hj) as [Hc10' _].
          rewrite <-(count_occ_line l0 l' c') by done. by apply HB.
    - intros b Hb. rewrite Hb in Eh. by injection Eh.
    - intros Hb. rewrite Hb in Eh. destruct Hfl as [E|E]; rewrite E in Eh; cbn [rbind] in Eh; [|done].
      injection Eh as <-. rewrite !(countb_line _ l0 l') by done.
      rewrite negb_true_iff, Z.ltb_ge. lia.
  Qed.

  (** The shape of a freshly set up csv reader. *)
  Lemma setup_state f tp qs l0 ls rd d h :
    tp_csv tp = true -> lines_of f (l0 :: ls) ->
    tsetup f tp qs = Ok rd -> t_csv rd = Some (cp tp d h) ->
    exists p, lines_of (drop p f) ls /\ (p <= length f)%nat /\ (exists l', getline f 0 = Some (l', p)) /\
      rd = mkT (Some (cp tp d h)) f (if h then p else tp_start tp) (tp_start tp)
             (if h then p else O) (tp_cap tp) 0 true (tp_ign0 tp) (tp_ignsz tp) (tp_isnum tp)
             0 (-1) qs.
  Proof.
    intros Hc Hls Hset Hd. unfold tsetup in Hset. rewrite Hc in Hset.
    destruct (csv_setup f tp) as [[[c start] pos]|] eqn:Ecs; cbn [rbind] in Hset; [|done].
    injection Hset as <-. cbn [t_csv] in Hd. injection Hd as ->.
    assert (Hls' : lines_of (drop 0 f) (l0 :: ls)) by (by rewrite drop_0).
    destruct (getline_some f 0 l0 ls Hls') as (l' & Hl' & Hg & Hp & Hr).
    unfold csv_setup in Ecs.
    destruct (if tp_delim tp =? 0 then _ else _) as [d'|] eqn:Ed; cbn [rbind] in Ecs; [|done].
    destruct (match tp_hdr tp with Some _ => _ | None => _ end) as [h'|] eqn:Eh; cbn [rbind] in Ecs; [|done].
    rewrite Hg in Ecs. destruct (_ || _); [|done]. injection Ecs as -> -> <- <-.
    exists (0 + length l')%nat. split_and!; [done|done|by eexists|done].
  Qed.

  (** ** Reading forward *)

  (** Reading a csv file from its start delivers exactly the requests of its
      rows, in order: a row delivers nothing if its size is 0 and the reader is
      told to ignore such rows, and otherwise as many requests as its count
      field says.  Fields may be quoted and padded with blanks, and lines may
      end in CR LF; [rows] are the field texts.  A limit on the number of
      requests is exact if the trace has no count field. *)
  Theorem c47_forward f tp qs q hl ls rows rd d h fuel :
    tp_csv tp = true -> (tp_start tp < length f)%nat ->
    tsetup f tp qs = Ok rd -> t_csv rd = Some (cp tp d h) ->
    lines_of f (if h then hl :: ls else ls) ->
    delim_ok d -> fields_differ tp ->
    Forall2 (csv_text d) rows ls -> Forall (row_ok tp) rows ->
    (1 < tp_cap tp -> tp_cnt tp < 1) -> is_Some (q !! F_TIME) ->
    let out := limited (tp_cap tp) (csv_requests tof hstr tp rows q) in
    (length out < fuel)%nat ->
    exists rd' q', tread_all tof hstr fuel rd q = Ok (out, rd', q').
  Proof.
    intros Hc Hs Hset Hd Hls Hdok Hdf HF Hok Hcap Hq out Hf.
    assert (Hst : exists pos, lines_of (drop pos f) ls /\ (pos <= length f)%nat /\
      exists start, rd = mkT (Some (cp tp d h)) f start (tp_start tp) pos (tp_cap tp) 0 true
             (tp_ign0 tp) (tp_ignsz tp) (tp_isnum tp) 0 (-1) qs).
    { destruct h.
      - destruct (setup_state f tp qs hl ls rd d true Hc Hls Hset Hd) as (p & Hp & Hle & _ & ->).
        exists p. split_and!; [done|done|by eexists].
      - destruct ls as [|l0 ls].
        { apply lines_of_nil in Hls as ->. cbn in Hs. lia. }
        destruct (setup_state f tp qs l0 ls rd d false Hc Hls Hset Hd) as (p & Hp & Hle & _ & ->).
        exists 0%nat. rewrite drop_0. split_and!; [done|lia|by eexists]. }
    destruct Hst as (pos & Hls' & Hle & start & ->).
    pose proof (tread_all_csv tof hstr tp d h fuel
      (mkT (Some (cp tp d h)) f start (tp_start tp) pos (tp_cap tp) 0 true
             (tp_ign0 tp) (tp_ignsz tp) (tp_isnum tp) 0 (-1) qs) q rows ls) as HR.
    cbn [t_csv t_left t_mmap t_pos t_nread t_file t_isnum t_cap t_quarks t_ignsz t_ltime t_fwd] in HR.
    change (Z.to_nat 0) with O in HR. cbn [replicate app] in HR.
    rewrite todo_0 in HR. fold (csv_requests tof hstr tp rows q) in HR.
    destruct HR as (rd' & q' & E & _); try done.
    - intros H. split; [auto|done].
    - by exists rd', q'.
  Qed.

  (** ** The cursor *)

  Section csvcursor.
    Context (hl : list Z) (ls : list (list Z)) (rows : list (list (list Z))) (tp : tparams)
            (d : Z) (h : bool) (q0s : list (list Z)).
    Let hdr : list Z := if h then hl ++ [10] else [].
    Let f : list Z := hdr ++ newline_terminated ls.
    Context (base : treader) (Hcsv : tp_csv tp = true) (Hst : tp_start tp = 0%nat)
            (Hclean : Forall clean ls) (Hhl : 10 ∉ hl)
            (Hset : tsetup f tp q0s = Ok base) (Hd : t_csv base = Some (cp tp d h))
            (Hdok : delim_ok d) (Hdf : fields_differ tp)
            (HF : Forall2 (csv_text d) rows ls) (Hok : Forall (row_ok tp) rows)
            (Hcnt : tp_cnt tp < 1)
            (Hnz : tp_ign0 tp = true ->
               Forall (fun fs => exists s, field fs (tp_size tp) = Some s /\ dec_value s <> 0) rows).

    Local Definition csv_base (qs : list (list Z)) : treader :=
      mkT (Some (cp tp d h)) f (length hdr) 0 (length hdr) (tp_cap tp) 0 true (tp_ign0 tp)
         (tp_ignsz tp) (tp_isnum tp) 0 (-1) qs.

    Local Lemma csv_lines : lines_of f (if h then hl :: ls else ls).
    Proof using Hclean Hhl.
      clear -Hclean Hhl.
      assert (H10 : Forall (fun l => 10 ∉ l) ls).
      { eapply Forall_impl; [exact Hclean|]. by intros l (_ & ? & _). }
      unfold f, hdr. destruct h.
      - split; [by constructor|]. left. rewrite nlt_cons. by rewrite <-app_assoc.
      - split; [done|]. by left.
    Qed.

    Local Lemma f_first : f <> [].
    Proof using Hset Hcsv.
      clear -Hset Hcsv. intros E. rewrite E in Hset. unfold tsetup in Hset. rewrite Hcsv in Hset.
      unfold csv_setup, detect_delim, detect_header, first_line in Hset.
      destruct (tp_delim tp =? 0); [done|]. by destruct (tp_hdr tp).
    Qed.

    Local Lemma getline_hdr : h = true -> getline f 0 = Some (hl ++ [10], length hdr).
    Proof using Hhl.
      clear -Hhl. intros Eh. unfold getline, f, hdr. rewrite Eh, drop_0, <-app_assoc. cbn [app].
      rewrite take_line_nl by done. by destruct hl.
    Qed.

    Local Lemma hdr_nil : h = false -> length hdr = 0%nat.
    Proof using. unfold hdr. intros E. by rewrite E. Qed.

    Local Lemma setup_base qs : tsetup f tp qs = Ok (csv_base qs).
    Proof using All.
      pose proof f_first as Hne. unfold tsetup in Hset |- *. rewrite Hcsv in Hset |- *.
      destruct (csv_setup f tp) as [[[c start] pos]|] eqn:Ecs; cbn [rbind] in Hset |- *; [|done].
      assert (Ec : c = cp tp d h) by (injection Hset as Hb; rewrite <-Hb in Hd; by injection Hd).
      subst c. clear Hset. unfold csv_setup in Ecs.
      destruct (if tp_delim tp =? 0 then _ else _) as [d'|] eqn:Ed; cbn [rbind] in Ecs; [|done].
      destruct (match tp_hdr tp with Some _ => _ | None => _ end) as [h'|] eqn:Eh; cbn [rbind] in Ecs; [|done].
      destruct (getline f 0) as [[l' p]|] eqn:Eg; [|done].
      destruct (_ || _); [|done]. injection Ecs as -> -> <- <-.
      assert (Hp : (if h then p else 0%nat) = length hdr).
      { pose proof getline_hdr as G. destruct h; [|done]. rewrite G in Eg by done. congruence. }
      unfold csv_base. rewrite Hst, Hp. done.
    Qed.

    Local Definition csv_D (T : list (list Z)) (l : list Z) (q : treq) : treq :=
      sized tp (csv_line tof hstr (cp tp d h) (tp_isnum tp) (l ++ [10]) (prologue q) 0).1.1.

    Local Lemma csv_D_request fs l q i :
      rows !! i = Some fs -> ls !! i = Some l -> csv_request tp fs q (csv_D [] l q).
    Proof using All.
      intros Hi Hl. unfold csv_D.
      rewrite (csv_line_row tof hstr (cp tp d h) (tp_isnum tp) fs l (l ++ [10]) (prologue q) 0 Hdok Hdf);
        [|by eapply Forall2_lookup_lr|by left].
      cbn [fst]. rewrite row_from_req by (by eapply Forall_lookup_1). apply csv_req_request.
    Qed.

    Local Lemma tread_csv_unfold fuel b k n lt qs q :
      ~ (1 < tp_cap tp /\ tp_cap tp <= n) ->
      tread tof hstr (S (S fuel)) (st_at hdr ls (csv_base []) b k n lt qs) q =
        (let! (rd2, q2, st) := csv_read tof hstr (S fuel) (cp tp d h)
            (st_at hdr ls (csv_base []) b k (n + 1) lt qs) (prologue q) in
         Ok (rd2, sized tp q2, st)).
    Proof using All.
      intros Hc. rewrite tread_S.
      assert (t_no_more (st_at hdr ls (csv_base []) b k n lt qs) = false) as ->.
      { unfold t_no_more. apply orb_false_iff. split.
        - apply Nat.leb_gt. change (0 < length f)%nat.
          pose proof f_first. destruct f; [done|cbn; lia].
        - cbn. apply andb_false_iff. rewrite Z.ltb_ge, Z.leb_gt. lia. }
      done.
    Qed.

    Local Lemma csv_read_one b k n lt qs q l fuel :
      ls !! k = Some l -> ~ (1 < tp_cap tp /\ tp_cap tp <= n) ->
      exists lt' qs' q',
        tread tof hstr (S (S fuel)) (st_at hdr ls (csv_base []) b k n lt qs) q
          = Ok (st_at hdr ls (csv_base []) b (S k) (n + 1) lt' qs', q', 0) /\
        qs `prefix_of` qs' /\ forall T, qs' `prefix_of` T -> q' = csv_D T l q.
    Proof using All.
      intros Hl Hc. rewrite tread_csv_unfold by done. rewrite csv_read_S.
      change (t_file (st_at hdr ls (csv_base []) b k (n + 1) lt qs)) with (tfile hdr ls).
      change (t_pos (st_at hdr ls (csv_base []) b k (n + 1) lt qs)) with (bnd hdr ls k).
      rewrite (getline_bnd hdr ls Hclean k l Hl).
      change (t_isnum _) with (tp_isnum tp). change (t_left _) with 0. change (t_ign0 _) with (tp_ign0 tp).
      destruct (lookup_lt_is_Some_2 rows k) as [fs Hfs].
      { rewrite (Forall2_length _ _ _ HF). by eapply lookup_lt_Some. }
      pose proof (Forall2_lookup_lr _ _ _ _ _ _ HF Hfs Hl) as Ht.
      pose proof (Forall_lookup_1 _ _ _ _ Hok Hfs) as Hrok.
      unfold csv_D.
      rewrite (csv_line_row tof hstr (cp tp d h) (tp_isnum tp) fs l (l ++ [10]) (prologue q) 0 Hdok Hdf Ht)
        by (by left).
      cbn [fst]. rewrite row_from_req by done.
      assert (Hcf : cnt_from (cp tp d h) 1 fs 0 = 0).
      { destruct (cnt_from_count tp d h fs 0 Hrok) as [-> _]; [done|].
        unfold csv_count, field. by rewrite decide_False by lia. }
      rewrite Hcf.
      assert (Hz : (fget (csv_req tof hstr tp fs (prologue q)) F_SIZE =? 0) && tp_ign0 tp = false).
      { destruct (tp_ign0 tp) eqn:E0; [|by rewrite andb_false_r]. rewrite andb_true_r.
        destruct (Forall_lookup_1 _ _ _ _ (Hnz eq_refl) Hfs) as (s & Es & Hs).
        unfold csv_req, fget. rewrite Es, lookup_insert. by apply Z.eqb_neq. }
      rewrite Hz. cbn [rbind]. change (0 <? 0) with false. cbn match.
      eexists lt, qs, _. split_and!; done.
    Qed.

    Local Lemma csv_eof b n lt qs q fuel :
      ~ (1 < tp_cap tp /\ tp_cap tp <= n) ->
      exists q', tread tof hstr (S (S fuel)) (st_at hdr ls (csv_base []) b (length ls) n lt qs) q
        = Ok (st_at hdr ls (csv_base []) b (length ls) (n + 1) lt qs, q', 1).
    Proof using All.
      intros Hc. rewrite tread_csv_unfold by done. rewrite csv_read_S.
      change (t_file (st_at hdr ls (csv_base []) b (length ls) (n + 1) lt qs)) with (tfile hdr ls).
      change (t_pos (st_at hdr ls (csv_base []) b (length ls) (n + 1) lt qs)) with (bnd hdr ls (length ls)).
      rewrite (getline_bnd_end hdr ls Hclean) by done. cbn [rbind]. by eexists.
    Qed.

    Local Lemma csv_run os :
      exists rd' l, top_run tof hstr tp base os = Ok (rd', l) /\
        tc_run (csv_D []) (tp_cap tp) ls (mkTC 0 0) os l.
    Proof using All.
      assert (Hb : base = st_at hdr ls (csv_base []) true 0 0 (-1) q0s).
      { pose proof (setup_base q0s) as E. rewrite Hset in E. injection E as ->.
        unfold st_at. rewrite bnd_0. done. }
      rewrite Hb.
      destruct (top_run_cursor hdr ls Hclean tof hstr tp (csv_base []) csv_D) with
        (os := os) (b := true) (k := 0%nat) (n := 0) (lt := -1) (qs := q0s)
        as (rd' & l & qs' & E & _ & HT); try done.
      - pose proof f_first. change (0 < length f)%nat. destruct f; [done|cbn; lia].
      - intros qs. change (tfile hdr ls) with f. rewrite setup_base, bnd_0. done.
      - intros b k n lt qs. unfold treset, st_at. rewrite bnd_0.
        cbn [t_csv t_set t_setn t_setdir csv_base cp cv_hdr t_file].
        destruct (Bool.bool_dec h true) as [Eh|Eh%not_true_is_false].
        + rewrite Eh, getline_hdr by done. done.
        + rewrite Eh, hdr_nil by done. done.
      - intros. by apply csv_read_one.
      - intros. by apply csv_eof.
      - lia.
      - exists rd', l. split; [done|]. by apply (HT (qs')).
    Qed.
  End csvcursor.

  (** On a csv file of rows of 1 to 1022 bytes (no NUL) without count field and
      without rows to be dropped, with or without a header, any sequence of
      reader operations acts like on a cursor over the rows: the header is
      never delivered. *)
  Theorem c47_cursor (hl : list Z) (ls : list (list Z)) rows tp qs rd d (h : bool) os :
    tp_csv tp = true -> tp_start tp = 0%nat -> Forall clean ls -> 10 ∉ hl ->
    tsetup ((if h then hl ++ [10] else []) ++ newline_terminated ls) tp qs = Ok rd ->
    t_csv rd = Some (cp tp d h) ->
    delim_ok d -> fields_differ tp -> Forall2 (csv_text d) rows ls -> Forall (row_ok tp) rows ->
    tp_cnt tp < 1 ->
    (tp_ign0 tp = true ->
       Forall (fun fs => exists s, field fs (tp_size tp) = Some s /\ dec_value s <> 0) rows) ->
    exists rd' l D, top_run tof hstr tp rd os = Ok (rd', l) /\
      tc_run D (tp_cap tp) ls (mkTC 0 0) os l /\
      forall i fs x q, rows !! i = Some fs -> ls !! i = Some x -> csv_request tp fs q (D x q).
  Proof.
    intros Hc Hst Hcl Hhl Hset Hd Hdok Hdf HF Hok Hcnt Hnz.
    destruct (csv_run hl ls rows tp d h qs rd Hc Hst Hcl Hhl Hset Hd Hdok Hdf HF Hok Hcnt Hnz os)
      as (rd' & l & E & HT).
    eexists rd', l, _. split_and!; [done|exact HT|].
    intros i fs x q Hi Hx. by eapply csv_D_request.
  Qed.
End c47.

(** ** Concrete cases *)

Definition tofi (s : list Z) : Z := default 0 (strtoull s).

(** Columns: time, id, size, count ([cnt] = 0: no such column); comma. *)
Definition csvtrace (cnt cap : Z) (hdr : option bool) (delim : Z) : tparams :=
  mkTP true 1 2 3 cnt hdr delim 0 cap false false true.

Definition rows_of (r : res (list treq * treader * treq)) : res (list (list (option Z))) :=
  match r with
  | Ok (l, _, _) => Ok ((fun q => [q !! F_TIME; q !! F_ID; q !! F_SIZE]) <$> l)
  | Err e => Err e
  end.

Definition read_csv (f : list Z) (tp : tparams) : res (list (list (option Z))) :=
  match tsetup f tp [] with
  | Ok rd => rows_of (tread_all tofi noz 20 rd new_req)
  | Err e => Err e
  end.

(** A header, then [1,"12",100] and [ 2 , 7 ,50] with CR LF. *)
Definition c1 : list Z := bytes "1," ++ [34] ++ bytes "12" ++ [34] ++ bytes ",100".
Definition c2 : list Z := bytes " 2 , 7 ,50" ++ [13].
Definition f2 : list Z := newline_terminated [bytes "time,id,size"; c1; c2].

Lemma c1_row : csv_text 44 [bytes "1"; bytes "12"; bytes "100"] c1.
Proof.
  exists c1. split; [|by left]. exists [bytes "1"; quoted (bytes "12"); bytes "100"].
  split_and!; [|done|done|].
  - repeat constructor.
    + exists [], [], (bytes "1"). split_and!; [done|done|done|]. left. split; [done|]. split.
      * repeat constructor; done.
      * intros c [H|H]; vm_compute in H; injection H as <-; intros [?|?]; discriminate.
    + exists [], [], (quoted (bytes "12")). split_and!; [done|done|done|]. right. split; [done|].
      cbn. set_solver by lia.
    + exists [], [], (bytes "100"). split_and!; [done|done|done|]. left. split; [done|]. split.
      * repeat constructor; done.
      * intros c [H|H]; vm_compute in H; injection H as <-; intros [?|?]; discriminate.
  - intros H. apply Forall_cons in H as [[[H|H] _] _]; vm_compute in H; discriminate.
Qed.

Lemma c2_row : csv_text 44 [bytes "2"; bytes "7"; bytes "50"] c2.
Proof.
  exists (bytes " 2 , 7 ,50"). split; [|by right].
  exists [bytes " 2 "; bytes " 7 "; bytes "50"].
  assert (Hb : Forall (blank 44) [32]) by (repeat constructor; lia).
  split_and!; [|done|done|].
  - repeat constructor.
    + exists [32], [32], (bytes "2"). split_and!; [done|done|done|]. left. split; [done|]. split.
      * repeat constructor; done.
      * intros c [H|H]; vm_compute in H; injection H as <-; intros [?|?]; discriminate.
    + exists [32], [32], (bytes "7"). split_and!; [done|done|done|]. left. split; [done|]. split.
      * repeat constructor; done.
      * intros c [H|H]; vm_compute in H; injection H as <-; intros [?|?]; discriminate.
    + exists [], [], (bytes "50"). split_and!; [done|done|done|]. left. split; [done|]. split.
      * repeat constructor; done.
      * intros c [H|H]; vm_compute in H; injection H as <-; intros [?|?]; discriminate.
  - intros H. apply Forall_cons in H as [_ H]. apply Forall_cons in H as [[[H|H] _] _]; vm_compute in H; discriminate.
Qed.

Lemma csvtrace_differ cap hdr delim : fields_differ (csvtrace 0 cap hdr delim).
Proof. intros a b H. cbn in H. set_unfold. naive_solver lia. Qed.

Lemma ex_row_ok cap hdr delim t i z :
  (exists n, decimal i n) -> (exists n, decimal z n /\ n < 2 ^ 32) ->
  row_ok (csvtrace 0 cap hdr delim) [t; i; z].
Proof.
  intros Hi Hz. split_and!.
  - intros s _ [= <-]. done.
  - intros s [= <-]. done.
  - cbn. lia.
Qed.

Example c47_forward_ex :
  Forall2 (csv_text 44) [[bytes "1"; bytes "12"; bytes "100"]; [bytes "2"; bytes "7"; bytes "50"]] [c1; c2] /\
  Forall (row_ok (csvtrace 0 0 None 0))
    [[bytes "1"; bytes "12"; bytes "100"]; [bytes "2"; bytes "7"; bytes "50"]] /\
  fields_differ (csvtrace 0 0 None 0) /\
  read_csv f2 (csvtrace 0 0 None 0)
    = Ok [[Some 1; Some 12; Some 100]; [Some 2; Some 7; Some 50]] /\
  read_csv f2 (csvtrace 0 0 (Some true) 44)
    = Ok [[Some 1; Some 12; Some 100]; [Some 2; Some 7; Some 50]].
Proof.
  split_and!; [| |apply csvtrace_differ|by vm_compute|by vm_compute].
  - repeat constructor; [apply c1_row|apply c2_row].
  - apply Forall_cons. split; [apply ex_row_ok|apply Forall_cons; split; [apply ex_row_ok|done]].
    + eexists. by apply (is_decimal (bytes "12")).
    + eexists. split; [by apply (is_decimal (bytes "100"))|by vm_compute].
    + eexists. by apply (is_decimal (bytes "7")).
    + eexists. split; [by apply (is_decimal (bytes "50"))|by vm_compute].
Qed.

(** Repeated rows (column 4), and rows of size 0 that are to be ignored. *)
Example c47_count_ex :
  read_csv (file ["1,12,100,3"; "2,7,50,1"; "3,8,0,2"; "4,9,6,2"])
    (mkTP true 1 2 3 4 (Some false) 44 0 0 true false true)
  = Ok [[Some 1; Some 12; Some 100]; [Some 1; Some 12; Some 100]; [Some 1; Some 12; Some 100];
        [Some 2; Some 7; Some 50]; [Some 4; Some 9; Some 6]; [Some 4; Some 9; Some 6]].
Proof. by vm_compute. Qed.

(** Tabs beat commas by weight; more digits than letters: no header. *)
Example c47_setup_ex :
  match tsetup (newline_terminated [bytes "1,2" ++ [9] ++ bytes "3"]) (csvtrace 0 0 None 0) [] with
  | Ok rd => t_csv rd = Some (cp (csvtrace 0 0 None 0) 9 false)
  | Err _ => False
  end /\
  match tsetup f2 (csvtrace 0 0 None 0) [] with
  | Ok rd => t_csv rd = Some (cp (csvtrace 0 0 None 0) 44 true)
  | Err _ => False
  end /\
  match tsetup f2 (csvtrace 0 0 None 124) [] with Ok _ => False | Err e => e = AssertFail end.
Proof. by vm_compute. Qed.

Example c47_cursor_ex :
  Forall clean [c1; c2] /\
  match tsetup f2 (csvtrace 0 0 None 0) [] with
  | Ok rd => answers (top_run tofi noz (csvtrace 0 0 None 0) rd
               [TRead ∅; TRead ∅; TRead ∅; TAbove ∅; TBack; TBack; TRead ∅; TReset; TSkip 1; TRead ∅])
             = Ok [Some 12; Some 7; None; Some 12; Some 1; Some 0; Some 12; None; Some 1; Some 7]
  | Err _ => False
  end.
Proof.
  split; [|by vm_compute].
  repeat constructor; cbn; try lia; set_solver by lia.
Qed.

(** ** What does not hold *)

(** A blank line delivers the request before it once more. *)
Theorem c47_blank_line_refuted :
  read_csv (file ["1,12,100"; ""; "2,7,50"]) (csvtrace 0 0 (Some false) 44)
    = Ok [[Some 1; Some 12; Some 100]; [Some 1; Some 12; Some 100]; [Some 2; Some 7; Some 50]].
Proof. by vm_compute. Qed.

(** A field that is missing in a row is taken from the row before. *)
Theorem c47_missing_field_refuted :
  read_csv (file ["1,12,100"; "2,7"]) (csvtrace 0 0 (Some false) 44)
    = Ok [[Some 1; Some 12; Some 100]; [Some 2; Some 7; Some 100]].
Proof. by vm_compute. Qed.

(** A limit of 2 on a trace with counts cuts the second row after its first
    request: neither two requests nor two rows are delivered. *)
Theorem c47_cap_refuted :
  exists f,
    read_csv f (csvtrace 4 0 (Some false) 44)
      = Ok ([[Some 1; Some 12; Some 100]; [Some 1; Some 12; Some 100]; [Some 1; Some 12; Some 100]]
            ++ replicate 3 [Some 2; Some 7; Some 50]) /\
    read_csv f (csvtrace 4 2 (Some false) 44)
      = Ok [[Some 1; Some 12; Some 100]; [Some 1; Some 12; Some 100]; [Some 1; Some 12; Some 100];
            [Some 2; Some 7; Some 50]].
Proof. exists (file ["1,12,100,3"; "2,7,50,3"]). by vm_compute. Qed.

(** A count of 0 delivers the row once. *)
Theorem c47_count_zero_refuted :
  read_csv (file ["1,12,100,0"; "2,7,50,1"]) (csvtrace 4 0 (Some false) 44)
    = Ok [[Some 1; Some 12; Some 100]; [Some 2; Some 7; Some 50]].
Proof. by vm_compute. Qed.

(** Sizes are cut to 32 bits: 4294967297 is read as 1. *)
Theorem c47_size_refuted :
  decimal (bytes "4294967297") 4294967297 /\
  read_csv (file ["1,12,4294967297"]) (csvtrace 0 0 (Some false) 44)
    = Ok [[Some 1; Some 12; Some 1]].
Proof. split; [by apply (is_decimal (bytes "4294967297"))|by vm_compute]. Qed.

(** A quoted field with a line break in it (RFC 4180) is torn apart. *)
Theorem c47_quoted_newline_refuted :
  read_csv (bytes "1," ++ [34; 49; 10; 50; 34] ++ bytes ",100" ++ [10]) (csvtrace 0 0 (Some false) 44)
    <> read_csv (bytes "1," ++ [34; 49; 50; 34] ++ bytes ",100" ++ [10]) (csvtrace 0 0 (Some false) 44) /\
  match read_csv (bytes "1," ++ [34; 49; 10; 50; 34] ++ bytes ",100" ++ [10]) (csvtrace 0 0 (Some false) 44) with
  | Ok l => length l = 2%nat
  | Err _ => False
  end.
Proof. split; [|by vm_compute]. vm_compute. discriminate. Qed.

(** When delimiter or header are to be detected, a first line of 1024 bytes or
    more overflows the buffer. *)
Theorem c47_long_first_line_refuted :
  forall l ls tp qs,
    tp_csv tp = true -> (tp_delim tp = 0 \/ tp_hdr tp = None) -> 10 ∉ l ->
    Forall (fun l => 10 ∉ l) ls -> (1023 <= length l)%nat ->
    tsetup (newline_terminated (l :: ls)) tp qs = Err OutOfBounds.
Proof.
  intros l ls tp qs Hc Hd Hl Hls Hlen. unfold tsetup. rewrite Hc.
  assert (Hfl : first_line (newline_terminated (l :: ls)) = Err OutOfBounds).
  { unfold first_line, getline. rewrite drop_0, nlt_cons.
    rewrite take_line_nl by done. destruct (l ++ [10]) as [|x t] eqn:E; [by destruct l|].
    rewrite <-E. rewrite (proj2 (Nat.leb_le _ _)); [done|]. rewrite app_length. cbn. lia. }
  unfold csv_setup, detect_delim, detect_header. rewrite Hfl.
  destruct Hd as [-> | ->]; [done|]. destruct (tp_delim tp =? 0); done.
Qed.
