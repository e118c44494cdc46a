(** The plain-text and csv trace readers of libCacheSim: the libcsv parser,
    field decoding, forward and backward reading, skipping, resetting, cloning.
    All line numbers refer to files under /repo/libCacheSim.

    Modelled: generalReader/txt.c, generalReader/csv.c, the parser of
    generalReader/libcsv.c with the options csv.c uses (CSV_APPEND_NULL only),
    and the TXT_TRACE_FORMAT branches of traceReader/reader.c.
    Not modelled: sampling of text traces (reader->sampler is NULL
    throughout), allocation failures, closing readers, log output.
    A file is a list of bytes; the FILE position is a natural number.  *)
From stdpp Require Import gmap list numbers fin_maps.
From Verif Require Import Base ModelReader.
Open Scope Z_scope.

(** * The C library *)

(** isspace in the C locale. *)
Definition is_space (c : Z) : bool := (c =? 32) || ((9 <=? c) && (c <=? 13)).

(** The value of a digit or letter, as strtoull uses it. *)
Definition digit_val (c : Z) : option Z :=
  if (48 <=? c) && (c <=? 57) then Some (c - 48)
  else if (97 <=? c) && (c <=? 122) then Some (c - 87)
  else if (65 <=? c) && (c <=? 90) then Some (c - 55)
  else None.

Definition digit_in (base c : Z) : option Z :=
  match digit_val c with
  | Some d => if d <? base then Some d else None
  | None => None
  end.

(** The longest run of digits; [None] when there is none. *)
Fixpoint digits (base : Z) (acc : option Z) (s : list Z) : option Z :=
  match s with
  | [] => acc
  | c :: s' =>
      match digit_in base c with
      | Some d => digits base (Some (default 0 acc * base + d)) s'
      | None => acc
      end
  end.

Fixpoint skip_spaces (s : list Z) : list Z :=
  match s with
  | c :: s' => if is_space c then skip_spaces s' else s
  | [] => []
  end.

Definition take_sign (s : list Z) : bool * list Z :=
  match s with
  | 43 :: s' => (false, s')
  | 45 :: s' => (true, s')
  | _ => (false, s)
  end.

(** With base 0 a leading "0x" announces base 16 if a hexadecimal digit
    follows, a leading "0" base 8, anything else base 10. *)
Definition magnitude (s : list Z) : option Z :=
  match s with
  | 48 :: x :: s' =>
      if ((x =? 120) || (x =? 88))
      then match digits 16 None s' with Some v => Some v | None => Some 0 end
      else digits 8 None s
  | 48 :: [] => Some 0
  | _ => digits 10 None s
  end.

(** strtoull(s, &end, 0) of C11 7.22.1.4, and strtoul where long has 64 bits:
    [None] when no conversion is possible (the result is then 0 and end == s);
    values that do not fit become ULLONG_MAX. *)
Definition strtoull (s : list Z) : option Z :=
  let '(neg, s1) := take_sign (skip_spaces s) in
  match magnitude s1 with
  | None => None
  | Some v =>
      Some (if 2 ^ 64 <=? v then 2 ^ 64 - 1 else if (neg : bool) then u64 (- v) else v)
  end.

(** The text up to and including the first newline. *)
Fixpoint take_line (s : list Z) : list Z :=
  match s with
  | [] => []
  | c :: s' => if c =? 10 then [10] else c :: take_line s'
  end.

(** getline on a file at position [pos]: the line with its newline and the new
    position; [None] for a return value of -1 (end of file). *)
Definition getline (f : list Z) (pos : nat) : option (list Z * nat) :=
  match take_line (drop pos f) with
  | [] => None
  | l => Some (l, (pos + length l)%nat)
  end.

(** The characters before the terminating NUL. *)
Fixpoint cstr (s : list Z) : list Z :=
  match s with
  | [] => []
  | c :: s' => if c =? 0 then [] else c :: cstr s'
  end.

(** strrchr(s, '\n'): index of the last newline. *)
Fixpoint last_nl (s : list Z) : option nat :=
  match s with
  | [] => None
  | c :: s' =>
      match last_nl s' with
      | Some i => Some (S i)
      | None => if c =? 10 then Some O else None
      end
  end.

(** g_quark_from_string: the process-wide table of strings; the quark of a
    string is its 1-based position.  The number of different strings is
    assumed to stay below 2^32 (a GQuark is a guint32). *)
Fixpoint index_of (s : list Z) (t : list (list Z)) : option nat :=
  match t with
  | [] => None
  | x :: t' => if decide (x = s) then Some O else S <$> index_of s t'
  end.

Definition quark (t : list (list Z)) (s : list Z) : Z * list (list Z) :=
  match index_of s t with
  | Some i => (Z.of_nat i + 1, t)
  | None => (Z.of_nat (length t) + 1, t ++ [s])
  end.

(** * The csv parser (generalReader/libcsv.c) *)

(** libcsv.c:37-40. *)
Inductive pstate : Type := RowNotBegun | FieldNotBegun | FieldBegun | MightHaveEnded.

(** What the parser reports: cb1 with the text of a field, cb2 at the end of a
    row.  The callbacks cannot influence the parser, so the model returns the
    list of calls and applies them afterwards. *)
Inductive cev : Type := EvField (s : list Z) | EvRow.

(** The parser's variables: pstate, quoted, spaces and the first entry_pos
    bytes of entry_buf.  The buffer (libcsv.c:238-268) grows as needed. *)
Record pvars : Type := mkP {
  p_state : pstate; p_quoted : bool; p_spaces : nat; p_entry : list Z
}.

(** csv_init (libcsv.c:104-127) and the reset at the end of csv_fini (174-176). *)
Definition p_init : pvars := mkP RowNotBegun false 0 [].

(** [entry_pos -= n]; a size_t that would wrap stays at 0 here, which no
    input produces. *)
Definition unsubmit (n : nat) (e : list Z) : list Z := take (length e - n) e.

(** SUBMIT_FIELD (libcsv.c:53-63): the reported text. *)
Definition field_text (p : pvars) : list Z :=
  if p_quoted p then p_entry p else unsubmit (p_spaces p) (p_entry p).

Definition after_field : pvars := mkP FieldNotBegun false 0 [].

Definition is_sp (c : Z) : bool := (c =? 32) || (c =? 9).      (* CSV_SPACE, CSV_TAB *)
Definition is_term (c : Z) : bool := (c =? 13) || (c =? 10).   (* CSV_CR, CSV_LF *)
Definition QUOTE : Z := 34.

(** One turn of the loop of csv_parse (libcsv.c:296-429). *)
Definition csv_char (delim : Z) (p : pvars) (c : Z) : pvars * list cev :=
  let app st := mkP st (p_quoted p) 0 (p_entry p ++ [c]) in
  match p_state p with
  | RowNotBegun | FieldNotBegun =>                      (* lines 309-343 *)
      if is_sp c && negb (c =? delim) then (p, [])
      else if is_term c then
        match p_state p with
        | FieldNotBegun => (p_init, [EvField (field_text p); EvRow])
        | _ => (p, [])
        end
      else if c =? delim then (after_field, [EvField (field_text p)])
      else if c =? QUOTE then (mkP FieldBegun true (p_spaces p) (p_entry p), [])
      else (mkP FieldBegun false (p_spaces p) (p_entry p ++ [c]), [])
  | FieldBegun =>                                       (* lines 344-390 *)
      if c =? QUOTE then
        if p_quoted p
        then (mkP MightHaveEnded true (p_spaces p) (p_entry p ++ [c]), [])
        else (app FieldBegun, [])
      else if c =? delim then
        if p_quoted p
        then (mkP FieldBegun true (p_spaces p) (p_entry p ++ [c]), [])
        else (after_field, [EvField (field_text p)])
      else if is_term c then
        if p_quoted p
        then (mkP FieldBegun true (p_spaces p) (p_entry p ++ [c]), [])
        else (p_init, [EvField (field_text p); EvRow])
      else if negb (p_quoted p) && is_sp c
      then (mkP FieldBegun (p_quoted p) (S (p_spaces p)) (p_entry p ++ [c]), [])
      else (app FieldBegun, [])
  | MightHaveEnded =>                                   (* lines 391-425 *)
      let p1 := mkP MightHaveEnded (p_quoted p) (p_spaces p)
                    (unsubmit (p_spaces p + 1) (p_entry p)) in
      if c =? delim then (after_field, [EvField (field_text p1)])
      else if is_term c then (p_init, [EvField (field_text p1); EvRow])
      else if is_sp c
      then (mkP MightHaveEnded (p_quoted p) (S (p_spaces p)) (p_entry p ++ [c]), [])
      else if c =? QUOTE then
        match p_spaces p with
        | O => (mkP FieldBegun (p_quoted p) 0 (p_entry p), [])
        | S _ => (app MightHaveEnded, [])
        end
      else (app FieldBegun, [])
  end.

(** csv_parse (libcsv.c:270-433). *)
Fixpoint csv_parse (delim : Z) (p : pvars) (s : list Z) : pvars * list cev :=
  match s with
  | [] => (p, [])
  | c :: s' =>
      let '(p1, e1) := csv_char delim p c in
      let '(p2, e2) := csv_parse delim p1 s' in
      (p2, e1 ++ e2)
  end.

(** csv_fini (libcsv.c:143-179). *)
Definition csv_fini (p : pvars) : list cev :=
  match p_state p with
  | RowNotBegun => []
  | MightHaveEnded =>
      [EvField (field_text (mkP MightHaveEnded (p_quoted p) (p_spaces p)
                                (unsubmit (p_spaces p + 1) (p_entry p)))); EvRow]
  | _ => [EvField (field_text p); EvRow]
  end.

(** csv_write (libcsv.c:435-463) with a buffer that is large enough. *)
Fixpoint csv_escape (s : list Z) : list Z :=
  match s with
  | [] => []
  | c :: s' => if c =? QUOTE then QUOTE :: c :: csv_escape s' else c :: csv_escape s'
  end.
Definition csv_write (s : list Z) : list Z := QUOTE :: csv_escape s ++ [QUOTE].

(** * The readers *)

(** readerInternal.h:19-35 (csv_params_t): the fields csv.c uses.  Field
    numbers start at 1; 0 means that there is no such field. *)
Record csvp : Type := mkCsv {
  cv_delim : Z; cv_hdr : bool;
  cv_time : Z; cv_id : Z; cv_size : Z; cv_cnt : Z
}.

(** reader.h:75-129 (reader_t), the fields used for text traces. *)
Record treader : Type := mkT {
  t_csv : option csvp;          (* trace_type: PLAIN_TXT_TRACE or CSV_TRACE *)
  t_file : list Z;              (* file, file_size *)
  t_start : nat;                (* trace_start_offset *)
  t_mmap : nat;                 (* mmap_offset *)
  t_pos : nat;                  (* ftell(file) *)
  t_cap : Z;                    (* cap_at_n_req *)
  t_nread : Z;                  (* n_read_req *)
  t_fwd : bool;                 (* read_direction == READ_FORWARD *)
  t_ign0 : bool;                (* ignore_size_zero_req *)
  t_ignsz : bool;               (* ignore_obj_size *)
  t_isnum : bool;               (* obj_id_is_num *)
  t_left : Z;                   (* n_req_left *)
  t_ltime : Z;                  (* last_req_clock_time *)
  t_quarks : list (list Z)      (* GLib's table of quarks (process-wide) *)
}.

Definition t_set (rd : treader) (pos : nat) (nread lft ltime : Z)
  (qs : list (list Z)) : treader :=
  mkT (t_csv rd) (t_file rd) (t_start rd) (t_mmap rd) pos (t_cap rd) nread
      (t_fwd rd) (t_ign0 rd) (t_ignsz rd) (t_isnum rd) lft ltime qs.
Definition t_seek (rd : treader) (pos : nat) : treader :=
  t_set rd pos (t_nread rd) (t_left rd) (t_ltime rd) (t_quarks rd).
Definition t_setn (rd : treader) (n : Z) : treader :=
  t_set rd (t_pos rd) n (t_left rd) (t_ltime rd) (t_quarks rd).
Definition t_setleft (rd : treader) (k : Z) : treader :=
  t_set rd (t_pos rd) (t_nread rd) k (t_ltime rd) (t_quarks rd).
Definition t_setlt (rd : treader) (k : Z) : treader :=
  t_set rd (t_pos rd) (t_nread rd) (t_left rd) k (t_quarks rd).
Definition t_setq (rd : treader) (qs : list (list Z)) : treader :=
  t_set rd (t_pos rd) (t_nread rd) (t_left rd) (t_ltime rd) qs.
Definition t_setdir (rd : treader) (b : bool) : treader :=
  mkT (t_csv rd) (t_file rd) (t_start rd) (t_mmap rd) (t_pos rd) (t_cap rd)
      (t_nread rd) b (t_ign0 rd) (t_ignsz rd) (t_isnum rd) (t_left rd)
      (t_ltime rd) (t_quarks rd).

Definition t_size (rd : treader) : nat := length (t_file rd).

(** ** Plain text (generalReader/txt.c) *)

(** txt.c:12-19: read lines until one is not just a newline. *)
Fixpoint txt_getline (fuel : nat) (f : list Z) (pos : nat)
  : res (option (list Z * nat)) :=
  match fuel with
  | O => Err OutOfFuel
  | S fuel' =>
      match getline f pos with
      | None => Ok None
      | Some (l, pos') =>
          if decide (l = [10]) then txt_getline fuel' f pos' else Ok (Some (l, pos'))
      end
  end.

(** The line buffer as a string whose trailing newline is replaced by NUL
    (txt.c:34-36). *)
Definition chomp (l : list Z) : list Z :=
  match last l with
  | Some c => if c =? 10 then take (length l - 1) l else l
  | None => l
  end.

(** txt.c:26-38; [Err AssertFail] is the abort of ERROR in line 30. *)
Definition txt_id (isnum : bool) (qs : list (list Z)) (l : list Z)
  : res (Z * list (list Z)) :=
  if isnum then
    match strtoull l with Some v => Ok (v, qs) | None => Err AssertFail end
  else Ok (quark qs (cstr (chomp l))).

(** txt_read_one_req (txt.c:9-40). *)
Definition txt_read (rd : treader) (q : treq) : res (treader * treq * Z) :=
  let! r := txt_getline (S (t_size rd)) (t_file rd) (t_pos rd) in
  match r with
  | None => Ok (t_seek rd (t_size rd), set_invalid q, 1)
  | Some (l, pos) =>
      let! (v, qs) := txt_id (t_isnum rd) (t_quarks rd) l in
      Ok (t_setq (t_seek rd pos) qs, <[F_ID := v]> q, 0)
  end.

(** ** Csv (generalReader/csv.c) *)

Section csv.
  (** [(uint64_t)atof(s)] and [get_hash_value_str(s, len)], both left
      uninterpreted. *)
  Context (tof hstr : list Z -> Z).

  (** The state the callbacks update: the request, curr_field_idx and
      n_req_left. *)
  Definition cbst : Type := treq * Z * Z.

  (** csv_cb1 and csv_cb2 (csv.c:191-239). *)
  Definition csv_cb (c : csvp) (isnum : bool) (st : cbst) (e : cev) : cbst :=
    let '(q, idx, lft) := st in
    match e with
    | EvRow => (q, 1, lft)
    | EvField s =>
        if idx =? cv_id c then
          (<[F_ID := if isnum then default 0 (strtoull s) else u64 (hstr s)]> q,
           idx + 1, lft)
        else if idx =? cv_time c then (<[F_TIME := tof s]> q, idx + 1, lft)
        else if idx =? cv_size c then
          (<[F_SIZE := u32 (default 0 (strtoull s))]> q, idx + 1, lft)
        else if idx =? cv_cnt c then
          (q, idx + 1, i32 (u64 (default 0 (strtoull s) - 1)))
        else (q, idx + 1, lft)
    end.

  (** csv.c:306-314: all callbacks for one line. *)
  Definition csv_line (c : csvp) (isnum : bool) (l : list Z) (q : treq) (lft : Z)
    : cbst :=
    let '(p, es) := csv_parse (cv_delim c) p_init l in
    foldl (csv_cb c isnum) (q, 1, lft) (es ++ csv_fini p).

  (** fread(line_buf, 1, n, file) at position [pos]. *)
  Definition fread (f : list Z) (pos n : nat) : list Z := take n (drop pos f).

  (** PER_SEEK_SIZE (readerInternal.h:12). *)
  Definition PER_SEEK : nat := 1024.

  (** The loop of go_back_one_req (reader.c:430-462); [pos] is the FILE
      position, [max] is max_seek_size and [total] total_seek_size.  An fseek
      before the start of the file fails and leaves the position alone. *)
  Definition fseek_back (pos n : nat) : nat :=
    if (n <=? pos)%nat then (pos - n)%nat else pos.

  Fixpoint go_back_loop (fuel : nat) (f : list Z) (start pos max total : nat)
    : res (nat * Z) :=
    match fuel with
    | O => Err OutOfFuel
    | S fuel' =>
        let seek := Nat.min PER_SEEK (max - total) in
        let total' := (total + seek)%nat in
        let pos1 := fseek_back pos seek in
        let buf := fread f pos1 (seek - 1) in
        let pos2 := (pos1 + length buf)%nat in
        match buf with
        | [] => Err OutOfBounds                     (* line_buf[-1] = 0 *)
        | _ =>
            match last_nl (cstr (take (length buf - 1) buf)) with
            | None =>
                if (seek <? PER_SEEK)%nat then Ok (start, 0)
                else if (total' <? max)%nat
                then go_back_loop fuel' f start (fseek_back pos2 PER_SEEK) max total'
                else Ok (pos2, 1)
            | Some i =>
                (* fseek(file, -(seek_size - (i + 2)), SEEK_CUR) *)
                Ok ((pos2 + (i + 2) - seek)%nat, 0)
            end
        end
    end.

  (** go_back_one_req (reader.c:417-475), go_back_two_req (477-486). *)
  Definition tgo_back_one (rd : treader) : res (treader * Z) :=
    if (t_pos rd <=? t_start rd)%nat then Ok (rd, 1)
    else
      let! (p, st) := go_back_loop (S (t_pos rd)) (t_file rd) (t_start rd) (t_pos rd)
                        (t_pos rd - t_start rd) 0 in
      Ok (t_seek rd p, st).

  Definition tgo_back_two (rd : treader) : res (treader * Z) :=
    let! (rd1, st) := tgo_back_one rd in
    if st =? 0 then tgo_back_one rd1 else Ok (rd1, 1).

  (** csv_read_one_req (csv.c:293-327), read_one_req (reader.c:265-408) and
      read_one_req_above (499-512) for text traces. *)
  Definition t_no_more (rd : treader) : bool :=
    (t_size rd <=? t_mmap rd)%nat
    || ((1 <? t_cap rd) && (t_cap rd <=? t_nread rd)).

  Definition t_sizes (rd : treader) (q : treq) : treq :=
    if t_ignsz rd then <[F_SIZE := 1]> q else q.

  Fixpoint csv_read (fuel : nat) (c : csvp) (rd : treader) (q : treq)
    : res (treader * treq * Z) :=
    match fuel with
    | O => Err OutOfFuel
    | S fuel' =>
        match getline (t_file rd) (t_pos rd) with
        | None => Ok (rd, set_invalid q, 1)
        | Some (l, pos) =>
            let '(q1, _, lft) := csv_line c (t_isnum rd) l q (t_left rd) in
            let rd1 := t_setleft (t_seek rd pos) lft in
            if (fget q1 F_SIZE =? 0) && t_ign0 rd then
              if t_fwd rd then csv_read fuel' c rd1 q1
              else tread_above fuel' rd1 q1
            else
              Ok (if 0 <? lft then t_setlt rd1 (fget q1 F_TIME) else rd1, q1, 0)
        end
    end
  with tread (fuel : nat) (rd : treader) (q : treq) : res (treader * treq * Z) :=
    match fuel with
    | O => Err OutOfFuel
    | S fuel' =>
        if t_no_more rd then Ok (rd, set_invalid q, 1)
        else if 0 <? t_left rd then
          Ok (t_setleft rd (t_left rd - 1), t_sizes rd (<[F_TIME := t_ltime rd]> q), 0)
        else
          let rd1 := t_setn rd (t_nread rd + 1) in
          let! (rd2, q2, st) :=
            match t_csv rd with
            | None => txt_read rd1 (prologue q)
            | Some c => csv_read fuel' c rd1 (prologue q)
            end in
          Ok (rd2, t_sizes rd q2, st)
    end
  with tread_above (fuel : nat) (rd : treader) (q : treq) : res (treader * treq * Z) :=
    match fuel with
    | O => Err OutOfFuel
    | S fuel' =>
        if 0 <? t_left rd then
          Ok (t_setleft rd (t_left rd - 1), <[F_TIME := t_ltime rd]> q, 0)
        else
          let! (rd1, st) := tgo_back_two rd in
          if st =? 0 then tread fuel' rd1 q else Ok (rd1, set_invalid q, 1)
    end.

  (** Enough turns for the recursion between the three functions: each skipped
      row takes at least one byte of the file. *)
  Definition t_fuel (rd : treader) : nat := (3 * t_size rd + 5)%nat.

  Definition read_txt (rd : treader) (q : treq) : res (treader * treq * Z) :=
    tread (t_fuel rd) rd q.
  Definition read_txt_above (rd : treader) (q : treq) : res (treader * treq * Z) :=
    tread_above (t_fuel rd) rd q.

  (** ** Setup, reset, clone, skip, seek *)

  (** count_occurrence (csv.c:29-35). *)
  Definition count_occ (s : list Z) (c : Z) : Z :=
    Z.of_nat (length (filter (fun x => x = c) s)).

  (** read_first_line (csv.c:46-68) into a buffer of 1024 bytes: line 62 copies
      one byte more than the (truncated) line, and at end of file the length
      -1 counts as a huge one. *)
  Definition first_line (f : list Z) : res (list Z) :=
    match getline f 0 with
    | None => Err OutOfBounds
    | Some (l, _) => if (1024 <=? length l)%nat then Err OutOfBounds else Ok l
    end.

  (** csv_detect_delimiter (csv.c:79-107); the buffer is read as a string. *)
  Fixpoint best_delim (s : list Z) (cands : list (Z * Z)) (max d : Z) : Z :=
    match cands with
    | [] => d
    | (c, w) :: cands' =>
        let n := count_occ s c * w in
        if max <? n then best_delim s cands' n c else best_delim s cands' max d
    end.

  Definition detect_delim (f : list Z) : res Z :=
    let! l := first_line f in
    let d := best_delim (cstr l) [(9, 4); (44, 3); (124, 2); (58, 1)] 0 0 in
    if d =? 0 then Err AssertFail else Ok d.

  Definition is_digit (c : Z) : bool := (48 <=? c) && (c <=? 57).
  Definition is_letter (c : Z) : bool :=
    ((97 <=? c) && (c <=? 122)) || ((65 <=? c) && (c <=? 90)).
  Definition is_af (c : Z) : bool :=
    ((97 <=? c) && (c <=? 102)) || ((65 <=? c) && (c <=? 70)).
  Definition countb (p : Z -> bool) (s : list Z) : Z :=
    Z.of_nat (length (filter (fun x => p x = true) s)).

  (** csv_detect_header (csv.c:119-154): lines 141-145 only ever change the
      initial [true] when there are more digits than letters. *)
  Definition detect_header (f : list Z) : res bool :=
    let! l := first_line f in
    Ok (negb (countb is_letter l <? countb is_digit l)).

  (** reader_init_param_t (reader.h:38-67): the parameters of text traces;
      delimiter 0 and has_header_set = false ([None]) ask for detection. *)
  Record tparams : Type := mkTP {
    tp_csv : bool;
    tp_time : Z; tp_id : Z; tp_size : Z; tp_cnt : Z;
    tp_hdr : option bool; tp_delim : Z;
    tp_start : nat; tp_cap : Z;
    tp_ign0 : bool; tp_ignsz : bool; tp_isnum : bool
  }.

  (** csv_setup_reader (csv.c:246-284) and check_delimiter (csv.c:163-185),
      which looks for the given delimiter in the first line (searching for the
      character NUL succeeds); ERROR aborts. *)
  Definition csv_setup (f : list Z) (tp : tparams) : res (csvp * nat * nat) :=
    let! d := if tp_delim tp =? 0 then detect_delim f else Ok (tp_delim tp) in
    let! h := match tp_hdr tp with None => detect_header f | Some b => Ok b end in
    let c := mkCsv d h (tp_time tp) (tp_id tp) (tp_size tp) (tp_cnt tp) in
    match getline f 0 with
    | None => Err OutOfBounds                (* strchr on an unset buffer *)
    | Some (l, pos) =>
        if (tp_delim tp =? 0) || bool_decide (tp_delim tp ∈ cstr l)
        then Ok (c, if h then pos else tp_start tp, if h then pos else O)
        else Err AssertFail
    end.

  (** setup_reader (reader.c:41-256) for text traces with init_params given. *)
  Definition tsetup (f : list Z) (tp : tparams) (qs : list (list Z)) : res treader :=
    let mk c start pos :=
      mkT c f start (tp_start tp) pos (tp_cap tp) 0 true (tp_ign0 tp) (tp_ignsz tp)
          (tp_isnum tp) 0 (-1) qs in
    if tp_csv tp then
      let! (c, start, pos) := csv_setup f tp in Ok (mk (Some c) start pos)
    else Ok (mk None (tp_start tp) O).

  (** reset_reader (reader.c:550-572), csv_reset_reader (csv.c:329-344). *)
  Definition treset (rd : treader) : treader :=
    let rd1 := t_setn rd 0 in
    match t_csv rd with
    | None => t_seek rd1 0
    | Some c =>
        if cv_hdr c then
          match getline (t_file rd) 0 with
          | Some (_, pos) => t_seek rd1 pos
          | None => t_seek rd1 0
          end
        else t_seek rd1 0
    end.

  (** skip_n_req (reader.c:520-531) for N >= 0. *)
  Fixpoint tskip (rd : treader) (N i : nat) : treader * nat :=
    match N with
    | O => (rd, i)
    | S N' =>
        match getline (t_file rd) (t_pos rd) with
        | None => (rd, i)
        | Some (_, pos) => tskip (t_seek rd pos) N' (S i)
        end
    end.

  (** The client loop [while (read_one_req(reader, req) == 0) ...]. *)
  Fixpoint tread_all (fuel : nat) (rd : treader) (q : treq)
    : res (list treq * treader * treq) :=
    match fuel with
    | O => Err OutOfFuel
    | S fuel' =>
        let! (rd1, q1, st) := read_txt rd q in
        if st =? 0 then
          let! (l, rd2, q2) := tread_all fuel' rd1 q1 in
          Ok (q1 :: l, rd2, q2)
        else Ok ([], rd1, q1)
    end.

  (** new_request (request.h:73-85), the fields used here. *)
  Definition new_req : treq :=
    <[F_NEXT := -2]> (<[F_VALID := 1]> (<[F_SIZE := 1]>
      (<[F_ID := 0]> (<[F_TIME := 0]> (<[F_HV := 0]> (<[F_TTL := 0]> ∅)))))).

  (** get_num_of_req (reader.c:574-592) when n_total_req is still 0: count by
      reading a clone (clone_reader, 594-604), which is a fresh setup on the
      same file whose mmap_offset is then set to 0. *)
  Definition tnum_of_req (fuel : nat) (rd : treader) (tp : tparams) : res nat :=
    let! rc := tsetup (t_file rd) tp (t_quarks rd) in
    let rc1 := mkT (t_csv rc) (t_file rc) (t_start rc) 0 (t_pos rc) (t_cap rc)
                 (t_nread rc) (t_fwd rc) (t_ign0 rc) (t_ignsz rc) (t_isnum rc)
                 (t_left rc) (t_ltime rc) (t_quarks rc) in
    let! (l, _, _) := tread_all fuel rc1 new_req in
    Ok (length l).

  (** reader.c:678-686: from the end of the file back over white space.  The
      fseek(-2) fails at position 1 and then the same byte is read again, for
      ever if it is a space. *)
  Fixpoint back_spaces (fuel : nat) (f : list Z) (pos : nat) : res nat :=
    match fuel with
    | O => Err NonTerm
    | S fuel' =>
        match f !! (pos - 1)%nat with
        | None => Err OutOfBounds
        | Some c => if is_space c then back_spaces fuel' f (pos - 1) else Ok pos
        end
    end.

  (** reader_set_read_pos (reader.c:667-691) with pos = 1.0, on a file that is
      not empty. *)
  Definition tseek_end (rd : treader) : res treader :=
    let! p := back_spaces (S (t_size rd)) (t_file rd) (t_size rd) in
    Ok (t_seek rd p).

  (** read_first_req and read_last_req (reader.c:693-708): the position they
      restore is mmap_offset, not that of the FILE. *)
  Definition tread_first (rd : treader) (q : treq) : res (treader * treq) :=
    let! (rd1, q1, _) := read_txt (treset rd) q in Ok (rd1, q1).

  Definition tread_last (rd : treader) (q : treq) : res (treader * treq) :=
    let! rd1 := tseek_end (treset rd) in
    let! (rd2, _) := tgo_back_one rd1 in
    let! (rd3, q3, _) := read_txt rd2 q in Ok (rd3, q3).
End csv.
