(** The trace converter bin/traceUtils/traceConv.cpp and the LCS trace header
    (traceReader/generalReader/lcs.c, lcs.h).  All line numbers refer to files
    under /repo/libCacheSim.

    Modelled: convert_to_oracleGeneral and _reverse_file on the binary readers
    of ModelReader, from the bytes of the input file to the bytes of the output
    file, and LCSReader_setup.  Not modelled: the progress messages (except
    their read of freed memory), the optional text output, file system errors,
    and 64-bit overflow of the byte counters. *)
From stdpp Require Import gmap list numbers fin_maps.
From Verif Require Import Base ModelReader SpecReader.
Open Scope Z_scope.

(** oracleGeneral_req_t (traceConv.cpp:15-26), a packed struct. *)
Record og : Type := mkOg { g_time : Z; g_id : Z; g_size : Z; g_next : Z }.

(** oracleGeneral_req_t::init (lines 21-25): clock_time and obj_size are
    truncated to uint32_t; next_access_vtime is left alone. *)
Definition og_init (g : og) (q : treq) : og :=
  mkOg (u32 (fget q F_TIME)) (fget q F_ID) (u32 (fget q F_SIZE)) (g_next g).

(** The memory image of the struct on a little-endian machine, as written by
    ofstream::write (lines 90-91, 239). *)
Definition og_bytes (g : og) : list Z :=
  le_bytes 4 (g_time g) ++ le_bytes 8 (g_id g) ++ le_bytes 4 (g_size g) ++
  le_bytes 8 (g_next g).

Definition og_size : nat := 24.

(** memcpy(&og_req, mapped_file + pos, sizeof(og_req)) (line 224). *)
Definition og_load (f : list Z) (pos : nat) : res og :=
  let! t := le_at f pos 4 in
  let! i := le_at f (pos + 4) 8 in
  let! s := le_at f (pos + 12) 4 in
  let! n := le_at f (pos + 16) 8 in
  Ok (mkOg t i s (signed 64 n)).

(** struct trace_stat (lines 28-33). *)
Record tstat : Type := mkStat {
  st_req : Z; st_obj : Z; st_req_byte : Z; st_obj_byte : Z
}.

(** The locals of convert_to_oracleGeneral (lines 55-62): the temporary file
    and last_access_map. *)
Record cst : Type := mkCst {
  cv_out : list Z; cv_map : gmap Z Z; cv_stat : tstat
}.

Definition cst_init : cst := mkCst [] ∅ (mkStat 0 0 0 0).

(** The loop body up to the check of the request count (lines 77-92). *)
Definition conv_body (g : og) (q : treq) (c : cst) : cst :=
  let s := cv_stat c in
  let '(nx, new) :=
    match cv_map c !! g_id g with
    | None => (-1, true)
    | Some v => (v, false)
    end in
  mkCst (cv_out c ++ og_bytes (mkOg (g_time g) (g_id g) (g_size g) nx))
        (<[fget q F_ID := st_req s]> (cv_map c))
        (mkStat (st_req s + 1)
                (if (new : bool) then st_obj s + 1 else st_obj s)
                (st_req_byte s + fget q F_SIZE)
                (if new then st_obj_byte s + fget q F_SIZE else st_obj_byte s)).

Section conv.
  Context (h : Z -> Z).

  (** The loop of lines 76-113. *)
  Fixpoint conv_loop (fuel : nat) (total : Z) (rd : reader) (q : treq) (c : cst)
    : res (reader * treq * cst) :=
    match fuel with
    | O => Err OutOfFuel
    | S fuel' =>
        let c1 := conv_body (og_init (mkOg 0 0 0 0) q) q c in
        if total * 2 <? st_req (cv_stat c1) then Err AssertFail
        else
          let! (rd1, q1, st) := read_one_req_above h rd q in
          if st =? 0 then conv_loop fuel' total rd1 q1 c1
          else Ok (rd1, q1, c1)
    end.
End conv.

(** _reverse_file (lines 222-248): from the end of the temporary file to its
    start. *)
Fixpoint rev_loop (fuel : nat) (tmp : list Z) (st : tstat) (rsc : bool)
  (pos : nat) (sizes : gmap Z Z) (n : Z) (out : list Z) : res (list Z * Z) :=
  match fuel with
  | O => Err OutOfFuel
  | S fuel' =>
      if (og_size <=? pos)%nat then
        let pos1 := (pos - og_size)%nat in
        let! g := og_load tmp pos1 in
        let nx := if negb (g_next g =? -1) then st_req st - g_next g else g_next g in
        let '(sz, sizes1) :=
          if rsc then
            match sizes !! g_id g with
            | Some s => (s, sizes)
            | None => (g_size g, <[g_id g := g_size g]> sizes)
            end
          else (g_size g, sizes) in
        rev_loop fuel' tmp st rsc pos1 sizes1 (n + 1)
          (out ++ og_bytes (mkOg (g_time g) (g_id g) sz nx))
      else Ok (out, n)
  end.

(** * The LCS header *)

(** lcs.h:12-13; start and end magic are the same number. *)
Definition lcs_magic : Z := 1311768467463790320.

Lemma lcs_magic_hex : lcs_magic = 0x123456789abcdef0.
Proof. reflexivity. Qed.

(** sizeof(lcs_trace_header_t) (lcs.h:15-57). *)
Definition lcs_header_size : nat := 1024.

Definition slice (f : list Z) (a b : nat) : list Z := take (b - a) (drop a f).

(** The header that _reverse_file writes (traceConv.cpp:189-208).  The local
    struct is not initialised: [g] is what was on the stack.  Offsets from
    lcs.h: start_magic 0, format 8, obj_id_field 248, obj_size_field 249,
    time_field 250, last_access_vtime_field 251, next_access_vtime_field 252,
    op_field 253, ttl_field 254, n_req 488, n_obj 496, n_req_byte 504,
    n_obj_byte 512, n_fields 1000, item_size 1004, version 1008,
    end_magic 1016. *)
Definition lcs_header (g : list Z) (st : tstat) : list Z :=
  le_bytes 8 lcs_magic ++
  [60; 73; 81; 73; 81] (* "<IQIQ" *) ++ slice g 13 248 ++
  [2; 3; 1] ++ slice g 251 252 ++ [4] ++ slice g 253 488 ++
  le_bytes 8 (st_req st) ++ le_bytes 8 (st_obj st) ++
  le_bytes 8 (st_req_byte st) ++ le_bytes 8 (st_obj_byte st) ++
  slice g 520 1000 ++ le_bytes 4 4 ++ le_bytes 4 24 ++ slice g 1008 1016 ++
  le_bytes 8 lcs_magic.

(** strlen(header->format): the number of bytes before the first zero byte. *)
Fixpoint strlen (l : list Z) : option nat :=
  match l with
  | [] => None
  | b :: l' => if b =? 0 then Some O else S <$> strlen l'
  end.

(** The format characters (readerInternal.h:57-79); the formats 'f' and 'd'
    are not modelled. *)
Definition bchar_of (c : Z) : option bchar :=
  if c =? 99 then Some Bc else if c =? 98 then Some Bb else
  if c =? 66 then Some BB else if c =? 104 then Some Bh else
  if c =? 72 then Some BH else if c =? 105 then Some Bi else
  if c =? 73 then Some BI else if c =? 108 then Some Bl else
  if c =? 76 then Some BL else if c =? 113 then Some Bq else
  if c =? 81 then Some BQ else None.

(** verify_LCS_trace_header (lcs.c:23-62) on the bytes [f]; the result is the
    list of format characters behind the '<'.  ERROR() aborts. *)
Definition verify_lcs (f : list Z) : res (list bchar) :=
  let! sm := le_at f 0 8 in
  if negb (sm =? lcs_magic) then Err AssertFail else
  let! em := le_at f 1016 8 in
  if negb (em =? lcs_magic) then Err AssertFail else
  let! nf := le_at f 1000 4 in
  match strlen (drop 8 f) with
  | None => Err OutOfBounds
  | Some len =>
      if negb (nf =? Z.of_nat len - 1) then Err AssertFail else
      let! oid := le_at f 248 1 in
      if nf <? oid then Err AssertFail else
      match mapM bchar_of (slice f 9 (8 + len)) with
      | None => Err AssertFail
      | Some fmt =>
          let! isz := le_at f 1004 4 in
          if negb (isz =? Z.of_nat (sum_list_with format_to_size fmt))
          then Err AssertFail else Ok fmt
      end
  end.

(** LCSReader_setup (lcs.c:64-95): the trace type and start offset of the
    reader; binaryReader_setup wants the format to start with '<'
    (binary.c:49-53).  The item size check of lcs.c:87-92 repeats the last check
    of verify_LCS_trace_header. *)
Definition lcs_setup (f : list Z) : res (ttype * nat) :=
  let! fmt := verify_lcs f in
  let! lt := le_at f 8 1 in
  if negb (lt =? 60) then Err AssertFail else
  let! oid := le_at f 248 1 in
  let! osz := le_at f 249 1 in
  let! tim := le_at f 250 1 in
  let! nxt := le_at f 252 1 in
  let! opf := le_at f 253 1 in
  let! ttl := le_at f 254 1 in
  Ok (T_BIN (mkBin fmt (Z.to_nat oid) (Z.to_nat tim) (Z.to_nat osz)
                   (Z.to_nat opf) (Z.to_nat ttl) (Z.to_nat nxt)),
      lcs_header_size).

(** * The conversion *)

(** new_request (include/libCacheSim/request.h:71-83): OP_INVALID is 15 in
    include/libCacheSim/enum.h; fields that are zero are left out. *)
Definition new_req : treq :=
  <[F_SIZE := 1]> (<[F_OP := 15]> (<[F_VALID := 1]> (<[F_NEXT := -2]> ∅))).

(** convert_to_oracleGeneral (lines 51-137) with _reverse_file (178-260).
    [freed] is what reading a freed request yields: req->clock_time is an
    argument of the INFO message of lines 122-127, after free_request(req).
    [lcs] is [Some stack] when an LCS header is asked for.  The result is the
    contents of the output file and the trace statistics. *)
Definition convert (h : Z -> Z) (freed : res Z) (rd : reader) (rsc : bool)
  (lcs : option (list Z)) : res (list Z * tstat) :=
  let total := Z.of_nat (n_total_req rd) in
  let rd1 := set_read_pos (set_fwd rd false) 1 1 in
  let '(rd2, _) := go_back_one rd1 in
  let! (rd3, q, _) := read_one_req h rd2 new_req in
  let! (rd4, q1, c) := conv_loop h (S (S (file_size rd))) total rd3 q cst_init in
  if (match rd_samp rd4 with None => true | _ => false end) &&
     negb (st_req (cv_stat c) =? total) then Err AssertFail else
  let! _ := freed in
  let st := cv_stat c in
  let! hd :=
    match lcs with
    | None => Ok []
    | Some g => let! _ := verify_lcs (lcs_header g st) in Ok (lcs_header g st)
    end in
  let! (out, n) :=
    rev_loop (S (length (cv_out c))) (cv_out c) st rsc (length (cv_out c)) ∅ 0 hd in
  if negb (n =? st_req st) then Err AssertFail else Ok (out, st).
