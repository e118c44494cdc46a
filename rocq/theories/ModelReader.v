(** The binary trace readers of libCacheSim: record decoding, forward and
    backward reading, skipping, resetting, cloning and sampling.
    All line numbers refer to files under /repo/libCacheSim.

    Modelled: traceReader/reader.c for binary traces that are not zstd
    compressed, traceReader/customizedReader/ (all formats), the generic
    binary reader generalReader/binary.c for integer formats and both samplers
    of traceReader/sampling.  Text and csv traces are in
    ModelTxt.v.  Not modelled: zstd input,
    the 'f' and 'd' formats of binary.c, [n_req_left] (only csv.c ever sets
    it), closing readers.  File offsets are unbounded naturals (size_t in C). *)
From stdpp Require Import gmap list numbers fin_maps.
From Verif Require Import Base.
Open Scope Z_scope.

(** * Bytes *)

(** The C code reads an unsigned [n]-byte little-endian integer through a cast
    pointer, for instance [*(uint32_t * )(record + 12)].  Reading outside the
    mapped file is an error. *)
Fixpoint le_at (f : list Z) (off n : nat) : res Z :=
  match n with
  | O => Ok 0
  | S n' =>
      match f !! off with
      | None => Err OutOfBounds
      | Some b => let! v := le_at f (S off) n' in Ok (b + 256 * v)
      end
  end.

(** The same bits read through a signed pointer ([int16_t], [int64_t], ...). *)
Definition signed (bits : Z) (v : Z) : Z :=
  if v <? 2 ^ (bits - 1) then v else v - 2 ^ bits.

(** * Requests *)

(** include/libCacheSim/request.h:21-65 (request_t) as a map from field to
    value: a field that a reader does not assign keeps its old value. *)
Notation treq := (gmap Z Z).
Definition F_TIME : Z := 0.
Definition F_ID : Z := 1.
Definition F_SIZE : Z := 2.
Definition F_OP : Z := 3.
Definition F_TTL : Z := 4.
Definition F_NS : Z := 5.
Definition F_NEXT : Z := 6.
Definition F_KEY : Z := 7.
Definition F_VAL : Z := 8.
Definition F_VALID : Z := 9.
Definition F_HV : Z := 10.
Definition F_CT : Z := 11.
Definition F_TENANT : Z := 12.
Definition F_BUCKET : Z := 13.
Definition F_AGE : Z := 14.
Definition F_HOST : Z := 15.
Definition F_EXT : Z := 16.
Definition F_NLEVEL : Z := 17.
Definition F_NPARAM : Z := 18.
Definition F_METHOD : Z := 19.
Definition F_COLO : Z := 20.

Definition fget (q : treq) (x : Z) : Z := default 0 (q !! x).

(** One assignment [req->field = post( *(uintN_t * )(record + off))]. *)
Record fieldrd : Type := mkF {
  f_field : Z;
  f_off   : nat;
  f_width : nat;
  f_post  : Z -> Z
}.

Definition raw (x : Z) : Z := x.

(** include/libCacheSim/const.h:61 and the normalisation of
    next_access_vtime (oracleGeneralBin.h:42-44 and the same lines of the
    other oracle readers); a field of -1 or INT64_MAX means "never". *)
Definition int64_max : Z := 2 ^ 63 - 1.
Definition next_post (v : Z) : Z :=
  let n := signed 64 v in
  if (n =? -1) || (n =? int64_max) then int64_max else n.

(** The assignments of a reader, in program order. *)
Fixpoint dec_table (t : list fieldrd) (f : list Z) (off : nat) (q : treq)
  : res treq :=
  match t with
  | [] => Ok q
  | e :: t' =>
      let! v := le_at f (off + f_off e)%nat (f_width e) in
      dec_table t' f off (<[f_field e := f_post e v]> q)
  end.

(** * Formats *)

(** generalReader/readerInternal.h:57-79 (format_to_size), integer formats. *)
Inductive bchar : Type :=
| Bc | Bb | BB | Bh | BH | Bi | BI | Bl | BL | Bq | BQ.

Definition format_to_size (c : bchar) : nat :=
  match c with
  | Bc | Bb | BB => 1
  | Bh | BH => 2
  | Bi | BI | Bl | BL => 4
  | Bq | BQ => 8
  end.

(** generalReader/binary.c:26-32 (cal_offset); the index is 1-based. *)
Definition cal_offset (fmt : list bchar) (idx : nat) : nat :=
  sum_list_with format_to_size (take (idx - 1) fmt).

(** generalReader/binary.c:183-210 (read_data): every integer format is read
    through a signed pointer and returned as int64_t. *)
Definition read_data (c : bchar) (v : Z) : Z :=
  signed (8 * Z.of_nat (format_to_size c)) v.

(** generalReader/binary.c:34-121: the parameters taken from init_params; an
    index of 0 means that the trace has no such field. *)
Record binp : Type := mkBin {
  b_fmt : list bchar;
  b_id : nat; b_time : nat; b_size : nat; b_op : nat; b_ttl : nat; b_next : nat
}.

Definition bin_field (p : binp) (fld : Z) (idx : nat) (conv : Z -> Z)
  : list fieldrd :=
  match idx with
  | O => []
  | S k =>
      match b_fmt p !! k with
      | None => []
      | Some c => [mkF fld (cal_offset (b_fmt p) idx) (format_to_size c)
                       (fun v => conv (read_data c v))]
      end
  end.

(** generalReader/binary.c:212-252 (binary_read_one_req): obj_id is a uint64_t,
    op an enum of 32 bits; the ttl field is only read under ENABLE_TTL, which
    no build file defines. *)
Definition bin_table (p : binp) : list fieldrd :=
  bin_field p F_ID (b_id p) u64 ++
  bin_field p F_TIME (b_time p) raw ++
  bin_field p F_SIZE (b_size p) raw ++
  bin_field p F_OP (b_op p) u32 ++
  bin_field p F_NEXT (b_next p) raw.

(** include/libCacheSim/enum.h (trace_type_e), the binary types. *)
Inductive ttype : Type :=
| T_BIN (p : binp) | T_VSCSI1 | T_VSCSI2 | T_TWR | T_TWRNS | T_CF1 | T_AKAMAI
| T_WIKI16u | T_WIKI19u | T_WIKI19t | T_III | T_IQI | T_IQQ | T_IQIBH
| T_OGEN | T_OGENOPNS | T_OSYS_TWRNS | T_OSIM_TWRNS | T_OCF1 | T_OAKAMAI
| T_OWIKI16u | T_OWIKI19u | T_VALPIN.

(** The setup functions: the reader's item_size (binary.c:109,
    vscsi.h:111-117, twrBin.h:27, twrNSBin.h:27, cf1Bin.h:35, akamaiBin.h:40,
    wikiBin.h:41,69,97, standardBin.h:32,58,82,107, oracleGeneralBin.h:24,53,
    oracleTwrNSBin.h:34,68, oracleCF1Bin.h:36, oracleAkamaiBin.h:22,
    oracleWikiBin.h:42,77, valpinBin.h:13). *)
Definition item_size (t : ttype) : nat :=
  match t with
  | T_BIN p => cal_offset (b_fmt p) (length (b_fmt p) + 1)
  | T_VSCSI1 => 32 | T_VSCSI2 => 40
  | T_TWR => 20 | T_TWRNS => 22
  | T_CF1 => 41 | T_AKAMAI => 22
  | T_WIKI16u => 14 | T_WIKI19u => 18 | T_WIKI19t => 16
  | T_III => 12 | T_IQI => 16 | T_IQQ => 20 | T_IQIBH => 19
  | T_OGEN => 24 | T_OGENOPNS => 27
  | T_OSYS_TWRNS => 34 | T_OSIM_TWRNS => 30
  | T_OCF1 => 49 | T_OAKAMAI => 30
  | T_OWIKI16u => 22 | T_OWIKI19u => 26
  | T_VALPIN => 8
  end.

(** The trace_type that the setup function stores in the reader: the type
    asked for, except that standardBinIQQ_setup (standardBin.h:29-36) stores
    STANDARD_IQI_TRACE. *)
Definition stored_type (t : ttype) : ttype :=
  match t with T_IQQ => T_IQI | _ => t end.

(** Field assignments of each read function, dispatched on the stored type by
    read_one_req (reader.c:297-377). *)
Definition table_of (t : ttype) : list fieldrd :=
  match t with
  | T_BIN p => bin_table p
  (* vscsi.h:126-137 *)
  | T_VSCSI1 => [mkF F_TIME 24 8 (fun v => v / 1000000); mkF F_SIZE 4 4 raw;
                 mkF F_ID 16 8 raw]
  (* vscsi.h:139-147 *)
  | T_VSCSI2 => [mkF F_TIME 24 8 (fun v => v / 1000000); mkF F_SIZE 8 4 raw;
                 mkF F_ID 16 8 raw]
  (* twrBin.h:42-57 *)
  | T_TWR => [mkF F_TIME 0 4 raw; mkF F_ID 4 8 raw;
              mkF F_KEY 12 4 (fun v => Z.land (Z.shiftr v 22) (2 ^ 10 - 1));
              mkF F_VAL 12 4 (fun v => Z.land v (2 ^ 22 - 1));
              mkF F_SIZE 12 4 (fun v => u32 (Z.land (Z.shiftr v 22) (2 ^ 10 - 1)
                                             + Z.land v (2 ^ 22 - 1)));
              mkF F_OP 16 4 (fun v => Z.land (Z.shiftr v 24) (2 ^ 8 - 1));
              mkF F_TTL 16 4 (fun v => Z.land v (2 ^ 24 - 1))]
  (* twrNSBin.h:42-59 *)
  | T_TWRNS => [mkF F_TIME 0 4 raw; mkF F_ID 4 8 raw; mkF F_NS 20 2 raw;
              mkF F_KEY 12 4 (fun v => Z.land (Z.shiftr v 22) (2 ^ 10 - 1));
              mkF F_VAL 12 4 (fun v => Z.land v (2 ^ 22 - 1));
              mkF F_SIZE 12 4 (fun v => u32 (Z.land (Z.shiftr v 22) (2 ^ 10 - 1)
                                             + Z.land v (2 ^ 22 - 1)));
              mkF F_OP 16 4 (fun v => Z.land (Z.shiftr v 24) (2 ^ 8 - 1));
              mkF F_TTL 16 4 (fun v => Z.land v (2 ^ 24 - 1))]
  (* cf1Bin.h:49-60; age and hostname are int32_t, extension, n_level,
     n_param and colo int16_t, method int8_t in request_t *)
  | T_CF1 => [mkF F_TIME 0 4 raw; mkF F_ID 4 8 raw; mkF F_SIZE 12 8 (signed 64);
              mkF F_TTL 20 4 (signed 32); mkF F_AGE 24 4 (signed 32);
              mkF F_HOST 28 4 (signed 32); mkF F_CT 32 2 raw;
              mkF F_EXT 34 2 (signed 16); mkF F_NLEVEL 36 2 (signed 16);
              mkF F_NPARAM 38 1 raw; mkF F_METHOD 39 1 (signed 8);
              mkF F_COLO 40 1 raw]
  (* akamaiBin.h:71-76 *)
  | T_AKAMAI => [mkF F_TIME 0 4 raw; mkF F_ID 4 8 raw; mkF F_SIZE 12 4 raw;
                 mkF F_TENANT 16 2 raw; mkF F_BUCKET 18 2 raw; mkF F_CT 20 2 raw]
  (* wikiBin.h:55-58 *)
  | T_WIKI16u => [mkF F_TIME 0 0 raw; mkF F_ID 0 8 raw; mkF F_SIZE 8 4 raw;
                  mkF F_CT 12 2 raw]
  (* wikiBin.h:83-86 *)
  | T_WIKI19u => [mkF F_TIME 0 4 raw; mkF F_ID 4 8 raw; mkF F_SIZE 12 4 raw;
                  mkF F_CT 16 2 raw]
  (* wikiBin.h:111-113 *)
  | T_WIKI19t => [mkF F_TIME 0 4 raw; mkF F_ID 4 8 raw; mkF F_SIZE 12 4 raw]
  (* standardBin.h:97-99 *)
  | T_III => [mkF F_TIME 0 4 raw; mkF F_ID 4 8 raw; mkF F_SIZE 8 4 raw]
  (* standardBin.h:72-74 *)
  | T_IQI => [mkF F_TIME 0 4 raw; mkF F_ID 4 8 raw; mkF F_SIZE 12 4 raw]
  (* standardBin.h:47-49 *)
  | T_IQQ => [mkF F_TIME 0 4 raw; mkF F_ID 4 8 raw; mkF F_SIZE 12 4 raw]
  (* standardBin.h:122-126 *)
  | T_IQIBH => [mkF F_TIME 0 4 raw; mkF F_ID 4 8 raw; mkF F_SIZE 12 4 raw;
                mkF F_OP 16 1 raw; mkF F_NS 17 2 raw]
  (* oracle/oracleGeneralBin.h:38-44 *)
  | T_OGEN => [mkF F_TIME 0 4 raw; mkF F_ID 4 8 raw; mkF F_SIZE 12 4 raw;
               mkF F_NEXT 16 8 next_post]
  (* oracle/oracleGeneralBin.h:67-75 *)
  | T_OGENOPNS => [mkF F_TIME 0 4 raw; mkF F_ID 4 8 raw; mkF F_SIZE 12 4 raw;
                   mkF F_OP 16 1 raw; mkF F_NS 17 2 raw; mkF F_NEXT 19 8 next_post]
  (* oracle/oracleTwrNSBin.h:82-94; obj_size is the sum of the two sizes *)
  | T_OSYS_TWRNS => [mkF F_TIME 0 4 raw; mkF F_ID 4 8 raw; mkF F_KEY 12 2 raw;
               mkF F_VAL 14 4 raw;
               mkF F_SIZE 12 6 (fun v => v mod 2 ^ 16 + v / 2 ^ 16);
               mkF F_OP 18 2 raw; mkF F_NS 20 2 raw; mkF F_TTL 22 4 (signed 32);
               mkF F_NEXT 26 8 next_post]
  (* oracle/oracleTwrNSBin.h:48-57 *)
  | T_OSIM_TWRNS => [mkF F_TIME 0 4 raw; mkF F_ID 4 8 raw; mkF F_SIZE 12 4 raw;
               mkF F_TTL 16 4 (signed 32); mkF F_NS 20 2 raw;
               mkF F_NEXT 22 8 next_post]
  (* oracle/oracleCF1Bin.h:50-71; the correction of lines 53-55 never applies:
     obj_size is an int64_t, so a value above 0xFFFFFFFF00000000 is negative
     and not larger than UINT32_MAX *)
  | T_OCF1 => [mkF F_TIME 0 4 raw; mkF F_ID 4 8 raw; mkF F_SIZE 12 8 (signed 64);
               mkF F_TTL 20 4 (signed 32); mkF F_AGE 24 4 (signed 32);
               mkF F_HOST 28 4 (signed 32); mkF F_NEXT 32 8 next_post;
               mkF F_CT 40 2 raw; mkF F_EXT 42 2 (signed 16);
               mkF F_NLEVEL 44 2 (signed 16); mkF F_NPARAM 46 1 raw;
               mkF F_METHOD 47 1 (signed 8); mkF F_COLO 48 1 raw]
  (* oracle/oracleAkamaiBin.h:36-45 *)
  | T_OAKAMAI => [mkF F_TIME 0 4 raw; mkF F_ID 4 8 raw; mkF F_SIZE 12 4 raw;
               mkF F_TENANT 16 2 (fun v => signed 16 v - 1);
               mkF F_BUCKET 18 2 (fun v => signed 16 v - 1);
               mkF F_CT 20 2 (fun v => signed 16 v - 1);
               mkF F_NEXT 22 8 next_post]
  (* oracle/oracleWikiBin.h:56-63 *)
  | T_OWIKI16u => [mkF F_TIME 0 0 raw; mkF F_ID 0 8 raw; mkF F_SIZE 8 4 raw;
               mkF F_CT 12 2 raw; mkF F_NEXT 14 8 next_post]
  (* oracle/oracleWikiBin.h:91-98 *)
  | T_OWIKI19u => [mkF F_TIME 0 4 raw; mkF F_ID 4 8 raw; mkF F_SIZE 12 4 raw;
               mkF F_CT 16 2 raw; mkF F_NEXT 18 8 next_post]
  (* valpinBin.h:27-28 *)
  | T_VALPIN => [mkF F_ID 0 8 raw; mkF F_SIZE 0 0 (fun _ => 1)]
  end.

(** When a read function skips the record it has just decoded and reads the
    next one (the recursive calls of the read functions). *)
Inductive skipkind : Type :=
| SkNever        (* standardBin.h, valpinBin.h, binary.c, vscsi.h *)
| SkSize0        (* obj_size == 0, only when reading forward *)
| SkSize0Any     (* wikiBin.h:60-61, 88-89: also when reading backward *)
| SkVal0         (* twrBin.h:59-63: val_size == 0 of a get, forward *)
| SkVal0Abort.   (* oracleTwrNSBin.h:96-101: the same, but ERROR aborts *)

Definition skip_of (t : ttype) : skipkind :=
  match t with
  | T_BIN _ | T_VSCSI1 | T_VSCSI2 | T_III | T_IQI | T_IQQ | T_IQIBH
  | T_VALPIN => SkNever
  | T_WIKI16u | T_WIKI19u => SkSize0Any
  | T_CF1 | T_AKAMAI | T_WIKI19t | T_OGEN | T_OGENOPNS | T_OCF1 | T_OAKAMAI
  | T_OWIKI16u | T_OWIKI19u => SkSize0
  | T_TWR | T_TWRNS | T_OSIM_TWRNS => SkVal0
  | T_OSYS_TWRNS => SkVal0Abort
  end.

(** * Samplers *)

(** traceReader/sampling/spatial.c and temporal.c; [inv] is
    sampling_ratio_inv. *)
Inductive sampler : Type :=
| Spatial (inv : Z)
| Temporal (inv : Z) (n_samples : Z).

(** clone_spatial_sampler (spatial.c:23-29), clone_temporal_sampler
    (temporal.c:27-34). *)
Definition clone_sampler (s : sampler) : sampler :=
  match s with Spatial k => Spatial k | Temporal k _ => Temporal k 0 end.

(** * The reader *)

(** include/libCacheSim/reader.h:73-135 (reader_t), the fields used by the
    modelled code. *)
Record reader : Type := mkRd {
  rd_type : ttype;              (* trace_type, as stored by the setup *)
  rd_isz : nat;                 (* item_size *)
  rd_file : list Z;             (* mapped_file, file_size *)
  rd_start : nat;               (* trace_start_offset *)
  rd_off : nat;                 (* mmap_offset *)
  rd_cap : Z;                   (* cap_at_n_req *)
  rd_nread : Z;                 (* n_read_req *)
  rd_fwd : bool;                (* read_direction == READ_FORWARD *)
  rd_ign0 : bool;               (* ignore_size_zero_req *)
  rd_ignsz : bool;              (* ignore_obj_size *)
  rd_samp : option sampler;     (* sampler *)
  rd_isamp : option sampler     (* init_params.sampler *)
}.

Definition set_off (rd : reader) (o : nat) : reader :=
  mkRd (rd_type rd) (rd_isz rd) (rd_file rd) (rd_start rd) o (rd_cap rd)
       (rd_nread rd) (rd_fwd rd) (rd_ign0 rd) (rd_ignsz rd) (rd_samp rd) (rd_isamp rd).
Definition set_nread (rd : reader) (n : Z) : reader :=
  mkRd (rd_type rd) (rd_isz rd) (rd_file rd) (rd_start rd) (rd_off rd) (rd_cap rd)
       n (rd_fwd rd) (rd_ign0 rd) (rd_ignsz rd) (rd_samp rd) (rd_isamp rd).
Definition set_samp (rd : reader) (s : option sampler) : reader :=
  mkRd (rd_type rd) (rd_isz rd) (rd_file rd) (rd_start rd) (rd_off rd) (rd_cap rd)
       (rd_nread rd) (rd_fwd rd) (rd_ign0 rd) (rd_ignsz rd) s (rd_isamp rd).
Definition set_fwd (rd : reader) (b : bool) : reader :=
  mkRd (rd_type rd) (rd_isz rd) (rd_file rd) (rd_start rd) (rd_off rd) (rd_cap rd)
       (rd_nread rd) b (rd_ign0 rd) (rd_ignsz rd) (rd_samp rd) (rd_isamp rd).

Definition file_size (rd : reader) : nat := length (rd_file rd).

(** setup_reader (reader.c:41-256) with init_params given. *)
Definition setup_reader (t : ttype) (file : list Z) (start : nat) (cap : Z)
  (ign0 ignsz : bool) (s : option sampler) : reader :=
  mkRd (stored_type t) (item_size t) file start start cap 0 true ign0 ignsz
       (clone_sampler <$> s) s.

(** setup_reader with init_params == NULL (lines 67-96): zero-size requests
    are ignored, and cap_at_n_req keeps whatever malloc returned, here the
    argument [garbage]. *)
Definition setup_reader_null (t : ttype) (file : list Z) (garbage : Z) : reader :=
  mkRd (stored_type t) (item_size t) file 0 0 garbage 0 true true false None None.

(** reader.c:228-241: n_total_req of a binary trace (get_num_of_req,
    reader.c:574-577). *)
Definition n_total_req (rd : reader) : nat :=
  ((file_size rd - rd_start rd) / rd_isz rd)%nat.

(** clone_reader (reader.c:594-604). *)
Definition clone_reader (rd : reader) : reader :=
  setup_reader (rd_type rd) (rd_file rd) (rd_start rd) (rd_cap rd) (rd_ign0 rd)
               (rd_ignsz rd) (rd_isamp rd).

(** reset_reader (reader.c:550-572). *)
Definition reset_reader (rd : reader) : reader :=
  set_off (set_nread rd 0) (rd_start rd).

Definition set_invalid (q : treq) : treq := <[F_VALID := 0]> q.

Definition is_get (q : treq) : bool := (fget q F_OP =? 1) || (fget q F_OP =? 2).

(** The skip condition after decoding; [Err AssertFail] is the abort of
    oracleTwrNSBin.h:98. *)
Definition skip_rec (rd : reader) (q : treq) : res bool :=
  match skip_of (rd_type rd) with
  | SkNever => Ok false
  | SkSize0 => Ok ((fget q F_SIZE =? 0) && rd_ign0 rd && rd_fwd rd)
  | SkSize0Any => Ok ((fget q F_SIZE =? 0) && rd_ign0 rd)
  | SkVal0 => Ok ((fget q F_VAL =? 0) && rd_ign0 rd && is_get q && rd_fwd rd)
  | SkVal0Abort =>
      if (fget q F_VAL =? 0) && rd_ign0 rd && is_get q && rd_fwd rd
      then Err AssertFail else Ok false
  end.

(** End-of-file test of the read functions: _read_bytes (binaryUtils.h:14-23)
    compares the offset with the file size; vscsi_read_one_req
    (vscsi.h:149-153) compares it with n_total_req * item_size;
    binary_read_one_req has no test of its own. *)
Definition at_eof (rd : reader) : bool :=
  match rd_type rd with
  | T_BIN _ => false
  | T_VSCSI1 | T_VSCSI2 => (n_total_req rd * rd_isz rd <=? rd_off rd)%nat
  | _ => (file_size rd <=? rd_off rd)%nat
  end.

(** The read function of the stored trace type, including its recursion. *)
Fixpoint item_read (fuel : nat) (rd : reader) (q : treq)
  : res (reader * treq * Z) :=
  match fuel with
  | O => Err OutOfFuel
  | S fuel' =>
      if at_eof rd then Ok (rd, set_invalid q, 1)
      else
        let! q1 := dec_table (table_of (rd_type rd)) (rd_file rd) (rd_off rd) q in
        let rd1 := set_off rd (rd_off rd + rd_isz rd)%nat in
        let! sk := skip_rec rd1 q1 in
        if (sk : bool) then item_read fuel' rd1 q1 else Ok (rd1, q1, 0)
  end.

Definition prologue (q : treq) : treq :=
  <[F_VALID := 1]> (<[F_TTL := -1]> (<[F_HV := 0]> q)).

Definition ign_size (rd : reader) (q : treq) : treq :=
  if rd_ignsz rd then <[F_SIZE := 1]> q else q.

(** The two tests at the start of read_one_req (reader.c:266-278). *)
Definition no_more (rd : reader) : bool :=
  (file_size rd <=? rd_off rd)%nat
  || ((1 <? rd_cap rd) && (rd_cap rd <=? rd_nread rd)).

(** read_one_req (reader.c:265-408) while reader->sampler == NULL. *)
Definition read_raw (rd : reader) (q : treq) : res (reader * treq * Z) :=
  if no_more rd then Ok (rd, set_invalid q, 1)
  else
    let! (rd1, q1, st) :=
      item_read (S (file_size rd)) (set_nread rd (rd_nread rd + 1)) (prologue q) in
    Ok (rd1, ign_size rd q1, st).

(** go_back_one_req (reader.c:464-470) and go_back_two_req (477-486); the
    status is 0 on success. *)
Definition go_back_one (rd : reader) : reader * Z :=
  if (rd_start rd + rd_isz rd <=? rd_off rd)%nat
  then (set_off rd (rd_off rd - rd_isz rd)%nat, 0) else (rd, 1).

Definition go_back_two (rd : reader) : reader * Z :=
  let '(rd1, st) := go_back_one rd in
  if st =? 0 then go_back_one rd1 else (rd1, 1).

(** read_one_req_above (reader.c:499-512) while reader->sampler == NULL. *)
Definition read_above_raw (rd : reader) (q : treq) : res (reader * treq * Z) :=
  let '(rd1, st) := go_back_two rd in
  if st =? 0 then read_raw rd1 q else Ok (rd1, set_invalid q, 1).

(** skip_n_req (reader.c:520-548) for N >= 0. *)
Definition skip_n_req (rd : reader) (N : nat) : reader * nat :=
  if (rd_off rd + N * rd_isz rd <=? file_size rd)%nat
  then (set_off rd (rd_off rd + N * rd_isz rd)%nat, N)
  else (set_off rd (file_size rd), ((file_size rd - rd_off rd) / rd_isz rd)%nat).

(** reader_set_read_pos (reader.c:667-691) with pos = num / den <= 1; the
    product is computed in double precision in C, exactly here. *)
Definition set_read_pos (rd : reader) (num den : nat) : reader :=
  let offset := (file_size rd * num / den)%nat in
  set_off rd (offset - offset mod rd_isz rd)%nat.

Section sampled.
  (** get_hash_value_int_64 of the object id. *)
  Context (h : Z -> Z).

  (** spatial_sample (spatial.c:13-21), temporal_sample (temporal.c:16-25). *)
  Definition do_sample (s : sampler) (q : treq) : bool * sampler * treq :=
    match s with
    | Spatial k =>
        let hv := if fget q F_HV =? 0 then h (fget q F_ID) else fget q F_HV in
        let q' := <[F_HV := hv]> q in
        (hv mod k =? 0, s, q')
    | Temporal k n =>
        if n + 1 =? k then (true, Temporal k 0, q)
        else (false, Temporal k (n + 1), q)
    end.

  (** The loop of reader.c:379-397; [rd] has sampler == NULL meanwhile. *)
  Fixpoint sample_loop (fuel : nat) (s : sampler) (rd : reader) (q : treq) (st : Z)
    : res (sampler * reader * treq * Z) :=
    match fuel with
    | O => Err OutOfFuel
    | S fuel' =>
        let '(ok, s1, q1) := do_sample s q in
        if (ok : bool) then Ok (s1, rd, q1, st)
        else
          let! (rd2, q2, st2) :=
            if rd_fwd rd then read_raw rd q1 else read_above_raw rd q1 in
          if st2 =? 0 then sample_loop fuel' s1 rd2 q2 st2
          else Ok (s1, rd2, q2, st2)
    end.

  (** read_one_req (reader.c:265-408). *)
  Definition read_one_req (rd : reader) (q : treq) : res (reader * treq * Z) :=
    match rd_samp rd with
    | None => read_raw rd q
    | Some s =>
        if no_more rd then Ok (rd, set_invalid q, 1)
        else
          let! (rd1, q1, st) :=
            item_read (S (file_size rd))
              (set_nread (set_samp rd None) (rd_nread rd + 1)) (prologue q) in
          let! (s2, rd2, q2, st2) :=
            sample_loop (S (S (file_size rd))) s rd1 q1 st in
          Ok (set_samp rd2 (Some s2), ign_size rd q2, st2)
    end.

  (** read_one_req_above (reader.c:499-512). *)
  Definition read_one_req_above (rd : reader) (q : treq) : res (reader * treq * Z) :=
    let '(rd1, st) := go_back_two rd in
    if st =? 0 then read_one_req rd1 q else Ok (rd1, set_invalid q, 1).

  (** The client loop [while (read_one_req(reader, req) == 0) ...]; returns
      the requests seen by the loop body. *)
  Fixpoint read_all (fuel : nat) (rd : reader) (q : treq)
    : res (list treq * reader * treq) :=
    match fuel with
    | O => Err OutOfFuel
    | S fuel' =>
        let! (rd1, q1, st) := read_one_req rd q in
        if st =? 0 then
          let! (l, rd2, q2) := read_all fuel' rd1 q1 in
          Ok (q1 :: l, rd2, q2)
        else Ok ([], rd1, q1)
    end.

  (** read_first_req and read_last_req (reader.c:693-708). *)
  Definition read_first_req (rd : reader) (q : treq) : res (reader * treq) :=
    let! (rd1, q1, _) := read_one_req (reset_reader rd) q in
    Ok (set_off rd1 (rd_off rd), q1).

  Definition read_last_req (rd : reader) (q : treq) : res (reader * treq) :=
    let '(rd1, _) := go_back_one (set_read_pos (reset_reader rd) 1 1) in
    let! (rd2, q2, _) := read_one_req rd1 q in
    Ok (set_off rd2 (rd_off rd), q2).
End sampled.
