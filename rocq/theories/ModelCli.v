(** The command line of cachesim: sizes, lists of algorithms, trace types and
    trace parameters.  Line numbers refer to files under
    /repo/libCacheSim/bin.  Text is a list of bytes without the final NUL.
    Not modelled: argp, printing, the floating-point conversions (parameters
    below), the construction of the caches. *)
From stdpp Require Import gmap list numbers strings.
From Verif Require Import Base ModelTxt.
Open Scope Z_scope.

(** A C string literal. *)
Definition lit (s : string) : list Z := (fun a => Z.of_N (Ascii.N_of_ascii a)) <$> String.list_ascii_of_string s.

(** * The C library *)

(** tolower in the C locale. *)
Definition lower (c : Z) : Z := if (65 <=? c) && (c <=? 90) then c + 32 else c.

(** strcasecmp(a, b) == 0 *)
Definition eqci (a b : list Z) : bool := bool_decide (lower <$> a = lower <$> b).

Fixpoint is_prefix (n h : list Z) : bool :=
  match n, h with
  | [], _ => true
  | x :: n, y :: h => (x =? y) && is_prefix n h
  | _, _ => false
  end.
(** strstr(h, n) != NULL *)
Fixpoint has_sub (n h : list Z) : bool :=
  is_prefix n h || match h with [] => false | _ :: h => has_sub n h end.
(** strcasestr(h, n) != NULL *)
Definition has_subci (n h : list Z) : bool := has_sub (lower <$> n) (lower <$> h).

(** The digits at the front and what follows them. *)
Fixpoint run_digits (base acc : Z) (s : list Z) : Z * list Z :=
  match s with
  | [] => (acc, [])
  | c :: s' =>
      match digit_in base c with
      | Some d => run_digits base (acc * base + d) s'
      | None => (acc, s)
      end
  end.
(** A number in the given base: its magnitude and the rest, [None] when there
    is no digit. *)
Definition number_in (base : Z) (s : list Z) : option (Z * list Z) :=
  match s with
  | c :: _ => match digit_in base c with Some _ => Some (run_digits base 0 s) | None => None end
  | [] => None
  end.
(** The same with base 0: "0x" and "0" announce bases 16 and 8. *)
Definition number_any (s : list Z) : option (Z * list Z) :=
  match s with
  | 48 :: x :: s' =>
      if (x =? 120) || (x =? 88)
      then match number_in 16 s' with Some r => Some r | None => Some (0, x :: s') end
      else number_in 8 s
  | _ => number_in 10 s
  end.

(** strtoul(s, NULL, 10): ULONG_MAX when the number does not fit. *)
Definition strtoul10 (s : list Z) : Z :=
  let '(neg, s1) := take_sign (skip_spaces s) in
  match number_in 10 s1 with
  | None => 0
  | Some (v, _) => if 2 ^ 64 <=? v then 2 ^ 64 - 1 else if (neg : bool) then u64 (- v) else v
  end.
(** long: the nearest representable value. *)
Definition clamp_long (neg : bool) (v : Z) : Z :=
  if neg then (if 2 ^ 63 <=? v then - 2 ^ 63 else - v) else (if 2 ^ 63 <=? v then 2 ^ 63 - 1 else v).
(** strtol(s, NULL, 10) *)
Definition strtol10 (s : list Z) : Z :=
  let '(neg, s1) := take_sign (skip_spaces s) in
  match number_in 10 s1 with None => 0 | Some (v, _) => clamp_long neg v end.
(** strtol(s, &end, 0): the value and the text at end. *)
Definition strtol0 (s : list Z) : Z * list Z :=
  let '(neg, s1) := take_sign (skip_spaces s) in
  match number_any s1 with None => (0, s) | Some (v, e) => (clamp_long neg v, e) end.

(** The pieces of [s] between the characters [c] (one more than there are). *)
Fixpoint split_on (c : Z) (s : list Z) : list (list Z) :=
  match s with
  | [] => [[]]
  | x :: s' =>
      if x =? c then [] :: split_on c s'
      else match split_on c s' with p :: ps => (x :: p) :: ps | [] => [[x]] end
  end.
(** The pieces that successive calls of strtok(s, c) return. *)
Definition tokens (c : Z) (s : list Z) : list (list Z) := filter (fun t => t <> []) (split_on c s).

(** strsep(&p, c): the piece and the new pointer ([None]: NULL).  The caller
    deals with p == NULL. *)
Fixpoint sep (c : Z) (s : list Z) : list Z * option (list Z) :=
  match s with
  | [] => ([], None)
  | x :: s' => if x =? c then ([], Some s') else let '(p, r) := sep c s' in (x :: p, r)
  end.

(** utils/mystr.c:50-57 (replace_char) *)
Definition replace_char (s : list Z) (find new : Z) : list Z := (fun c => if c =? find then new else c) <$> s.

(** * Cache sizes *)

(** include/libCacheSim/const.h:51-54 *)
Definition KiB : Z := 1024.
Definition MiB : Z := 1048576.
Definition GiB : Z := 1073741824.
Definition TiB : Z := 1099511627776.

(** cachesim/cli_parser.c:395-422 (conv_size_str_to_byte_ul).  An empty text
    makes it read before the first character. *)
Definition conv_size (s : list Z) : res Z :=
  if eqci s (lit "auto") then Ok 0
  else match last s with
       | None => Err OutOfBounds
       | Some c =>
           if has_subci (lit "kb") s || (lower c =? 107) then Ok (u64 (strtoul10 s * KiB))
           else if has_subci (lit "mb") s || (lower c =? 109) then Ok (u64 (strtoul10 s * MiB))
           else if has_subci (lit "gb") s || (lower c =? 103) then Ok (u64 (strtoul10 s * GiB))
           else if has_subci (lit "tb") s || (lower c =? 116) then Ok (u64 (strtoul10 s * TiB))
           else let n := strtol10 s in Ok (u64 (if n =? -1 then 0 else n))
       end.

(** cachesim/internal.h:17 *)
Definition N_MAX_CACHE_SIZE : Z := 128.
Definition N_MAX_ALGO : Z := 16.

Section Sizes.
  (** The working set in objects and bytes (cal_working_set_size below). *)
  Context (wss_obj wss_byte : Z) (ignore_obj_size : bool).
  (** (uint64_t)(wss * atof(token)): double arithmetic. *)
  Context (fraction : Z -> list Z -> Z).
  (** (long)(w * s[i]) for the i-th automatic ratio: double arithmetic. *)
  Context (part : nat -> Z -> Z).

  Definition the_wss : Z := if ignore_obj_size then wss_obj else wss_byte.

  (** cachesim/cli_parser.c:438-452: [n] sizes are stored already. *)
  Fixpoint size_tokens (n : Z) (ts : list (list Z)) : res (list Z) :=
    match ts with
    | [] => Ok []
    | t :: ts =>
        let! v := (if bool_decide (46 ∈ t) then Ok (fraction the_wss t) else conv_size t) in
        if decide (n >= N_MAX_CACHE_SIZE) then Err OutOfBounds
        else let! vs := size_tokens (n + 1) ts in Ok (v :: vs)
    end.

  (** cachesim/cli_parser.c:461-491 (set_cache_size); [None]: exit(0). *)
  Definition auto_sizes : option (list Z) :=
    let big i := if ignore_obj_size then bool_decide (part i wss_obj > 4)
                 else bool_decide (part i wss_obj >= 100) in
    match omap (fun i => if big i then Some (u64 (part i the_wss)) else None) (seq 0 8) with
    | [] => None
    | l => Some l
    end.

  (** cachesim/cli_parser.c:434-459 (conv_cache_sizes); [None]: the program ends. *)
  Definition conv_cache_sizes (s : list Z) : res (option (list Z)) :=
    let! vs := size_tokens 0 (tokens 44 s) in
    match vs with
    | [0] => Ok auto_sizes
    | _ => Ok (Some vs)
    end.
End Sizes.

(** cachesim/cli_parser.c:369-385 (parse_eviction_algo): an array of 4096 bytes
    and one of N_MAX_ALGO names.  The loop ends when nothing is left, so that
    only empty names in the middle are kept. *)
Fixpoint algo_loop (fuel : nat) (n : Z) (s : list Z) : res (list (list Z)) :=
  match s with
  | [] => Ok []
  | _ =>
      match fuel with
      | O => Err OutOfFuel
      | S f =>
          if decide (n >= N_MAX_ALGO) then Err OutOfBounds
          else
            let '(a, r) := sep 44 s in
            let! l := match r with Some s' => algo_loop f (n + 1) s' | None => Ok [] end in
            Ok (a :: l)
      end
  end.
Definition parse_algos (s : list Z) : res (list (list Z)) :=
  if decide (Z.of_nat (length s) >= 4096) then Err OutOfBounds else algo_loop (length s) 0 s.

(** cachesim/cli_parser.c:340-357: the caches created, in the order of the array
    caches (the element idx = i * n_cache_size + j is algorithm i with size j). *)
Definition cache_list (algos : list (list Z)) (sizes : list Z) : list (list Z * Z) :=
  a ← algos; (fun z => (a, z)) <$> sizes.

(** cli_reader_utils.c:245-284 (cal_working_set_size): ids and sizes of the
    requests the reader delivers, the size of the file.  The products and sums
    are those of int64_t, taken not to overflow. *)
Definition wss_factor (file_size : Z) : Z :=
  if decide (file_size > 5 * GiB) then 101 else if decide (file_size > GiB) then 11 else 1.
Fixpoint wss_loop (sf : Z) (seen : gset Z) (tr : list (Z * Z)) (no nb : Z) : Z * Z :=
  match tr with
  | [] => (no, nb)
  | (id, sz) :: tr =>
      if decide (sf > 1 /\ id mod sf <> 0) then wss_loop sf seen tr no nb
      else if decide (id ∈ seen) then wss_loop sf seen tr no nb
      else wss_loop sf ({[id]} ∪ seen) tr (no + 1) (nb + sz)
  end.
Definition working_set (file_size : Z) (tr : list (Z * Z)) : Z * Z :=
  let sf := wss_factor file_size in
  let '(no, nb) := wss_loop sf ∅ tr 0 0 in (no * sf, nb * sf).

(** * Trace types and trace parameters *)

(** include/libCacheSim/enum.h:30-66 (those reachable by a name) *)
Inductive ttype : Type :=
  TCsv | TBin | TTxt | TOracleGeneral | TLcs | TVscsi | TTwr | TTwrNS | TCF1 | TOpNS | TSysTwrNS
| TOracleCF1 | TAkamai | TWiki16 | TWiki19 | TValpin | TUnknown.
Global Instance ttype_eq_dec : EqDecision ttype.
Proof. solve_decision. Defined.

(** cli_reader_utils.c:186-220 (detect_trace_type).  The comparison of the last
    13 characters reads before a shorter path.  *)
Definition detect (path : list Z) : res ttype :=
  if has_subci (lit "oracleGeneralBin") path || has_subci (lit "oracleGeneral.bin") path ||
     has_subci (lit "bin.oracleGeneral") path || has_subci (lit "oracleGeneral.zst") path ||
     has_subci (lit "oracleGeneral.") path then Ok TOracleGeneral
  else if decide (Z.of_nat (length path) < 13) then Err OutOfBounds
  else if eqci (drop (length path - 13) path) (lit "oracleGeneral") then Ok TOracleGeneral
  else Ok (if has_subci (lit ".vscsi") path then TVscsi
           else if has_subci (lit "oracleGeneralOpNS") path then TOpNS
           else if has_subci (lit "oracleCF1") path then TOracleCF1
           else if has_subci (lit "oracleAkamai") path then TAkamai
           else if has_subci (lit "oracleWiki16u") path then TWiki16
           else if has_subci (lit "oracleWiki19u") path then TWiki19
           else if has_subci (lit ".twr.") path then TTwr
           else if has_subci (lit ".twrNS.") path then TTwrNS
           else if has_subci (lit "oracleSysTwrNS") path then TSysTwrNS
           else TUnknown).

(** cli_reader_utils.c:30-63: the names. *)
Definition type_names : list (string * ttype) :=
  [("txt", TTxt); ("csv", TCsv); ("binary", TBin); ("lcs", TLcs); ("twr", TTwr); ("twrNS", TTwrNS);
   ("vscsi", TVscsi); ("CF1", TCF1); ("oracleWiki16u", TWiki16); ("oracleWiki19u", TWiki19);
   ("oracleGeneralBin", TOracleGeneral); ("oracleGeneral", TOracleGeneral); ("oracleGeneralOpNS", TOpNS);
   ("oracleAkamai", TAkamai); ("oracleCF1", TOracleCF1); ("oracleSysTwrNS", TSysTwrNS); ("valpinTrace", TValpin)]%string.
Fixpoint by_name (s : list Z) (l : list (string * ttype)) : option ttype :=
  match l with
  | [] => None
  | (n, t) :: l => if eqci s (lit n) then Some t else by_name s l
  end.
(** cli_reader_utils.c:20-68 (trace_type_str_to_enum): after "auto" the detected
    type is not returned.  ERROR aborts. *)
Definition trace_type (s path : list Z) : res ttype :=
  if eqci s (lit "auto") then
    let! t := detect path in
    if decide (t = TUnknown) then Err AssertFail else Ok TUnknown
  else match by_name s type_names with Some t => Ok t | None => Err AssertFail end.
(** traceReader/reader.c:140-225: setup_reader aborts for an unknown type. *)
Definition open_type (s path : list Z) : res ttype :=
  let! t := trace_type s path in if decide (t = TUnknown) then Err AssertFail else Ok t.

(** include/libCacheSim/reader.h (reader_init_param_t): the fields that the
    parameters set. *)
Record rparams : Type := mkRP {
  rp_time : Z; rp_id : Z; rp_size : Z; rp_cnt : Z; rp_next : Z;
  rp_idnum : bool; rp_hdr : bool; rp_hdrset : bool;
  rp_fmt : option (list Z);
  rp_delim : Z
}.
(** cachesim/cli_parser.c:302-308, cli_reader_utils.c:303-309: memset to 0,
    obj_id_is_num = true. *)
Definition rp0 : rparams := mkRP 0 0 0 0 0 true false false None 0.

(** cli_reader_utils.c:70-81 (is_true) *)
Definition is_true (s : list Z) : res bool :=
  if eqci s (lit "true") || eqci s (lit "1") || eqci s (lit "yes") || eqci s (lit "y") then Ok true
  else if eqci s (lit "false") || eqci s (lit "0") || eqci s (lit "no") || eqci s (lit "n") then Ok false
  else Err AssertFail.

(** cli_reader_utils.c:114-116 and the like: a column; converted to int. *)
Definition column (v : list Z) : res Z :=
  let '(n, e) := strtol0 v in
  if decide (Z.of_nat (length e) > 2) then Err AssertFail else Ok (i32 n).

(** cli_reader_utils.c:147-170 *)
Definition delim_of (v : list Z) : res Z :=
  match v with
  | [] => Ok 44
  | [92] => Ok 44
  | 92 :: [c] => if c =? 116 then Ok 9 else Err AssertFail
  | 92 :: _ => Err AssertFail
  | c :: _ => Ok c
  end.

(** cli_reader_utils.c:110-174: one parameter. *)
Definition set_param (p : rparams) (key v : list Z) : res rparams :=
  let k := replace_char key 95 45 in
  let is n := eqci k (lit n) in
  let '(mkRP t i z c x num h hs f d) := p in
  if is "time-col"%string || is "time-field"%string then let! n := column v in Ok (mkRP n i z c x num h hs f d)
  else if is "obj-id-col"%string || is "obj-id-field"%string then let! n := column v in Ok (mkRP t n z c x num h hs f d)
  else if is "obj-size-col"%string || is "obj-size-field"%string || is "size-col"%string || is "size-field"%string
    then let! n := column v in Ok (mkRP t i n c x num h hs f d)
  else if is "cnt-col"%string || is "cnt-field"%string then let! n := column v in Ok (mkRP t i z n x num h hs f d)
  else if is "next-access-col"%string || is "next-access-field"%string then let! n := column v in Ok (mkRP t i z c n num h hs f d)
  else if is "obj-id-is-num"%string then let! b := is_true v in Ok (mkRP t i z c x b h hs f d)
  else if is "header"%string || is "has-header"%string then let! b := is_true v in Ok (mkRP t i z c x num b true f d)
  else if is "format"%string then Ok (mkRP t i z c x num h hs (Some v) d)
  else if is "delimiter"%string then let! n := delim_of v in Ok (mkRP t i z c x num h hs f n)
  else Err AssertFail.

(** cli_reader_utils.c:105-108: skip blanks and commas. *)
Fixpoint skip_sep (s : list Z) : list Z :=
  match s with
  | c :: s' => if (c =? 32) || (c =? 44) then skip_sep s' else s
  | [] => []
  end.

(** The keys of cli_reader_utils.c:110-147. *)
Definition known_keys : list string :=
  ["time-col"; "time-field"; "obj-id-col"; "obj-id-field"; "obj-size-col"; "obj-size-field"; "size-col"; "size-field";
   "cnt-col"; "cnt-field"; "next-access-col"; "next-access-field"; "obj-id-is-num"; "header"; "has-header"; "format";
   "delimiter"]%string.

(** cli_reader_utils.c:99-175: the loop.  A known key without "=" has the value
    NULL, which strtol, strcasecmp, strdup and value[0] dereference. *)
Fixpoint param_loop (fuel : nat) (p : rparams) (s : list Z) : res rparams :=
  match s with
  | [] => Ok p
  | _ =>
      match fuel with
      | O => Err OutOfFuel
      | S f =>
          let '(key, r) := sep 61 s in
          match r with
          | None => if existsb (fun n => eqci (replace_char key 95 45) (lit n)) known_keys then Err NullDeref else Err AssertFail
          | Some s1 =>
              let '(v, r2) := sep 44 s1 in
              let! p := set_param p key v in
              match r2 with
              | None => Ok p
              | Some s2 => param_loop f p (skip_sep s2)
              end
          end
      end
  end.
(** cli_reader_utils.c:89-178 (parse_reader_params); [None]: no parameters. *)
Definition parse_params (s : option (list Z)) (p : rparams) : res rparams :=
  let p := mkRP (rp_time p) (rp_id p) (rp_size p) (rp_cnt p) (rp_next p) false (rp_hdr p) (rp_hdrset p) (rp_fmt p) 0 in
  match s with None => Ok p | Some s => param_loop (length s) p s end.

(** cachesim/cli_parser.c:317-322: is the trace taken to have no sizes? *)
Definition sizes_ignored (t : ttype) (p : rparams) (asked : bool) : bool :=
  asked || (bool_decide (t = TCsv \/ t = TTxt) && (rp_size p =? -1)).
