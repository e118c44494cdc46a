(** Models of the Bloom filter (dataStructure/bloom.c) and of the counting
    filter (dataStructure/minimalIncrementCBF.c).  Keys are arbitrary; the two
    XXH64 hashes of a key are arbitrary functions [h1], [h2]. *)
From stdpp Require Import gmap list numbers fin_maps.
From Verif Require Import Base.
Open Scope Z_scope.

(** dataStructure/bloom.h, struct bloom: the fields read after bloom_init.
    [bl_bf] is the array of unsigned chars. *)
Record bloom : Type := mkBloom { bl_bits : Z; bl_hashes : Z; bl_bf : list Z; bl_ready : bool }.

(** dataStructure/bloom.c:89-121 (bloom_init) after the computation of [bits]
    and [hashes] from the expected number of entries and the error rate, which
    is floating point and not modelled. *)
Definition bloom_init (bits hashes : Z) : bloom :=
  let bytes := if decide (bits mod 8 = 0) then bits / 8 else bits / 8 + 1 in
  mkBloom bits hashes (replicate (Z.to_nat bytes) 0) true.

(** dataStructure/bloom.c:36-50 (test_bit_set_bit). *)
Definition test_bit_set_bit (buf : list Z) (x : Z) (set_bit : bool) : res (list Z * bool) :=
  let byte := Z.to_nat (Z.shiftr x 3) in
  match buf !! byte with
  | None => Err OutOfBounds
  | Some c =>
      let mask := Z.shiftl 1 (x mod 8) in
      if decide (Z.land c mask <> 0) then Ok (buf, true)
      else if set_bit then Ok (<[byte := Z.lor c mask]> buf, false)
      else Ok (buf, false)
  end.

Section Filter.
  Context {K : Type} (h1 h2 : K -> Z).

  (** bloom.c:62-69, minimalIncrementCBF.c:89-99: the i-th position of a key,
      in unsigned 32-bit arithmetic. *)
  Definition pos (n : Z) (k : K) (i : Z) : Z := u32 (u32 (h1 k) + i * u32 (h2 k)) mod n.

  (** bloom.c:68-76, the loop of bloom_check_add: [n] iterations left, the
      next one being the i-th.  [None]: the early return of line 74. *)
  Fixpoint bloom_loop (n : nat) (i : Z) (bits : Z) (buf : list Z) (k : K) (add : bool) (hits : Z)
    : res (list Z * option Z) :=
    match n with
    | O => Ok (buf, Some hits)
    | S n =>
        let! (buf, b) := test_bit_set_bit buf (pos bits k i) add in
        if b : bool then bloom_loop n (i + 1) bits buf k add (hits + 1)
        else if add then bloom_loop n (i + 1) bits buf k add hits
        else Ok (buf, None)
    end.

  (** bloom.c:52-82 (bloom_check_add). *)
  Definition bloom_check_add (b : bloom) (k : K) (add : bool) : res (bloom * Z) :=
    if bl_ready b then
      let! (buf, hits) := bloom_loop (Z.to_nat (bl_hashes b)) 0 (bl_bits b) (bl_bf b) k add 0 in
      let b' := mkBloom (bl_bits b) (bl_hashes b) buf (bl_ready b) in
      match hits with
      | None => Ok (b', 0)
      | Some hits => if decide (hits = bl_hashes b) then Ok (b', 1) else Ok (b', 0)
      end
    else Ok (b, -1).

  (** bloom.c:123-130 (bloom_check, bloom_add). *)
  Definition bloom_check (b : bloom) (k : K) : res (bloom * Z) := bloom_check_add b k false.
  Definition bloom_add (b : bloom) (k : K) : res (bloom * Z) := bloom_check_add b k true.

  (** bloom.c:148-152 (bloom_reset). *)
  Definition bloom_reset (b : bloom) : bloom * Z :=
    if bl_ready b then
      (mkBloom (bl_bits b) (bl_hashes b) (replicate (length (bl_bf b)) 0) true, 0)
    else (b, 1).

  (** A client of one filter. *)
  Inductive bcall : Type := BAdd (k : K) | BCheck (k : K) | BReset.
  Definition bloom_step (b : bloom) (c : bcall) : res (bloom * Z) :=
    match c with
    | BAdd k => bloom_add b k
    | BCheck k => bloom_check b k
    | BReset => Ok (bloom_reset b)
    end.
  Fixpoint bloom_run (b : bloom) (cs : list bcall) : res (bloom * list Z) :=
    match cs with
    | [] => Ok (b, [])
    | c :: cs =>
        let! (b, o) := bloom_step b c in
        let! (b, os) := bloom_run b cs in
        Ok (b, o :: os)
    end.
End Filter.
Arguments BAdd {K} k.
Arguments BCheck {K} k.
Arguments BReset {K}.

(** dataStructure/minimalIncrementCBF.h, struct minimalIncrementCBF: [bf] is
    the array of unsigned ints, [counter_num] its length. *)
Record cbf : Type := mkCbf { cb_hashes : Z; cb_num : Z; cb_bf : list Z; cb_ready : bool }.

(** minimalIncrementCBF.c:29-67 (minimalIncrementCBF_init) after the floating
    point computation of [hashes] and [counter_num]; lines 49-53 included. *)
Definition cbf_init (hashes num : Z) : cbf :=
  let num := if decide (num < hashes) then hashes * 2 else num in
  mkCbf hashes num (replicate (Z.to_nat num) 0) true.

Definition uint_max : Z := 2 ^ 32 - 1.

Section CBF.
  Context {K : Type} (h1 h2 : K -> Z).

  (** minimalIncrementCBF.c:98-111: the smallest counter of the key. *)
  Fixpoint cbf_min (n : nat) (i num : Z) (bf : list Z) (k : K) (mn : Z) : res Z :=
    match n with
    | O => Ok mn
    | S n =>
        match bf !! Z.to_nat (pos h1 h2 num k i) with
        | None => Err OutOfBounds
        | Some v => cbf_min n (i + 1) num bf k (if decide (v < mn) then v else mn)
        end
    end.

  (** minimalIncrementCBF.c:114-122: every counter of the key is incremented
      (the comparison of line 116 guards only the debug output). *)
  Fixpoint cbf_incr (n : nat) (i num : Z) (bf : list Z) (k : K) : res (list Z) :=
    match n with
    | O => Ok bf
    | S n =>
        let x := Z.to_nat (pos h1 h2 num k i) in
        match bf !! x with
        | None => Err OutOfBounds
        | Some v => cbf_incr n (i + 1) num (<[x := u32 (v + 1)]> bf) k
        end
    end.

  (** minimalIncrementCBF.c:75-127 (minimalIncrementCBF_check_add); the result
      is converted from unsigned to int. *)
  Definition cbf_check_add (c : cbf) (k : K) (add : bool) : res (cbf * Z) :=
    if cb_ready c then
      if decide (cb_num c = 0) then Err AssertFail
      else
        let n := Z.to_nat (cb_hashes c) in
        let! mn := cbf_min n 0 (cb_num c) (cb_bf c) k uint_max in
        if decide (add = true /\ mn < uint_max) then
          let! bf := cbf_incr n 0 (cb_num c) (cb_bf c) k in
          Ok (mkCbf (cb_hashes c) (cb_num c) bf (cb_ready c), i32 (mn + 1))
        else Ok (c, i32 mn)
    else Ok (c, -1).

  (** minimalIncrementCBF.c:129-135. *)
  Definition cbf_estimate (c : cbf) (k : K) : res (cbf * Z) := cbf_check_add c k false.
  Definition cbf_add (c : cbf) (k : K) : res (cbf * Z) := cbf_check_add c k true.

  (** minimalIncrementCBF.c:153-169 (minimalIncrementCBF_decay). *)
  Definition cbf_decay (c : cbf) : cbf * Z :=
    if cb_ready c then
      (mkCbf (cb_hashes c) (cb_num c) ((fun v => Z.shiftr v 1) <$> cb_bf c) (cb_ready c), 0)
    else (c, 1).

  Inductive fcall : Type := FAdd (k : K) | FEst (k : K) | FDecay.
  Definition cbf_step (c : cbf) (f : fcall) : res (cbf * Z) :=
    match f with
    | FAdd k => cbf_add c k
    | FEst k => cbf_estimate c k
    | FDecay => Ok (cbf_decay c)
    end.
  Fixpoint cbf_run (c : cbf) (fs : list fcall) : res (cbf * list Z) :=
    match fs with
    | [] => Ok (c, [])
    | f :: fs =>
        let! (c, o) := cbf_step c f in
        let! (c, os) := cbf_run c fs in
        Ok (c, o :: os)
    end.
End CBF.
Arguments FAdd {K} k.
Arguments FEst {K} k.
Arguments FDecay {K}.
