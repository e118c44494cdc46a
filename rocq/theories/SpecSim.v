(** Specification vocabulary for the simulator (C27, C28, C39): what the
    statistics of one simulation are, in terms of the list of requests and the
    answers of the cache.  Nothing here refers to program points or threads. *)
From stdpp Require Import gmap list numbers fin_maps.
From Verif Require Import Base ModelReader ModelSim.
Open Scope Z_scope.

Section spec.
  Context {R : Type} (read : R -> treq -> res (R * treq * Z)).

  (** Reading from [rd] with request buffer [q] yields the requests [l] and
      then reports the end, leaving [qend] in the buffer; between two reads the
      client changes the request as [touch] does. *)
  Fixpoint yields (touch : treq -> treq) (rd : R) (q : treq) (l : list treq) (qend : treq)
    : Prop :=
    match l with
    | [] => exists rd' st, read rd q = Ok (rd', qend, st) /\ fget qend F_VALID = 0
    | x :: l' =>
        exists rd' st, read rd q = Ok (rd', x, st) /\ fget x F_VALID <> 0 /\
                       yields touch rd' (touch x) l' qend
    end.
End spec.

(** The answers of a cache (and of the generator) to a sequence of gets. *)
Inductive serves : acache -> Z -> list treq -> acache -> Z -> list bool -> Prop :=
| serves_nil c seed : serves c seed [] c seed []
| serves_cons c seed q l c1 seed1 b c2 seed2 bs :
    ac_get c seed q = Ok (c1, seed1, b) ->
    serves c1 seed1 l c2 seed2 bs ->
    serves c seed (q :: l) c2 seed2 (b :: bs).

(** Trace times count from the first request. *)
Definition shifted (ts : Z) (q : treq) : treq := <[F_TIME := fget q F_TIME - ts]> q.

Definition start_of (l : list treq) : Z :=
  match l with [] => 0 | x :: _ => fget x F_TIME end.

(** The warm-up part of the trace: its longest prefix of which each request is
    among the first [nw] or arrives less than [sec] seconds after the first.
    It is empty when neither warm-up option is set. *)
Definition warm_prefix (nw sec : Z) (l : list treq) (k : nat) : Prop :=
  let warm i := (0 < nw \/ 0 < sec) /\
    exists x, l !! i = Some x /\ (Z.of_nat i < nw \/ fget x F_TIME - start_of l < sec) in
  (forall i, (i < k)%nat -> warm i) /\ ~ warm k.

Fixpoint zsum (l : list Z) : Z := match l with [] => 0 | x :: l' => x + zsum l' end.

Definition bytes (l : list treq) : Z := zsum (map (fun q => fget q F_SIZE) l).

(** The requests of [l] that were answered "not in the cache". *)
Fixpoint missed (l : list treq) (bs : list bool) : list treq :=
  match l, bs with
  | q :: l', b :: bs' => (if (b : bool) then [] else [q]) ++ missed l' bs'
  | _, _ => []
  end.

(** The statistics of simulating the cache [c] on the trace [l] after warming
    up with the trace [wl]; [c'] is the cache at the end. *)
Definition sim_result (wl l : list treq) (nw sec : Z) (c c' : acache) (s : cstat) : Prop :=
  exists k bs1 bs2 bs3 c1 sd1 c2 sd2 sd3,
    warm_prefix nw sec l k /\
    serves c 0 wl c1 sd1 bs1 /\
    serves c1 sd1 (map (shifted (start_of l)) (take k l)) c2 sd2 bs2 /\
    serves c2 sd2 (map (shifted (start_of l)) (drop k l)) c' sd3 bs3 /\
    st_warm s = Z.of_nat (length wl + k) /\
    st_req s = Z.of_nat (length l - k) /\
    st_req_byte s = bytes (drop k l) /\
    st_miss s = Z.of_nat (length (missed (drop k l) bs3)) /\
    st_miss_byte s = bytes (missed (drop k l) bs3) /\
    st_size s = ac_size c /\
    st_nobj s = ac_nobj c' (ac_s c') /\
    st_occ s = ac_occ c' (ac_s c').
