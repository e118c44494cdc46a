(** LHD (cache/eviction/LHD): lhd.cpp, lhd.hpp, candidate.hpp and the callbacks of
    LHD_Interface.cpp.  No proofs.

    What the histograms of hits and evictions and the hit densities have learned
    (lhd.hpp:33-40, 105-129: classes, ageCoarseningShift, the ewma values), and
    the state of next_rand(), are one abstract value of type [W]; [F] is the
    type of a float ([rank_t]).  Simplifications: tag.size is the integer (in C++
    it is rounded to a float) and explorerBudget is exact; recentlyAdmittedHead
    and timestamp do not overflow; a candidate_t is its id, the appId is always
    DEFAULT_APP_ID = 1. *)
From stdpp Require Import gmap list numbers fin_maps.
From Verif Require Import Base Driver.
Open Scope Z_scope.

(** lhd.hpp:86-94 *)
Definition MAX_AGE : Z := 20000.
Definition HIT_AGE_CLASSES : Z := 16.
Definition NUM_CLASSES : Z := 256.
Definition ACCS : Z := 2 ^ 20.

(** lhd.hpp:21-30 *)
Record tag : Type := mkTag {
  t_time : Z;   (* timestamp *)
  t_last : Z;   (* lastHitAge *)
  t_prev : Z;   (* lastLastHitAge *)
  t_app  : Z;
  t_id   : Z;
  t_size : Z;
  t_exp  : bool (* explorer *)
}.

(** lhd.hpp:134-144; [n] is HIT_AGE_CLASSES - 1 - log *)
Fixpoint hit_age_loop (n : nat) (age log : Z) : Z :=
  match n with
  | 0%nat => log
  | S n => if decide (age < MAX_AGE) then hit_age_loop n (age * 2) (log + 1) else log
  end.
Definition hit_age_class (age : Z) : Z :=
  if decide (age = 0) then HIT_AGE_CLASSES - 1 else hit_age_loop 15 age 0.

(** lhd.hpp:146-150, 168-172: the class of a tag; outside of the vector is undefined. *)
Definition class_of (t : tag) : res Z :=
  let c := t_app t * HIT_AGE_CLASSES + hit_age_class (t_last t + t_prev t) in
  if decide (0 <= c < NUM_CLASSES) then Ok c else Err OutOfBounds.

(** The vector loses the element at [i], the last one takes its place
    (lhd.cpp:158-159, LHD_Interface.cpp:313-314). *)
Definition swap_pop (l : list tag) (i : nat) : res (list tag) :=
  match last l with
  | None => Err OutOfBounds
  | Some t => if decide (i < length l)%nat then Ok (removelast (<[i := t]> l)) else Err OutOfBounds
  end.

Section LHD.
  Context {W F : Type}.
  Context (flt : F -> F -> bool) (fmax flow : F).   (* <, max(), lowest() *)
  Context (coarse : W -> Z)                         (* ageCoarseningShift *)
          (density : W -> Z -> Z -> Z -> bool -> F) (* class, age, size, explorer: lhd.hpp:191-200 *)
          (below : F -> W -> bool)                  (* < ewmaVictimHitDensity *)
          (saw_victim : F -> W -> W)                (* lhd.cpp:77-78 *)
          (saw_hit saw_evict : Z -> Z -> W -> W)    (* class, age: lhd.cpp:101, 150 *)
          (relearn : Z -> Z -> W -> W)              (* numReconfigurations, sizeMap.size(): lhd.cpp:166-197 *)
          (rand : W -> Z * W).                      (* next_rand() *)

  (** lhd.hpp:56-60, 101-129, the outer cache_t, and LHD_Interface.cpp:15-22 with
      to_evict_candidate_gen_vtime.  Of [h_c] everything but the table is used. *)
  Record lhd : Type := mkLHD {
    h_c    : cache;
    h_sz   : gmap Z Z;         (* sizeMap *)
    h_tags : list tag;
    h_ix   : gmap Z nat;       (* indices *)
    h_now  : Z;                (* timestamp *)
    h_next : Z;                (* nextReconfiguration *)
    h_nrec : Z;                (* numReconfigurations *)
    h_adm  : list (option Z);  (* recentlyAdmitted; None is INVALID_CANDIDATE *)
    h_head : Z;                (* recentlyAdmittedHead *)
    h_bud  : Z;                (* explorerBudget *)
    h_w    : W;
    h_cand : option Z;         (* params->to_evict_candidate; None: {0, 0} *)
    h_gen  : Z
  }.

  Definition h_set_c (s : lhd) (c : cache) : lhd :=
    mkLHD c (h_sz s) (h_tags s) (h_ix s) (h_now s) (h_next s) (h_nrec s) (h_adm s) (h_head s) (h_bud s) (h_w s) (h_cand s) (h_gen s).
  Definition h_set_sz (s : lhd) (m : gmap Z Z) : lhd :=
    mkLHD (h_c s) m (h_tags s) (h_ix s) (h_now s) (h_next s) (h_nrec s) (h_adm s) (h_head s) (h_bud s) (h_w s) (h_cand s) (h_gen s).
  Definition h_set_w (s : lhd) (w : W) : lhd :=
    mkLHD (h_c s) (h_sz s) (h_tags s) (h_ix s) (h_now s) (h_next s) (h_nrec s) (h_adm s) (h_head s) (h_bud s) w (h_cand s) (h_gen s).
  Definition h_set_vec (s : lhd) (l : list tag) (ix : gmap Z nat) : lhd :=
    mkLHD (h_c s) (h_sz s) l ix (h_now s) (h_next s) (h_nrec s) (h_adm s) (h_head s) (h_bud s) (h_w s) (h_cand s) (h_gen s).
  Definition h_set_bud (s : lhd) (b : Z) : lhd :=
    mkLHD (h_c s) (h_sz s) (h_tags s) (h_ix s) (h_now s) (h_next s) (h_nrec s) (h_adm s) (h_head s) b (h_w s) (h_cand s) (h_gen s).
  Definition h_set_cand (s : lhd) (v : option Z) (g : Z) : lhd :=
    mkLHD (h_c s) (h_sz s) (h_tags s) (h_ix s) (h_now s) (h_next s) (h_nrec s) (h_adm s) (h_head s) (h_bud s) (h_w s) v g.
  (** occupied_byte and n_obj of the cache_t *)
  Definition h_count (s : lhd) (occ nobj : Z) : lhd :=
    let c := h_c s in h_set_c s (mkCache (c_size c) (c_md c) (c_nreq c) nobj occ (c_tbl c) (c_adm c)).

  (** LHD_Interface.cpp:56-101, lhd.cpp:10-33, lhd.hpp:101-129: associativity 32,
      admission 8; [bud] is the explorer budget, 1% of the cache size. *)
  Definition lhd_init (consider_md : bool) (size : Z) (adm : admissioner) (bud : Z) (w : W) : lhd :=
    mkLHD (cache_init size (if consider_md then 25 else 0) adm) ∅ [] ∅ 0 ACCS 0 (replicate 8 None) 0 bud w None (-1).

  (** lhd.hpp:174-184; the overflow counter is not modelled, nothing reads it *)
  Definition age_of (s : lhd) (t : tag) : Z :=
    let a := Z.shiftr (u64 (h_now s - t_time t)) (coarse (h_w s)) in
    if decide (a >= MAX_AGE) then MAX_AGE - 1 else a.

  (** lhd.hpp:186-201 *)
  Definition hit_density (s : lhd) (t : tag) : res F :=
    let a := age_of s t in
    if decide (a = MAX_AGE - 1) then Ok flow
    else let! c := class_of t in Ok (density (h_w s) c a (t_size t) (t_exp t)).

  (** lhd.cpp:50-55, 67-72 *)
  Definition better (s : lhd) (best : option nat * F) (i : nat) : res (option nat * F) :=
    match h_tags s !! i with
    | None => Err OutOfBounds
    | Some t => let! x := hit_density s t in Ok (if flt x (snd best) then (Some i, x) else best)
    end.

  (** lhd.cpp:47-56 *)
  Fixpoint sample (n : nat) (s : lhd) (best : option nat * F) : res (lhd * (option nat * F)) :=
    match n with
    | 0%nat => Ok (s, best)
    | S n =>
        let '(x, w) := rand (h_w s) in
        let s := h_set_w s w in
        if decide (length (h_tags s) = 0%nat) then Err DivByZero
        else
          let! best := better s best (Z.to_nat (x mod Z.of_nat (length (h_tags s)))) in
          sample n s best
    end.

  (** lhd.cpp:58-73 *)
  Fixpoint admitted (l : list (option Z)) (s : lhd) (best : option nat * F) : res (option nat * F) :=
    match l with
    | [] => Ok best
    | a :: l =>
        match a ≫= (fun id => h_ix s !! id) with
        | None => admitted l s best
        | Some i =>
            if decide (t_id <$> h_tags s !! i = a) then
              let! best := better s best i in admitted l s best
            else Err AssertFail
        end
    end.

  (** lhd.cpp:35-81 *)
  Definition lhd_rank (s : lhd) : res (lhd * Z) :=
    let n := if decide (h_nrec s > 50) then 32%nat else 8%nat in
    let! (s, best) := sample n s (None, fmax) in
    let! best := admitted (h_adm s) s best in
    match fst best with
    | None => Err AssertFail
    | Some i =>
        match h_tags s !! i with
        | None => Err OutOfBounds
        | Some t => Ok (h_set_w s (saw_victim (snd best) (h_w s)), t_id t)
        end
    end.

  (** lhd.cpp:88-109: the tag of [id], a new one or the hit one, at its index. *)
  Definition touch_tag (s : lhd) (id : Z) : res (lhd * nat * tag * bool) :=
    match h_ix s !! id with
    | None =>
        let t := mkTag 0 0 MAX_AGE 0 id 0 false in
        let i := length (h_tags s) in
        Ok (h_set_vec s (h_tags s ++ [t]) (<[id := i]> (h_ix s)), i, t, true)
    | Some i =>
        match h_tags s !! i with
        | None => Err OutOfBounds
        | Some t =>
            if decide (t_id t = id) then
              let a := age_of s t in
              let! c := class_of t in
              let s := h_set_w s (saw_hit c a (h_w s)) in
              let s := if t_exp t then h_set_bud s (h_bud s + t_size t) else s in
              Ok (s, i, mkTag (t_time t) a (t_last t) (t_app t) id (t_size t) (t_exp t), false)
            else Err AssertFail
        end
    end.

  (** lhd.cpp:83-138; DEFAULT_APP_ID % APP_CLASSES is 1 *)
  Definition lhd_update (s : lhd) (id : Z) (r : req) : res lhd :=
    let! (s, i, t, ins) := touch_tag s id in
    let '(x, w) := rand (h_w s) in
    let s := h_set_w s w in
    let explore := bool_decide (x mod 32 = 0) in
    let exp := (explore && bool_decide (h_bud s > 0 /\ h_nrec s < 50))%bool in
    let t := mkTag (h_now s) (t_last t) (t_prev t) 1 id (r_size r) exp in
    let s := if exp then h_set_bud s (h_bud s - r_size r) else s in
    let s := h_set_vec s (<[i := t]> (h_tags s)) (h_ix s) in
    let! d := hit_density s t in
    let! (adm, head) :=
      if (ins && negb explore && below d (h_w s))%bool then
        if decide (Z.to_nat (h_head s mod 8) < length (h_adm s))%nat
        then Ok (<[Z.to_nat (h_head s mod 8) := Some id]> (h_adm s), h_head s + 1)
        else Err OutOfBounds
      else Ok (h_adm s, h_head s) in
    let next := u64 (h_next s - 1) in
    let again := bool_decide (next = 0) in
    Ok (mkLHD (h_c s) (h_sz s) (h_tags s) (h_ix s) (h_now s + 1)
          (if again then ACCS else next) (if again then h_nrec s + 1 else h_nrec s)
          adm head (h_bud s)
          (if again then relearn (h_nrec s) (Z.of_nat (size (h_sz s))) (h_w s) else h_w s)
          (h_cand s) (h_gen s)).

  (** lhd.cpp:157-163, LHD_Interface.cpp:312-318 *)
  Definition drop_tag (s : lhd) (id : Z) (i : nat) : res lhd :=
    let ix := delete id (h_ix s) in
    let! l := swap_pop (h_tags s) i in
    Ok (h_set_vec s l (match l !! i with Some t => <[t_id t := i]> ix | None => ix end)).

  (** lhd.cpp:140-164 *)
  Definition lhd_replaced (s : lhd) (id : Z) : res lhd :=
    match h_ix s !! id with
    | None => Err AssertFail
    | Some i =>
        match h_tags s !! i with
        | None => Err OutOfBounds
        | Some t =>
            if decide (t_id t = id) then
              let a := age_of s t in
              let! c := class_of t in
              let s := h_set_w s (saw_evict c a (h_w s)) in
              let s := if t_exp t then h_set_bud s (h_bud s + t_size t) else s in
              drop_tag s id i
            else Err AssertFail
        end
    end.

  (** LHD_Interface.cpp:156-179; the sizes of sizeMap are uint32_t *)
  Definition lhd_find (s : lhd) (r : req) (u : bool) : res (lhd * bool) :=
    match h_sz s !! r_id r with
    | None => Ok (s, false)
    | Some z =>
        if u then
          let s := if decide (z <> r_size r) then
                     h_set_sz (h_count s (c_occ (h_c s) - z + r_size r) (c_nobj (h_c s)))
                              (<[r_id r := u32 (r_size r)]> (h_sz s))
                   else s in
          let! s := lhd_update s (r_id r) r in
          Ok (s, true)
        else Ok (s, true)
    end.

  Definition lhd_can_insert (s : lhd) (r : req) : res (lhd * bool) :=
    let '(c, b) := cache_can_insert_default (h_c s) r in Ok (h_set_c s c, b).

  (** LHD_Interface.cpp:192-208 *)
  Definition lhd_insert (s : lhd) (r : req) : res lhd :=
    let s := h_set_sz s (<[r_id r := u32 (r_size r)]> (h_sz s)) in
    let! s := lhd_update s (r_id r) r in
    Ok (h_count s (c_occ (h_c s) + (r_size r + c_md (h_c s))) (c_nobj (h_c s) + 1)).

  (** LHD_Interface.cpp:221-237 *)
  Definition lhd_to_evict (s : lhd) (_ : req) : res (lhd * option Z) :=
    let! (s, v) := lhd_rank s in
    match h_sz s !! v with
    | None => Err AssertFail
    | Some _ => Ok (h_set_cand s (Some v) (c_nreq (h_c s)), Some v)
    end.

  (** LHD_Interface.cpp:248-283 *)
  Definition lhd_evict (s : lhd) (_ : req) : res lhd :=
    let! (s, v) := if decide (h_gen s = c_nreq (h_c s)) then Ok (h_set_cand s (h_cand s) (-1), h_cand s)
                   else let! (s, v) := lhd_rank s in Ok (s, Some v) in
    match v with
    | None => Err AssertFail
    | Some v =>
        match h_sz s !! v with
        | None => Err AssertFail
        | Some z =>
            let s := h_count s (c_occ (h_c s) - u32 (z + c_md (h_c s))) (c_nobj (h_c s) - 1) in
            let! s := lhd_replaced s v in
            Ok (h_set_sz s (delete v (h_sz s)))
        end
    end.

  (** LHD_Interface.cpp:298-321; indices[id] of a missing id is 0 *)
  Definition lhd_remove (s : lhd) (id : Z) : res (lhd * bool) :=
    match h_sz s !! id with
    | None => Ok (s, false)
    | Some z =>
        let s := h_count s (c_occ (h_c s) - u32 (z + c_md (h_c s))) (c_nobj (h_c s) - 1) in
        let s := h_set_sz s (delete id (h_sz s)) in
        let! s := drop_tag s id (default 0%nat (h_ix s !! id)) in
        Ok (s, true)
    end.

  Definition lhd_ops : ops lhd :=
    mkOps lhd_find lhd_can_insert lhd_insert lhd_evict lhd_to_evict lhd_remove
      (fun s => c_occ (h_c s)) (fun s => c_nobj (h_c s)) (fun s => c_size (h_c s)) (fun s => c_md (h_c s))
      (fun s => h_set_c s (c_incr_nreq (h_c s))).
End LHD.
