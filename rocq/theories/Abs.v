(** Specification: what a cache with replacement policy [pol] is, with no
    queue, no counter and no loop.  An abstract cache is a map from the ids
    it holds to a ledger of what the client did with each of them since it
    was last brought in.  A policy is a predicate on that map: which ids may
    be the next victim. *)
From stdpp Require Import gmap list numbers fin_maps.
From Verif Require Import Base Driver.
Open Scope Z_scope.

Record entry : Type := mkEntry {
  e_size : Z;   (* size of the request that brought the object in *)
  e_ins  : Z;   (* time at which it was brought in *)
  e_last : Z;   (* time of its last use (use = insertion or hit) *)
  e_cnt  : Z;   (* number of uses since it was brought in, insertion included *)
  e_next : Z;   (* next-access annotation of its last use *)
  e_lsz  : Z    (* size carried by its last use *)
}.

Record abs : Type := mkAbs {
  a_t   : Z;              (* number of calls made so far *)
  a_m   : gmap Z entry;   (* what is in the cache *)
  a_adm : admissioner     (* state of the admission policy *)
}.

Definition policy : Type := gmap Z entry -> Z -> Prop.

(** Bytes charged to the cache: object size plus per-object metadata. *)
Definition msum (md : Z) (m : gmap Z entry) : Z :=
  map_fold (fun _ e acc => e_size e + md + acc) 0 m.

Definition fresh (t : Z) (r : req) : entry :=
  mkEntry (r_size r) t t 1 (r_next r) (r_size r).
Definition touch (t : Z) (r : req) (e : entry) : entry :=
  mkEntry (e_size e) (e_ins e) t (e_cnt e + 1) (r_next r) (r_size r).

Section Abs.
  Context (pol : policy) (cap md : Z).

  (** Evicting for a need of [n] bytes: one policy victim at a time, and only
      while the new object does not fit. *)
  Inductive evict_to (n : Z) : gmap Z entry -> gmap Z entry -> Prop :=
  | ev_done m : msum md m + n <= cap -> evict_to n m m
  | ev_more m v m' :
      msum md m + n > cap -> is_Some (m !! v) -> pol m v ->
      evict_to n (delete v m) m' -> evict_to n m m'.

  Inductive abs_step : abs -> call -> obs -> abs -> Prop :=
  (* get: a hit only updates the ledger of the object *)
  | AGetHit t m a r e :
      m !! r_id r = Some e ->
      abs_step (mkAbs t m a) (CGet r) (OBool true)
               (mkAbs (t + 1) (<[r_id r := touch t r e]> m) a)
  (* get: a miss on an object the admission policy refuses *)
  | AGetRefused t m a r a' :
      m !! r_id r = None -> admit a r = (a', false) ->
      abs_step (mkAbs t m a) (CGet r) (OBool false) (mkAbs (t + 1) m a')
  (* get: a miss on an object larger than the cache *)
  | AGetTooBig t m a r a' :
      m !! r_id r = None -> admit a r = (a', true) -> r_size r + md > cap ->
      abs_step (mkAbs t m a) (CGet r) (OBool false) (mkAbs (t + 1) m a')
  (* get: a miss that brings the object in *)
  | AGetMiss t m a r a' m' :
      m !! r_id r = None -> admit a r = (a', true) -> r_size r + md <= cap ->
      evict_to (r_size r + md) m m' ->
      abs_step (mkAbs t m a) (CGet r) (OBool false)
               (mkAbs (t + 1) (<[r_id r := fresh t r]> m') a')
  (* find(update = false) changes nothing *)
  | AFind t m a r :
      abs_step (mkAbs t m a) (CFind r false) (OBool (bool_decide (is_Some (m !! r_id r))))
               (mkAbs (t + 1) m a)
  (* find(update = true) is a use when the object is there *)
  | AFindHit t m a r e :
      m !! r_id r = Some e ->
      abs_step (mkAbs t m a) (CFind r true) (OBool true)
               (mkAbs (t + 1) (<[r_id r := touch t r e]> m) a)
  | AFindMiss t m a r :
      m !! r_id r = None ->
      abs_step (mkAbs t m a) (CFind r true) (OBool false) (mkAbs (t + 1) m a)
  (* direct insert *)
  | AInsert t m a r :
      m !! r_id r = None -> msum md m + (r_size r + md) <= cap ->
      abs_step (mkAbs t m a) (CInsert r) OUnit
               (mkAbs (t + 1) (<[r_id r := fresh t r]> m) a)
  | AInsertSkip t m a r :
      is_Some (m !! r_id r) \/ msum md m + (r_size r + md) > cap ->
      abs_step (mkAbs t m a) (CInsert r) OUnit (mkAbs (t + 1) m a)
  (* remove takes out exactly the named object *)
  | ARemove t m a id :
      abs_step (mkAbs t m a) (CRemove id) (OBool (bool_decide (is_Some (m !! id))))
               (mkAbs (t + 1) (delete id m) a)
  (* evict takes out exactly one policy victim *)
  | AEvict t m a r v :
      is_Some (m !! v) -> pol m v ->
      abs_step (mkAbs t m a) (CEvict r) OUnit (mkAbs (t + 1) (delete v m) a)
  | AEvictEmpty t a r :
      abs_step (mkAbs t ∅ a) (CEvict r) OUnit (mkAbs (t + 1) ∅ a)
  (* to_evict announces a policy victim and changes nothing *)
  | AToEvict t m a r v :
      is_Some (m !! v) -> pol m v ->
      abs_step (mkAbs t m a) (CToEvict r) (OVictim (Some v)) (mkAbs (t + 1) m a)
  | AToEvictEmpty t a r :
      abs_step (mkAbs t ∅ a) (CToEvict r) (OVictim None) (mkAbs (t + 1) ∅ a).

  Inductive abs_run : abs -> list call -> list obs -> abs -> Prop :=
  | abs_nil a : abs_run a [] [] a
  | abs_cons a c o a' cs os a'' :
      abs_step a c o a' -> abs_run a' cs os a'' -> abs_run a (c :: cs) (o :: os) a''.
End Abs.

Definition abs_init (adm : admissioner) : abs := mkAbs 0 ∅ adm.

(** The policies. *)
Definition pol_any : policy := fun _ _ => True.

(** first in, first out *)
Definition pol_fifo : policy := fun m v =>
  forall e id e', m !! v = Some e -> m !! id = Some e' -> e_ins e <= e_ins e'.

(** least recently used *)
Definition pol_lru : policy := fun m v =>
  forall e id e', m !! v = Some e -> m !! id = Some e' -> e_last e <= e_last e'.

(** most recently used *)
Definition pol_mru : policy := fun m v =>
  forall e id e', m !! v = Some e -> m !! id = Some e' -> e_last e' <= e_last e.

(** least frequently used; ties go to the object that has held its count for
    longest *)
Definition pol_lfu : policy := fun m v =>
  forall e id e', m !! v = Some e -> m !! id = Some e' ->
    e_cnt e < e_cnt e' \/ (e_cnt e = e_cnt e' /\ e_last e <= e_last e').

(** Belady: farthest next access *)
Definition pol_belady : policy := fun m v =>
  forall e id e', m !! v = Some e -> m !! id = Some e' -> e_next e' <= e_next e.

(** largest object first, by the size its last use carried *)
Definition pol_size : policy := fun m v =>
  forall e id e', m !! v = Some e -> m !! id = Some e' -> e_lsz e' <= e_lsz e.
