(** dataStructure/hashtable/chainedHashTableV2.c (the configured hash table).
    The heap maps addresses of allocated cache_obj_t to (obj_id, hash_next).
    [hash] is get_hash_value_int_64: any function of the id.
    Loops over a chain run on fuel [size heap]; that it suffices is proved.
    Simplifications: allocation never fails; 1 << hashpower does not overflow
    (hashpower is a uint16_t, but 2^63 buckets cannot be allocated); printing and
    the loop counter overflow of print_hashbucket_item_distribution (int against
    2^31 buckets) are left out. *)
From stdpp Require Import gmap list numbers fin_maps.
From Verif Require Import Base.
Open Scope Z_scope.

Record hobj : Type := mkHo { ho_id : Z; ho_next : option Z }.
Record htab : Type := mkHt {
  ht_heap : gmap Z hobj;
  ht_tab  : gmap Z Z;      (* ptr_table; a missing index is NULL *)
  ht_pow  : Z;             (* hashpower *)
  ht_n    : Z;             (* n_obj (uint64_t) *)
  ht_ext  : bool;          (* external_obj *)
  ht_max  : Z              (* static int max_chain_len of chained_hashtable_delete_v2 *)
}.

(** hashtableStruct.h:17-19: hashsize, hashmask *)
Definition bucket (hash : Z -> Z) (pow id : Z) : Z := Z.land (hash id) (2 ^ pow - 1).

Definition rd_obj (H : gmap Z hobj) (a : Z) : res hobj :=
  match H !! a with Some o => Ok o | None => Err UseAfterFree end.

(** 88-109 (create_chained_hashtable_v2); my_malloc_n is calloc. *)
Definition ht_create (pow : Z) (ext : bool) : htab := mkHt ∅ ∅ pow 0 ext 16.

(** 118-123 *)
Fixpoint ht_find_loop (fuel : nat) (H : gmap Z hobj) (cur : option Z) (id : Z) : res (option Z) :=
  match cur with
  | None => Ok None
  | Some a =>
      let! o := rd_obj H a in
      if decide (ho_id o = id) then Ok (Some a)
      else match fuel with
           | 0%nat => Err OutOfFuel
           | S k => ht_find_loop k H (ho_next o) id
           end
  end.
(** 111-125 (chained_hashtable_find_obj_id_v2), 127-135 *)
Definition ht_find (hash : Z -> Z) (t : htab) (id : Z) : res (option Z) :=
  ht_find_loop (size (ht_heap t)) (ht_heap t) (ht_tab t !! bucket hash (ht_pow t) id) id.

(** 59-79 (add_to_bucket): hash_next is not written when the bucket is empty. *)
Definition add_to_bucket (hash : Z -> Z) (H : gmap Z hobj) (tab : gmap Z Z) (pow a : Z)
  : res (gmap Z hobj * gmap Z Z) :=
  let! o := rd_obj H a in
  let hv := bucket hash pow (ho_id o) in
  match tab !! hv with
  | None => Ok (H, <[hv := a]> tab)
  | Some h => Ok (<[a := mkHo (ho_id o) (Some h)]> H, <[hv := a]> tab)
  end.

(** 348-354 *)
Fixpoint relink (fuel : nat) (hash : Z -> Z) (H : gmap Z hobj) (tab : gmap Z Z) (pow : Z) (cur : option Z)
  : res (gmap Z hobj * gmap Z Z) :=
  match cur with
  | None => Ok (H, tab)
  | Some a =>
      let! o := rd_obj H a in
      let! (H, tab) := add_to_bucket hash (<[a := mkHo (ho_id o) None]> H) tab pow a in
      match fuel with
      | 0%nat => Err OutOfFuel
      | S k => relink k hash H tab pow (ho_next o)
      end
  end.
Fixpoint relink_all (hash : Z -> Z) (is : list Z) (old : gmap Z Z) (H : gmap Z hobj) (tab : gmap Z Z) (pow : Z)
  : res (gmap Z hobj * gmap Z Z) :=
  match is with
  | [] => Ok (H, tab)
  | i :: is =>
      let! (H, tab) := relink (size H) hash H tab pow (old !! i) in
      relink_all hash is old H tab pow
  end.
(** 326-357 (_chained_hashtable_expand_v2) *)
Definition ht_expand (hash : Z -> Z) (t : htab) : res htab :=
  let pow := ht_pow t + 1 in
  let! (H, tab) := relink_all hash (seqZ 0 (2 ^ ht_pow t)) (ht_tab t) (ht_heap t) ∅ pow in
  Ok (mkHt H tab pow (ht_n t) (ht_ext t) (ht_max t)).

(** 140-143, 155-157 *)
Definition ht_maybe_expand (hash : Z -> Z) (t : htab) : res htab :=
  if decide (ht_n t > 2 ^ ht_pow t) then ht_expand hash t else Ok t.

Definition ht_add (hash : Z -> Z) (t : htab) (a : Z) : res htab :=
  let! (H, tab) := add_to_bucket hash (ht_heap t) (ht_tab t) (ht_pow t) a in
  Ok (mkHt H tab (ht_pow t) (ht_n t + 1) (ht_ext t) (ht_max t)).

(** 138-149 (chained_hashtable_insert_v2): [a] is the address returned by malloc *)
Definition ht_insert (hash : Z -> Z) (t : htab) (a id : Z) : res htab :=
  let! t := ht_maybe_expand hash t in
  ht_add hash (mkHt (<[a := mkHo id None]> (ht_heap t)) (ht_tab t) (ht_pow t) (ht_n t) (ht_ext t) (ht_max t)) a.

(** 152-162 (chained_hashtable_insert_obj_v2): an object of the caller *)
Definition ht_insert_obj (hash : Z -> Z) (t : htab) (a : Z) : res htab :=
  let! t := ht_maybe_expand hash t in ht_add hash t a.

(** 179-182, 217-220: the object whose hash_next is [a], and the number of steps *)
Fixpoint find_pred (fuel : nat) (H : gmap Z hobj) (cur : option Z) (a : Z) (len : Z) : res (option Z * Z) :=
  match cur with
  | None => Ok (None, len)
  | Some c =>
      let! o := rd_obj H c in
      if decide (ho_next o = Some a) then Ok (Some c, len)
      else match fuel with
           | 0%nat => Err OutOfFuel
           | S k => find_pred k H (ho_next o) a (len + 1)
           end
  end.

(** 372-390 (count_n_obj_in_bucket): an array of 64 ids on the stack.
    [seen]: the ids stored so far. *)
Fixpoint count_bucket (fuel : nat) (H : gmap Z hobj) (cur : option Z) (seen : list Z) : res unit :=
  match cur with
  | None => Ok tt
  | Some c =>
      let! o := rd_obj H c in
      if decide (64 <= Z.of_nat (length seen)) then Err OutOfBounds
      else if decide (ho_id o ∈ seen) then Err AssertFail
      else match fuel with
           | 0%nat => Err OutOfFuel
           | S k => count_bucket k H (ho_next o) (ho_id o :: seen)
           end
  end.
(** 392-408 (print_hashbucket_item_distribution) *)
Fixpoint count_buckets (is : list Z) (H : gmap Z hobj) (tab : gmap Z Z) : res unit :=
  match is with
  | [] => Ok tt
  | i :: is => let! _ := count_bucket (size H) H (tab !! i) [] in count_buckets is H tab
  end.

Definition tab_set (tab : gmap Z Z) (i : Z) (p : option Z) : gmap Z Z := partial_alter (fun _ => p) i tab.
(** free_cache_obj unless the object belongs to the caller *)
Definition ht_free (ext : bool) (H : gmap Z hobj) (a : Z) : gmap Z hobj := if ext then H else delete a H.

(** 165-200 (chained_hashtable_delete_v2); the DEBUG_ASSERT of line 195 is not compiled *)
Definition ht_delete (hash : Z -> Z) (t : htab) (a : Z) : res htab :=
  let n := ht_n t - 1 in
  let! o := rd_obj (ht_heap t) a in
  let hv := bucket hash (ht_pow t) (ho_id o) in
  if decide (ht_tab t !! hv = Some a) then
    Ok (mkHt (ht_free (ht_ext t) (ht_heap t) a) (tab_set (ht_tab t) hv (ho_next o)) (ht_pow t) n (ht_ext t) (ht_max t))
  else
    let! (c, len) := find_pred (size (ht_heap t)) (ht_heap t) (ht_tab t !! hv) a 1 in
    let! mx := if decide (len > ht_max t) then
                 let! _ := count_buckets (seqZ 0 (2 ^ ht_pow t)) (ht_heap t) (ht_tab t) in Ok len
               else Ok (ht_max t) in
    match c with
    | None => Err NullDeref
    | Some c =>
        let! oc := rd_obj (ht_heap t) c in
        let H := <[c := mkHo (ho_id oc) (ho_next o)]> (ht_heap t) in
        Ok (mkHt (ht_free (ht_ext t) H a) (ht_tab t) (ht_pow t) n (ht_ext t) mx)
    end.

(** 202-248 (chained_hashtable_try_delete_v2) *)
Definition ht_try_delete (hash : Z -> Z) (t : htab) (a : Z) : res (htab * bool) :=
  let! o := rd_obj (ht_heap t) a in
  let hv := bucket hash (ht_pow t) (ho_id o) in
  if decide (ht_tab t !! hv = Some a) then
    Ok (mkHt (ht_free (ht_ext t) (ht_heap t) a) (tab_set (ht_tab t) hv (ho_next o)) (ht_pow t)
          (ht_n t - 1) (ht_ext t) (ht_max t), true)
  else
    let! (c, _) := find_pred (size (ht_heap t)) (ht_heap t) (ht_tab t !! hv) a 1 in
    match c with
    | None => Ok (t, false)
    | Some c =>
        let! oc := rd_obj (ht_heap t) c in
        let H := <[c := mkHo (ho_id oc) (ho_next o)]> (ht_heap t) in
        Ok (mkHt (ht_free (ht_ext t) H a) (ht_tab t) (ht_pow t) (ht_n t - 1) (ht_ext t) (ht_max t), true)
    end.

(** 281-284: [prev] is the object just passed *)
Fixpoint find_id (fuel : nat) (H : gmap Z hobj) (prev : Z) (cur : option Z) (id : Z) : res (option (Z * Z)) :=
  match cur with
  | None => Ok None
  | Some c =>
      let! o := rd_obj H c in
      if decide (ho_id o = id) then Ok (Some (prev, c))
      else match fuel with
           | 0%nat => Err OutOfFuel
           | S k => find_id k H c (ho_next o) id
           end
  end.
(** 264-295 (chained_hashtable_delete_obj_id_v2) *)
Definition ht_delete_id (hash : Z -> Z) (t : htab) (id : Z) : res (htab * bool) :=
  let hv := bucket hash (ht_pow t) id in
  match ht_tab t !! hv with
  | None => Ok (t, false)
  | Some c =>
      let! o := rd_obj (ht_heap t) c in
      if decide (ho_id o = id) then
        Ok (mkHt (ht_free (ht_ext t) (ht_heap t) c) (tab_set (ht_tab t) hv (ho_next o)) (ht_pow t)
              (ht_n t - 1) (ht_ext t) (ht_max t), true)
      else
        let! f := find_id (size (ht_heap t)) (ht_heap t) c (ho_next o) id in
        match f with
        | None => Ok (t, false)
        | Some (p, c) =>
            let! op := rd_obj (ht_heap t) p in
            let! oc := rd_obj (ht_heap t) c in
            let H := <[p := mkHo (ho_id op) (ho_next oc)]> (ht_heap t) in
            Ok (mkHt (ht_free (ht_ext t) H c) (ht_tab t) (ht_pow t) (ht_n t - 1) (ht_ext t) (ht_max t), true)
        end
  end.

(** 308-313: hash_next is read before the callback, which may free the object *)
Fixpoint walk (fuel : nat) (H : gmap Z hobj) (cur : option Z) : res (list Z) :=
  match cur with
  | None => Ok []
  | Some c =>
      let! o := rd_obj H c in
      match fuel with
      | 0%nat => Err OutOfFuel
      | S k => let! l := walk k H (ho_next o) in Ok (c :: l)
      end
  end.
Fixpoint walk_all (is : list Z) (H : gmap Z hobj) (tab : gmap Z Z) : res (list Z) :=
  match is with
  | [] => Ok []
  | i :: is =>
      let! l := walk (size H) H (tab !! i) in
      let! l' := walk_all is H tab in
      Ok (l ++ l')
  end.
(** 304-315 (chained_hashtable_foreach_v2): the objects given to the callback, in order *)
Definition ht_foreach (t : htab) : res (list Z) := walk_all (seqZ 0 (2 ^ ht_pow t)) (ht_heap t) (ht_tab t).

(** 297-302 (chained_hashtable_rand_obj_v2): the seed is that of next_rand;
    [None] when [fuel] draws all hit empty buckets. *)
Fixpoint ht_rand_obj (fuel : nat) (t : htab) (seed : Z) : res (Z * Z) :=
  match fuel with
  | 0%nat => Err OutOfFuel
  | S k =>
      let seed := next_rand seed in
      match ht_tab t !! Z.land seed (2 ^ ht_pow t - 1) with
      | None => ht_rand_obj k t seed
      | Some a => Ok (a, seed)
      end
  end.
