(** example/cacheCluster: the consistent hash ring (consistentHash.c), the
    servers (cacheServer.hpp) and the cluster (cacheCluster.hpp/.cpp). *)
From stdpp Require Import gmap list numbers fin_maps.
From Verif Require Import Base Driver ModelPrefetch.
Open Scope Z_scope.

(** consistentHash.h:18: N_VNODE_PER_SERVER is 160, 40 hashes of 4 points. *)
Definition n_vnode : nat := 160.

(** consistentHash.h:20-23 (vnode_t) *)
Record vnode : Type := mkVn { vn_point : Z; vn_server : nat }.

(** consistentHash.h:25-29 (ring_t).  [None]: a slot of the malloc'ed array that
    has never been written. *)
Record ring : Type := mkRing { rg_n : nat; rg_vn : list (option vnode) }.

(** The digits of "%u", most significant first. *)
Fixpoint dec_ (fuel n : nat) (acc : list Z) : list Z :=
  let acc := 48 + Z.of_nat (n mod 10) :: acc in
  match fuel with
  | 0%nat => acc
  | Datatypes.S f => if decide (n < 10)%nat then acc else dec_ f (n / 10) acc
  end.
Definition dec (n : nat) : list Z := dec_ n n [].

Section Ring.
  (** md5.c on a byte string: 16 bytes *)
  Context (digest : list Z -> list Z).
  (** qsort of libc with ch_ring_compare: some sorted permutation *)
  Context (sort : list vnode -> list vnode).

  (** consistentHash.c:72-74 and 38-39: four bytes, least significant first.
      Simplification: the shift of a byte above 127 by 24, undefined in C, gives
      the unsigned number. *)
  Definition word (d : list Z) (h : nat) : Z :=
    let b i := default 0 (d !! (i + h * 4)%nat) in
    b 3%nat * 2 ^ 24 + b 2%nat * 2 ^ 16 + b 1%nat * 2 ^ 8 + b 0%nat.

  (** 35-40 (ketama_hash) *)
  Definition ketama_hash (key : list Z) : Z := word (digest key) 0.

  (** 60-80: the points of server [i] when it gets [ks] hashes *)
  Definition server_points (i ks : nat) : list vnode :=
    k ← seq 0 ks; h ← seq 0 4; [mkVn (word (digest (dec i ++ [45] ++ dec k)) h) i].

  (** 53-81: the loop over the servers; [kss] has the number of hashes of each *)
  Fixpoint all_points (i : nat) (kss : list nat) : list vnode :=
    match kss with
    | [] => []
    | ks :: kss => server_points i ks ++ all_points (Datatypes.S i) kss
    end.

  (** 42-89 (ch_ring_create_ring).  The array has 160 slots per server, whatever
      the weights; only the written part is sorted.  [kss]: 40 for each server
      when weight == NULL, otherwise floorf(weight[i] * n_server * 40), computed
      in floating point by the caller of the model. *)
  Definition ring_create (kss : list nat) : res ring :=
    let n := length kss in
    let vs := all_points 0 kss in
    if decide (length vs <= n * n_vnode)%nat
    then Ok (mkRing n ((Some <$> sort vs) ++ replicate (n * n_vnode - length vs) None))
    else Err OutOfBounds.

  (** an array read *)
  Definition vn_at (g : ring) (i : Z) : res vnode :=
    if decide (i < 0) then Err OutOfBounds
    else match rg_vn g !! Z.to_nat i with
         | None => Err OutOfBounds
         | Some None => Err Uninit
         | Some (Some v) => Ok v
         end.

  (** n_point *)
  Definition n_point (g : ring) : Z := Z.of_nat (rg_n g) * Z.of_nat n_vnode.

  (** 102-125: the loop of ch_ring_get_vnode_idx *)
  Fixpoint idx_loop (fuel : nat) (g : ring) (h low high : Z) : res Z :=
    let mid := Z.quot (low + high) 2 in
    if decide (mid = n_point g) then Ok 0
    else
      let! v := vn_at g mid in
      let! v1 := (if decide (mid = 0) then Ok 0 else let! w := vn_at g (mid - 1) in Ok (vn_point w)) in
      if decide (h <= vn_point v /\ h > v1) then Ok mid
      else
        let '(low, high) := if decide (vn_point v < h) then (mid + 1, high) else (low, mid - 1) in
        if decide (low > high) then Ok 0
        else match fuel with
             | 0%nat => Err OutOfFuel
             | Datatypes.S f => idx_loop f g h low high
             end.

  (** 91-127 (ch_ring_get_vnode_idx) *)
  Definition vnode_idx (g : ring) (key : list Z) : res Z :=
    idx_loop (Z.to_nat (n_point g)) g (ketama_hash key) 0 (n_point g).

  (** 134-136 (ch_ring_get_server) *)
  Definition get_server (g : ring) (key : list Z) : res nat :=
    let! i := vnode_idx g key in let! v := vn_at g i in Ok (vn_server v).

  (** 138-144 (ch_ring_get_server_from_uint64): the first 7 bytes of the id,
      little endian, as a C string *)
  Definition id_key (id : Z) : list Z :=
    let b i := (id / 2 ^ (8 * Z.of_nat i)) mod 2 ^ 8 in
    (fix cut (l : list nat) := match l with
                               | [] => []
                               | i :: l => if decide (b i = 0) then [] else b i :: cut l
                               end) (seq 0 7).
  Definition get_server_id (g : ring) (id : Z) : res nat := get_server g (id_key id).

  (** 154-170, 187-213: the walk from the first vnode; [chosen] is the array
      chosen_server; abort() is [AssertFail]. *)
  Fixpoint walk (fuel : nat) (g : ring) (start pos : Z) (n : nat) (chosen : list bool) (acc : list nat) : res (list nat) :=
    match n with
    | 0%nat => Ok acc
    | Datatypes.S n' =>
        if decide (n_point g = 0) then Err DivByZero
        else
          let! v := vn_at g ((start + pos) mod n_point g) in
          match chosen !! vn_server v with
          | None => Err OutOfBounds
          | Some c =>
              if decide (n_point g < pos + 1) then Err AssertFail
              else match fuel with
                   | 0%nat => Err OutOfFuel
                   | Datatypes.S f =>
                       if c : bool then walk f g start (pos + 1) n chosen acc
                       else walk f g start (pos + 1) n' (<[vn_server v := true]> chosen) (acc ++ [vn_server v])
                   end
          end
    end.

  (** 178-215 (ch_ring_get_available_servers) *)
  Definition get_available (g : ring) (key : list Z) (n : nat) (unavailable : list bool) : res (list nat) :=
    let! i := vnode_idx g key in
    walk (Z.to_nat (n_point g)) g i 0 n unavailable [].

  (** 147-171 (ch_ring_get_servers) *)
  Definition get_servers (g : ring) (key : list Z) (n : nat) : res (list nat) :=
    get_available g key n (replicate (rg_n g) false).
End Ring.

(** ** Servers and cluster *)
Section Cluster.
  Context {S : Type}.

  (** cacheServer.hpp:24-31: the caches of a server, each with its operations. *)
  Record server : Type := mkSrv { sv_up : bool; sv_caches : list (ops S * S) }.

  (** cacheServer.hpp:67-77 (CacheServer::get): cache after cache until one
      hits; cache.hpp:55-57 is cache->get, here cache_get_base. *)
  Fixpoint caches_get (cs : list (ops S * S)) (r : req) : res (list (ops S * S) * bool) :=
    match cs with
    | [] => Ok ([], false)
    | (o, s) :: cs =>
        let! (s', hit) := cache_get_base o (steps_of o s) s r in
        if hit : bool then Ok ((o, s') :: cs, true)
        else let! (cs', hit) := caches_get cs r in Ok ((o, s') :: cs', hit)
    end.
  Definition server_get (v : server) (r : req) : res (server * bool) :=
    if sv_up v then let! (cs, hit) := caches_get (sv_caches v) r in Ok (mkSrv (sv_up v) cs, hit)
    else Ok (v, false).

  Context (digest : list Z -> list Z) (sort : list vnode -> list vnode).
  (** cacheCluster.hpp:62-68, 98-104 and consistentHash.c:55-58: from the
      weights of the servers to their numbers of hashes, in floating point *)
  Context {W : Type} (shares : list W -> list nat).

  (** cacheCluster.hpp:20-28 *)
  Record cluster : Type := mkCl { cl_ring : option ring; cl_weights : list W; cl_servers : list server }.
  Definition cluster_init : cluster := mkCl None [] [].

  (** cacheCluster.hpp:56-79 (add_server).  The server comes with its caches. *)
  Definition add_server (c : cluster) (v : server) (w : W) : res (cluster * nat) :=
    let ws := cl_weights c ++ [w] in
    let vs := cl_servers c ++ [v] in
    let! g := ring_create digest sort (shares ws) in
    Ok (mkCl (Some g) ws vs, (length vs - 1)%nat).

  (** cacheCluster.hpp:89-114 (remove_server).  The value returned for an index
      out of range is false, that is 0; otherwise the number of servers left
      minus one, as a uint64_t. *)
  Definition remove_server (c : cluster) (i : nat) : res (cluster * Z) :=
    if decide (length (cl_servers c) <= i)%nat then Ok (c, 0)
    else
      let ws := delete i (cl_weights c) in
      let vs := delete i (cl_servers c) in
      let! g := ring_create digest sort (shares ws) in
      Ok (mkCl (Some g) ws vs, u64 (Z.of_nat (length vs) - 1)).

  (** cacheCluster.hpp:129-145 (fail_one_server, recover_one_server);
      vector::at throws for an index out of range. *)
  Definition set_up (c : cluster) (i : nat) (up : bool) : res cluster :=
    match cl_servers c !! i with
    | None => Err OutOfBounds
    | Some v => Ok (mkCl (cl_ring c) (cl_weights c) (<[i := mkSrv up (sv_caches v)]> (cl_servers c)))
    end.

  (** cacheCluster.cpp:16-27 (CacheCluster::get) *)
  Definition cluster_get (c : cluster) (r : req) : res (cluster * bool) :=
    match cl_ring c with
    | None => Err NullDeref
    | Some g =>
        let! i := get_server_id digest g (r_id r) in
        match cl_servers c !! i with
        | None => Err OutOfBounds
        | Some v =>
            let! (v', hit) := server_get v r in
            Ok (mkCl (cl_ring c) (cl_weights c) (<[i := v']> (cl_servers c)), hit)
        end
    end.

  Fixpoint cluster_run (c : cluster) (rs : list req) : res (cluster * list bool) :=
    match rs with
    | [] => Ok (c, [])
    | r :: rs =>
        let! (c, b) := cluster_get c r in
        let! (c, bs) := cluster_run c rs in
        Ok (c, b :: bs)
    end.
End Cluster.
Arguments server : clear implicits.
Arguments cluster : clear implicits.
