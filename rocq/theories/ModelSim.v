(** The simulator: profiler/simulator.c (_simulate on a thread pool,
    simulate_at_multi_sizes, simulate_with_multi_caches) and
    bin/cachesim/sim.c (simulate).  Line numbers refer to
    /repo/libCacheSim/profiler/simulator.c unless another file is named. *)
From stdpp Require Import gmap list numbers fin_maps.
From Verif Require Import Base Driver ModelReader.
Open Scope Z_scope.

(** A cache object as the simulator uses it: any state, the get function
    pointer, and the raw fields n_obj, occupied_byte (include/libCacheSim/cache.h:120-126)
    and cache_size.  get may draw from the thread-local generator rand_seed
    (utils/mymath.c:11), which is passed in and out. *)
Record acache : Type := mkAC {
  ac_S    : Type;
  ac_fn   : ac_S -> Z -> treq -> res (ac_S * Z * bool);
  ac_nobj : ac_S -> Z;
  ac_occ  : ac_S -> Z;
  ac_size : Z;
  ac_s    : ac_S
}.

Definition ac_set (c : acache) (s : ac_S c) : acache :=
  mkAC (ac_S c) (ac_fn c) (ac_nobj c) (ac_occ c) (ac_size c) s.

(** cache->get(cache, req) *)
Definition ac_get (c : acache) (seed : Z) (q : treq) : res (acache * Z * bool) :=
  let! (s, seed', b) := ac_fn c (ac_s c) seed q in
  Ok (ac_set c s, seed', b).

(** The request fields that the cache models look at. *)
Definition req_of (q : treq) : req :=
  mkReq (fget q F_ID) (fget q F_SIZE) (fget q F_TIME) (fget q F_NEXT) (fget q F_TTL).

(** A cache of the models of this development as the simulator sees it;
    [raw_n] and [raw_b] are the raw fields. *)
Definition acache_of {S} (O : ops S) (fuel : nat) (raw_n raw_b : S -> Z) (s : S) : acache :=
  mkAC S (fun s seed q => let! (s', b) := cache_get_base O fuel s (req_of q) in
                          Ok (s', seed, b))
       raw_n raw_b (op_size O s) s.

(** include/libCacheSim/request.h:71-83 (new_request). *)
Definition new_request : treq :=
  <[F_VALID := 1]> (<[F_SIZE := 1]> (<[F_NEXT := -2]> (<[F_TIME := 0]> (<[F_ID := 0]>
  (<[F_HV := 0]> (<[F_TTL := 0]> ∅)))))).

(** include/libCacheSim/cache.h:74-90 (cache_stat_t).  int64_t counters; the
    model does not wrap them.  The expiry fields and the name are left out. *)
Record cstat : Type := mkStat {
  st_warm : Z;       (* n_warmup_req *)
  st_req : Z;        (* n_req *)
  st_req_byte : Z;   (* n_req_byte *)
  st_miss : Z;       (* n_miss *)
  st_miss_byte : Z;  (* n_miss_byte *)
  st_nobj : Z;       (* n_obj *)
  st_occ : Z;        (* occupied_byte *)
  st_size : Z;       (* cache_size *)
  st_time : Z        (* curr_rtime *)
}.

(** memset(result, 0, ...) (182, 261) *)
Definition stat0 : cstat := mkStat 0 0 0 0 0 0 0 0 0.

Definition set_csize (n : Z) (s : cstat) : cstat :=
  mkStat (st_warm s) (st_req s) (st_req_byte s) (st_miss s) (st_miss_byte s)
         (st_nobj s) (st_occ s) n (st_time s).

Definition add_warm (n : Z) (s : cstat) : cstat :=
  mkStat (st_warm s + n) (st_req s) (st_req_byte s) (st_miss s) (st_miss_byte s)
         (st_nobj s) (st_occ s) (st_size s) (st_time s).
Definition add_req (s : cstat) : cstat :=
  mkStat (st_warm s) (st_req s + 1) (st_req_byte s) (st_miss s) (st_miss_byte s)
         (st_nobj s) (st_occ s) (st_size s) (st_time s).
Definition add_req_byte (n : Z) (s : cstat) : cstat :=
  mkStat (st_warm s) (st_req s) (st_req_byte s + n) (st_miss s) (st_miss_byte s)
         (st_nobj s) (st_occ s) (st_size s) (st_time s).
Definition add_miss (s : cstat) : cstat :=
  mkStat (st_warm s) (st_req s) (st_req_byte s) (st_miss s + 1) (st_miss_byte s)
         (st_nobj s) (st_occ s) (st_size s) (st_time s).
Definition add_miss_byte (n : Z) (s : cstat) : cstat :=
  mkStat (st_warm s) (st_req s) (st_req_byte s) (st_miss s) (st_miss_byte s + n)
         (st_nobj s) (st_occ s) (st_size s) (st_time s).
Definition set_final (time nobj occ : Z) (s : cstat) : cstat :=
  mkStat (st_warm s) (st_req s) (st_req_byte s) (st_miss s) (st_miss_byte s)
         nobj occ (st_size s) time.

Section sim.
  (** Any kind of reader: read_one_req and clone_reader. *)
  Context {R : Type} (read : R -> treq -> res (R * treq * Z)) (clone : R -> R).

  (** 23-35 (sim_mt_params_t), the fields that do not change. *)
  Record sparams : Type := mkSP {
    sp_reader : R;
    sp_warm : option R;      (* warmup_reader *)
    sp_nwarm : Z;            (* n_warmup_req *)
    sp_sec : Z;              (* warmup_sec *)
    sp_free : bool           (* free_cache_when_finish *)
  }.
  Context (P : sparams).

  (** Program points of _simulate (37-137). *)
  Inductive pc : Type :=
  | PSeed        (* 40 *)
  | PClone       (* 43-44 *)
  | PWarm0       (* 50-52 *)
  | PWarmGet     (* 53-54 *)
  | PWarmCnt     (* 55 *)
  | PWarmRead    (* 56 *)
  | PRead0       (* 66-67 *)
  | PWu          (* 70-75 *)
  | PWuRead      (* 76-77 *)
  | PWuEnd       (* 79 *)
  | PLoop        (* 87-88 *)
  | PBytes       (* 89 *)
  | PGet         (* 91-92 *)
  | PMiss        (* 93 *)
  | PMissByte    (* 94 *)
  | PRead        (* 96 *)
  | PTime        (* 118-120 *)
  | PLock        (* 125 *)
  | PLoad        (* 126, the read of *progress *)
  | PStore       (* 126, the write of *progress *)
  | PUnlock      (* 127 *)
  | PFree.       (* 130-132 *)

  (** Local variables of one execution of _simulate, and the thread-local
      rand_seed. *)
  Record lstate : Type := mkL {
    l_pc : pc;
    l_seed : Z;
    l_rd : R;                (* cloned_reader *)
    l_wrd : R;               (* warmup_cloned_reader *)
    l_q : treq;              (* *req *)
    l_ts : Z;                (* start_ts *)
    l_nw : Z;                (* n_warmup *)
    l_tmp : Z                (* the value of *progress between load and store *)
  }.

  Definition at_pc (l : lstate) (p : pc) : lstate :=
    mkL p (l_seed l) (l_rd l) (l_wrd l) (l_q l) (l_ts l) (l_nw l) (l_tmp l).
  Definition with_rd (l : lstate) (rd : R) (q : treq) (p : pc) : lstate :=
    mkL p (l_seed l) rd (l_wrd l) q (l_ts l) (l_nw l) (l_tmp l).
  Definition with_wrd (l : lstate) (rd : R) (q : treq) (p : pc) : lstate :=
    mkL p (l_seed l) (l_rd l) rd q (l_ts l) (l_nw l) (l_tmp l).
  Definition with_get (l : lstate) (seed : Z) (q : treq) (p : pc) : lstate :=
    mkL p seed (l_rd l) (l_wrd l) q (l_ts l) (l_nw l) (l_tmp l).

  Definition valid (q : treq) : bool := negb (fget q F_VALID =? 0).

  (** req->clock_time -= start_ts (73, 91) *)
  Definition sub_time (ts : Z) (q : treq) : treq := <[F_TIME := fget q F_TIME - ts]> q.

  (** The loop condition of 71-72. *)
  Definition in_warmup (l : lstate) : bool :=
    bool_decide (l_nw l < sp_nwarm P) ||
    bool_decide (fget (l_q l) F_TIME - l_ts l < sp_sec P).

  (** One statement of _simulate up to line 120: it reads and writes the local
      variables, the cache and the statistics record given to it. *)
  Definition lstep (l : lstate) (c : acache) (s : cstat) : res (lstate * acache * cstat) :=
    match l_pc l with
    | PSeed => Ok (mkL PClone 0 (l_rd l) (l_wrd l) (l_q l) (l_ts l) (l_nw l) (l_tmp l), c, s)
    | PClone => Ok (with_rd l (clone (sp_reader P)) new_request PWarm0, c, s)
    | PWarm0 =>
        match sp_warm P with
        | None => Ok (at_pc l PRead0, c, s)
        | Some w =>
            let! (rd, q, _) := read (clone w) (l_q l) in
            Ok (with_wrd l rd q PWarmGet, c, s)
        end
    | PWarmGet =>
        if valid (l_q l) then
          let! (c', seed, _) := ac_get c (l_seed l) (l_q l) in
          Ok (with_get l seed (l_q l) PWarmCnt, c', s)
        else Ok (at_pc l PRead0, c, s)
    | PWarmCnt => Ok (at_pc l PWarmRead, c, add_warm 1 s)
    | PWarmRead =>
        let! (rd, q, _) := read (l_wrd l) (l_q l) in
        Ok (with_wrd l rd q PWarmGet, c, s)
    | PRead0 =>
        let! (rd, q, _) := read (l_rd l) (l_q l) in
        Ok (mkL (if bool_decide (0 < sp_nwarm P) || bool_decide (0 < sp_sec P)
                 then PWu else PLoop)
                (l_seed l) rd (l_wrd l) q (fget q F_TIME) 0 (l_tmp l), c, s)
    | PWu =>
        if valid (l_q l) && in_warmup l then
          let q := sub_time (l_ts l) (l_q l) in
          let! (c', seed, _) := ac_get c (l_seed l) q in
          Ok (with_get l seed q PWuRead, c', s)
        else Ok (at_pc l PWuEnd, c, s)
    | PWuRead =>
        let! (rd, q, _) := read (l_rd l) (l_q l) in
        Ok (mkL PWu (l_seed l) rd (l_wrd l) q (l_ts l) (l_nw l + 1) (l_tmp l), c, s)
    | PWuEnd => Ok (at_pc l PLoop, c, add_warm (l_nw l) s)
    | PLoop => if valid (l_q l) then Ok (at_pc l PBytes, c, add_req s)
               else Ok (at_pc l PTime, c, s)
    | PBytes => Ok (at_pc l PGet, c, add_req_byte (fget (l_q l) F_SIZE) s)
    | PGet =>
        let q := sub_time (l_ts l) (l_q l) in
        let! (c', seed, hit) := ac_get c (l_seed l) q in
        Ok (with_get l seed q (if hit : bool then PRead else PMiss), c', s)
    | PMiss => Ok (at_pc l PMissByte, c, add_miss s)
    | PMissByte => Ok (at_pc l PRead, c, add_miss_byte (fget (l_q l) F_SIZE) s)
    | PRead =>
        let! (rd, q, _) := read (l_rd l) (l_q l) in
        Ok (with_rd l rd q PLoop, c, s)
    | PTime =>
        Ok (at_pc l PLock, c,
            set_final (fget (l_q l) F_TIME) (ac_nobj c (ac_s c)) (ac_occ c (ac_s c)) s)
    | _ => Ok (l, c, s)
    end.

  (** ** Threads

      A worker of the pool: idle, or executing _simulate for a task.  The
      thread-local rand_seed survives from one task to the next. *)
  Record worker : Type := mkW {
    w_seed : Z;                        (* rand_seed while idle *)
    w_job : option (nat * lstate)      (* idx and the local variables *)
  }.

  (** The main thread: pushing task number i (194-201, 288-293), busy waiting
      (215-217, 301-303; the comparison is in uint64_t), joining the pool (220, 306), returned. *)
  Inductive mainpc : Type :=
  | MPush (i : nat)
  | MWait
  | MJoin
  | MDone.

  (** Where the caches come from: given by the caller
      (simulate_with_multi_caches) or created one by one while the tasks are
      pushed (simulate_at_multi_sizes, create_cache_with_new_size; [mk i] is
      the new cache for the i-th size).
      The result's cache_size is read from the created cache, which is the
      cache_sizes[i-1] it was created with. *)
  Inductive source : Type :=
  | Given
  | Created (mk : nat -> acache).

  (** Everything the threads share.  [m_caches] is params->caches, an array of
      pointers; [m_heap] the live cache objects; [m_fresh] the next address. *)
  Record machine : Type := mkM {
    m_main : mainpc;
    m_caches : list (option nat);
    m_heap : gmap nat acache;
    m_fresh : nat;
    m_res : list cstat;
    m_prog : Z;
    m_mtx : option nat;             (* holder of params->mtx *)
    m_queue : list nat;             (* tasks in the pool, first to run first *)
    m_work : list worker
  }.

  Context (src : source).

  Definition m_set_main (m : machine) (x : mainpc) : machine :=
    mkM x (m_caches m) (m_heap m) (m_fresh m) (m_res m) (m_prog m) (m_mtx m) (m_queue m) (m_work m).
  Definition m_set_worker (m : machine) (w : nat) (x : worker) : machine :=
    mkM (m_main m) (m_caches m) (m_heap m) (m_fresh m) (m_res m) (m_prog m) (m_mtx m)
        (m_queue m) (<[w := x]> (m_work m)).

  (** params->caches[idx], dereferenced. *)
  Definition m_cache (m : machine) (idx : nat) : res (nat * acache) :=
    match m_caches m !! idx with
    | None => Err OutOfBounds
    | Some None => Err NullDeref
    | Some (Some p) =>
        match m_heap m !! p with None => Err UseAfterFree | Some c => Ok (p, c) end
    end.

  (** result[idx] *)
  Definition m_stat (m : machine) (idx : nat) : res cstat :=
    match m_res m !! idx with None => Err OutOfBounds | Some s => Ok s end.

  (** A statement of _simulate executed by worker [w] for task index [idx]. *)
  Definition wstep (m : machine) (w idx : nat) (l : lstate) : res machine :=
    let go l' := mkW (l_seed l') (Some (idx, l')) in
    match l_pc l with
    | PLock =>
        match m_mtx m with
        | Some _ => Ok m
        | None =>
            Ok (mkM (m_main m) (m_caches m) (m_heap m) (m_fresh m) (m_res m) (m_prog m)
                    (Some w) (m_queue m) (<[w := go (at_pc l PLoad)]> (m_work m)))
        end
    | PLoad =>
        Ok (m_set_worker m w (go (mkL PStore (l_seed l) (l_rd l) (l_wrd l) (l_q l) (l_ts l)
                                      (l_nw l) (m_prog m))))
    | PStore =>
        Ok (mkM (m_main m) (m_caches m) (m_heap m) (m_fresh m) (m_res m) (l_tmp l + 1)
                (m_mtx m) (m_queue m) (<[w := go (at_pc l PUnlock)]> (m_work m)))
    | PUnlock =>
        Ok (mkM (m_main m) (m_caches m) (m_heap m) (m_fresh m) (m_res m) (m_prog m)
                None (m_queue m) (<[w := go (at_pc l PFree)]> (m_work m)))
    | PFree =>
        if sp_free P then
          let! (p, _) := m_cache m idx in
          Ok (mkM (m_main m) (m_caches m) (delete p (m_heap m)) (m_fresh m) (m_res m) (m_prog m)
                  (m_mtx m) (m_queue m) (<[w := mkW (l_seed l) None]> (m_work m)))
        else Ok (m_set_worker m w (mkW (l_seed l) None))
    | _ =>
        let! (p, c) := m_cache m idx in
        let! s := m_stat m idx in
        let! (l', c', s') := lstep l c s in
        Ok (mkM (m_main m) (m_caches m) (<[p := c']> (m_heap m)) (m_fresh m)
                (<[idx := s']> (m_res m)) (m_prog m)
                (m_mtx m) (m_queue m) (<[w := go l']> (m_work m)))
    end.

  (** The locals of a task that just starts; the reader variables are not yet
      assigned (39: idx = GPOINTER_TO_UINT(data) - 1). *)
  Definition start_job (m : machine) (w : nat) (seed : Z) : machine :=
    match m_queue m with
    | [] => m
    | data :: rest =>
        mkM (m_main m) (m_caches m) (m_heap m) (m_fresh m) (m_res m) (m_prog m) (m_mtx m) rest
            (<[w := mkW seed (Some ((data - 1)%nat,
                 mkL PSeed seed (sp_reader P) (sp_reader P) ∅ 0 0 0))]> (m_work m))
    end.

  Definition idle (w : worker) : bool :=
    match w_job w with None => true | Some _ => false end.

  (** The main thread: simulate_at_multi_sizes (172-234) and
      simulate_with_multi_caches (248-313) after the set-up. *)
  Definition mstep (m : machine) : res machine :=
    let n := length (m_caches m) in
    match m_main m with
    | MPush i =>
        if (i <? n + 1)%nat then
          match src with
          | Given =>
              let! (_, c) := m_cache m (i - 1) in
              let! s := m_stat m (i - 1) in
              Ok (mkM (MPush (i + 1)) (m_caches m) (m_heap m) (m_fresh m)
                      (<[(i - 1)%nat := set_csize (ac_size c) s]> (m_res m)) (m_prog m) (m_mtx m)
                      (m_queue m ++ [i]) (m_work m))
          | Created mk =>
              let c := mk (i - 1)%nat in
              let! s := m_stat m (i - 1) in
              Ok (mkM (MPush (i + 1)) (<[(i - 1)%nat := Some (m_fresh m)]> (m_caches m))
                      (<[m_fresh m := c]> (m_heap m)) (m_fresh m + 1)
                      (<[(i - 1)%nat := set_csize (ac_size c) s]> (m_res m)) (m_prog m) (m_mtx m)
                      (m_queue m ++ [i]) (m_work m))
          end
        else Ok (m_set_main m MWait)
    | MWait =>
        if bool_decide (u64 (m_prog m) < u64 (Z.of_nat n - 1)) then Ok m else Ok (m_set_main m MJoin)
    | MJoin =>
        match m_queue m with
        | [] => if forallb idle (m_work m) then Ok (m_set_main m MDone) else Ok m
        | _ => Ok m
        end
    | MDone => Ok m
    end.

  (** Who runs next. *)
  Inductive who : Type :=
  | Main
  | Worker (w : nat).

  Definition gstep (m : machine) (x : who) : res machine :=
    match x with
    | Main => mstep m
    | Worker w =>
        match m_work m !! w with
        | None => Ok m
        | Some wk =>
            match w_job wk with
            | None => Ok (start_job m w (w_seed wk))
            | Some (idx, l) => wstep m w idx l
            end
        end
    end.

  Fixpoint grun (m : machine) (sched : list who) : res machine :=
    match sched with
    | [] => Ok m
    | x :: sched' => let! m' := gstep m x in grun m' sched'
    end.

  (** simulate_with_multi_caches, 248-284: the state before the first push. *)
  Definition init_given (ptrs : list nat) (heap : gmap nat acache) (seeds : list Z) : machine :=
    mkM (MPush 1) (map Some ptrs) heap 0 (replicate (length ptrs) stat0) 0 None []
        (map (fun sd => mkW sd None) seeds).

  (** simulate_at_multi_sizes, 172-200. *)
  Definition init_created (n : nat) (seeds : list Z) : machine :=
    mkM (MPush 1) (replicate n None) ∅ 0 (replicate n stat0) 0 None []
        (map (fun sd => mkW sd None) seeds).

  (** ** bin/cachesim/sim.c:19-75 (simulate), the loop of the single-cache
      command line.  Simplification: report printing is left out; the seed
      comes from time(NULL). *)
  Record cli : Type := mkCli {
    cl_req : Z; cl_miss : Z; cl_req_byte : Z; cl_miss_byte : Z
  }.

  Fixpoint cli_loop (fuel : nat) (sec ts seed : Z) (rd : R) (c : acache) (q : treq) (k : cli)
    : res (acache * cli) :=
    match fuel with
    | O => Err OutOfFuel
    | S fuel' =>
        if valid q then
          let q1 := sub_time ts q in
          if bool_decide (fget q1 F_TIME <= sec) then
            let! (c', seed', _) := ac_get c seed q1 in
            let! (rd', q', _) := read rd q1 in
            cli_loop fuel' sec ts seed' rd' c' q' k
          else
            let! (c', seed', hit) := ac_get c seed q1 in
            let k' := mkCli (cl_req k + 1) (if hit : bool then cl_miss k else cl_miss k + 1)
                            (cl_req_byte k + fget q1 F_SIZE)
                            (if hit : bool then cl_miss_byte k
                             else cl_miss_byte k + fget q1 F_SIZE) in
            let! (rd', q', _) := read rd q1 in
            cli_loop fuel' sec ts seed' rd' c' q' k'
        else Ok (c, k)
    end.

  Definition cli_simulate (fuel : nat) (sec seed : Z) (rd : R) (c : acache)
    : res (acache * cli) :=
    let! (rd', q, _) := read rd new_request in
    cli_loop fuel sec (fget q F_TIME) seed rd' c q (mkCli 0 0 0 0).
End sim.
