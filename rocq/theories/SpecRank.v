(** What a ranked cache is supposed to do: every cached object has a rank,
    computed at its last use from the ageing level [L], its use count and its
    size; the victim is an object of least rank, the least recently used among
    those; the ageing level is the rank of the last victim. *)
From stdpp Require Import gmap list numbers fin_maps.
From Verif Require Import Base Driver Abs.
Open Scope Z_scope.

Record gspec : Type := mkG {
  g_a  : abs;          (* ledger: sizes, use counts, times of last use (Abs.v) *)
  g_rk : gmap Z Z;     (* rank of each cached object *)
  g_L  : Z             (* ageing level *)
}.

(** [v] is to be evicted, with rank [p]. *)
Definition lowest (m : gmap Z entry) (rk : gmap Z Z) (v p : Z) : Prop :=
  exists e, m !! v = Some e /\ rk !! v = Some p /\
    forall id e' p', m !! id = Some e' -> rk !! id = Some p' ->
      p < p' \/ p = p' /\ e_last e <= e_last e'.

Section Spec.
  Context (pri : Z -> Z -> Z -> Z) (cap md : Z).

  Inductive g_room (n : Z) : gmap Z entry -> gmap Z Z -> Z -> gmap Z entry -> gmap Z Z -> Z -> Prop :=
  | room_done m rk L : msum md m + n <= cap -> g_room n m rk L m rk L
  | room_more m rk L v p m' rk' L' :
      msum md m + n > cap -> lowest m rk v p ->
      g_room n (delete v m) (delete v rk) p m' rk' L' -> g_room n m rk L m' rk' L'.

  Inductive g_step : gspec -> call -> obs -> gspec -> Prop :=
  | GHit t m a rk L r e : m !! r_id r = Some e ->
      g_step (mkG (mkAbs t m a) rk L) (CGet r) (OBool true)
        (mkG (mkAbs (t + 1) (<[r_id r := touch t r e]> m) a)
             (<[r_id r := pri L (e_cnt e + 1) (e_size e)]> rk) L)
  | GRefused t m a a' rk L r : m !! r_id r = None -> admit a r = (a', false) ->
      g_step (mkG (mkAbs t m a) rk L) (CGet r) (OBool false) (mkG (mkAbs (t + 1) m a') rk L)
  | GTooBig t m a a' rk L r : m !! r_id r = None -> admit a r = (a', true) -> r_size r + md > cap ->
      g_step (mkG (mkAbs t m a) rk L) (CGet r) (OBool false) (mkG (mkAbs (t + 1) m a') rk L)
  | GMiss t m a a' rk L r m' rk' L' : m !! r_id r = None -> admit a r = (a', true) ->
      r_size r + md <= cap -> g_room (r_size r + md) m rk L m' rk' L' ->
      g_step (mkG (mkAbs t m a) rk L) (CGet r) (OBool false)
        (mkG (mkAbs (t + 1) (<[r_id r := fresh t r]> m') a')
             (<[r_id r := pri L' 1 (r_size r)]> rk') L')
  | GFind t m a rk L r :
      g_step (mkG (mkAbs t m a) rk L) (CFind r false) (OBool (bool_decide (is_Some (m !! r_id r))))
        (mkG (mkAbs (t + 1) m a) rk L)
  | GRemove t m a rk L id :
      g_step (mkG (mkAbs t m a) rk L) (CRemove id) (OBool (bool_decide (is_Some (m !! id))))
        (mkG (mkAbs (t + 1) (delete id m) a) (delete id rk) L)
  | GEvict t m a rk L r v p : lowest m rk v p ->
      g_step (mkG (mkAbs t m a) rk L) (CEvict r) OUnit
        (mkG (mkAbs (t + 1) (delete v m) a) (delete v rk) p)
  | GEvictEmpty t a rk L r :
      g_step (mkG (mkAbs t ∅ a) rk L) (CEvict r) OUnit (mkG (mkAbs (t + 1) ∅ a) rk L).

  Inductive g_run : gspec -> list call -> list obs -> gspec -> Prop :=
  | g_nil g : g_run g [] [] g
  | g_cons g c o g' cs os g'' :
      g_step g c o g' -> g_run g' cs os g'' -> g_run g (c :: cs) (o :: os) g''.
End Spec.

Definition g_start (L0 : Z) (adm : admissioner) : gspec := mkG (abs_init adm) ∅ L0.
