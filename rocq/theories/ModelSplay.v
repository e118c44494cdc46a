(** dataStructure/splay.c: top-down splay tree with subtree sizes.
    A node's [value] field is stored, not computed, as in the C struct
    (splay.h:26-33).  Simplification: the tree is a value, not a heap of nodes
    with pointers; the nodes detached during a splay are kept in the two lists
    that the pointers N.right .. l and N.left .. r delimit. *)
From stdpp Require Import list numbers.
From Verif Require Import Base.
Open Scope Z_scope.

Inductive tree : Type :=
| Leaf
| Node (l : tree) (k v : Z) (r : tree).

(** splay.h:23 (node_value) *)
Definition nv (t : tree) : Z := match t with Leaf => 0 | Node _ _ v _ => v end.

(** splay.c:70-102: the loop of [splay].  [L]: nodes linked into the left tree,
    latest first, with their left subtrees; [R] likewise on the right; [ls],
    [rs]: l_size, r_size.  The value fields of linked nodes are rewritten after
    the loop, so they are not kept. *)
Fixpoint splay_loop (i : Z) (t : tree) (L R : list (tree * Z)) (ls rs : Z)
  : res (tree * Z * tree * list (tree * Z) * list (tree * Z) * Z * Z) :=
  match t with
  | Leaf => Err NullDeref
  | Node tl k v tr =>
      if decide (i < k) then
        match tl with
        | Leaf => Ok (tl, k, tr, L, R, ls, rs)
        | Node yl yk yv yr =>
            if decide (i < yk) then
              let t' := Node yr k (nv yr + nv tr + 1) tr in        (* rotate right *)
              match yl with
              | Leaf => Ok (yl, yk, t', L, R, ls, rs)
              | _ => splay_loop i yl L ((t', yk) :: R) ls (rs + (1 + nv t'))
              end
            else splay_loop i tl L ((tr, k) :: R) ls (rs + (1 + nv tr))
        end
      else if decide (k < i) then
        match tr with
        | Leaf => Ok (tl, k, tr, L, R, ls, rs)
        | Node yl yk yv yr =>
            if decide (yk < i) then
              let t' := Node tl k (nv tl + nv yl + 1) yl in         (* rotate left *)
              match yr with
              | Leaf => Ok (t', yk, yr, L, R, ls, rs)
              | _ => splay_loop i yr ((t', yk) :: L) R (ls + (1 + nv t')) rs
              end
            else splay_loop i tr ((tl, k) :: L) R (ls + (1 + nv tl)) rs
        end
      else Ok (tl, k, tr, L, R, ls, rs)
  end.

(** splay.c:115-118 and 124: the left tree, top node first, with its values
    rewritten and [bot] (t->left) hung below the last node. *)
Fixpoint build_left (p : list (tree * Z)) (ls : Z) (bot : tree) : tree :=
  match p with
  | [] => bot
  | (yl, k) :: p => Node yl k ls (build_left p (ls - (1 + nv yl)) bot)
  end.
(** splay.c:119-122 and 125 *)
Fixpoint build_right (p : list (tree * Z)) (rs : Z) (bot : tree) : tree :=
  match p with
  | [] => bot
  | (yr, k) :: p => Node (build_right p (rs - (1 + nv yr)) bot) k rs yr
  end.

(** splay.c:61-129 (splay) *)
Definition splay (i : Z) (t : tree) : res tree :=
  match t with
  | Leaf => Ok Leaf
  | _ =>
      let! x := splay_loop i t [] [] 0 0 in
      let '(tl, k, tr, L, R, ls, rs) := x in
      let ls := ls + nv tl in
      let rs := rs + nv tr in
      Ok (Node (build_left (rev L) ls tl) k (ls + rs + 1) (build_right (rev R) rs tr))
  end.

(** splay.c:158-193 (insert); malloc is assumed to succeed. *)
Definition sp_insert (i : Z) (t : tree) : res tree :=
  match t with
  | Leaf => Ok (Node Leaf i 1 Leaf)
  | _ =>
      let! t := splay i t in
      match t with
      | Leaf => Err NullDeref
      | Node tl k v tr =>
          if decide (i < k) then
            let t' := Node Leaf k (1 + nv tr) tr in
            Ok (Node tl i (1 + nv tl + nv t') t')
          else if decide (k < i) then
            let t' := Node tl k (1 + nv tl) Leaf in
            Ok (Node t' i (1 + nv t' + nv tr) tr)
          else if decide (v = 1 + nv tl + nv tr) then Ok t else Err AssertFail
      end
  end.

(** splay.c:195-217 (splay_delete): x->right is overwritten, whatever it was. *)
Definition sp_delete (i : Z) (t : tree) : res tree :=
  match t with
  | Leaf => Ok Leaf
  | _ =>
      let root_value := nv t in
      let! t := splay i t in
      match t with
      | Leaf => Err NullDeref
      | Node tl k v tr =>
          if decide (i = k) then
            match tl with
            | Leaf => Ok (match tr with Leaf => Leaf | Node a b _ d => Node a b (root_value - 1) d end)
            | _ =>
                let! x := splay i tl in
                match x with
                | Leaf => Err NullDeref
                | Node xl xk _ _ => Ok (Node xl xk (root_value - 1) tr)
                end
            end
          else Ok t
      end
  end.
