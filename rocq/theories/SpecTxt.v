(** Specification vocabulary for text traces (C46) and csv traces (C47).
    Nothing here refers to file positions, buffers or parser states. *)
From stdpp Require Import gmap list numbers fin_maps.
Open Scope Z_scope.

(** * Text files *)

(** [ls] are the lines of the file [f], without their newlines (byte 10); the
    last line may lack its newline. *)
Definition newline_terminated (ls : list (list Z)) : list Z :=
  concat ((fun l => l ++ [10]) <$> ls).

Definition lines_of (f : list Z) (ls : list (list Z)) : Prop :=
  Forall (fun l => 10 ∉ l) ls /\
  (f = newline_terminated ls \/
   exists ls' l, ls = ls' ++ [l] /\ l <> [] /\ f = newline_terminated ls' ++ l).

Definition nonblank (ls : list (list Z)) : list (list Z) :=
  filter (fun l => l <> []) ls.

(** The user's limit on the number of requests; limits of one or less mean
    "no limit". *)
Definition limited {A} (cap : Z) (l : list A) : list A :=
  if decide (1 < cap) then take (Z.to_nat cap) l else l.

(** [ds] is the usual decimal notation (no sign, no leading zero) of the
    64-bit number [n]. *)
Definition decimal (ds : list Z) (n : Z) : Prop :=
  ds <> [] /\ Forall (fun c => 48 <= c <= 57) ds /\
  (head ds = Some 48 -> ds = [48]) /\
  n = foldl (fun a c => 10 * a + (c - 48)) 0 ds /\ 0 <= n < 2 ^ 64.

(** Two lists have the same pattern of repetitions. *)
Definition same_pattern {A B} (l : list A) (k : list B) : Prop :=
  length l = length k /\
  forall i j a b c d, l !! i = Some a -> l !! j = Some b ->
    k !! i = Some c -> k !! j = Some d -> (a = b <-> c = d).

(** * Cursors over lines

    [tc_pos] lines lie before the next one to read; [tc_cnt] read calls have
    been made since the last reset. *)
Record tcursor : Type := mkTC { tc_pos : nat; tc_cnt : Z }.

Section cursor.
  Context {R : Type} (recs : list R) (cap : Z).

  (** A read call delivers the next line; reading at the end counts as a call
      too. *)
  Definition tc_read (s : tcursor) (ans : option R) (s' : tcursor) : Prop :=
    if decide (1 < cap /\ cap <= tc_cnt s) then ans = None /\ s' = s
    else ans = recs !! tc_pos s /\ tc_cnt s' = tc_cnt s + 1 /\
         tc_pos s' = Nat.min (S (tc_pos s)) (length recs).

  Definition tc_back (s : tcursor) (ans : bool) (s' : tcursor) : Prop :=
    tc_cnt s' = tc_cnt s /\ ans = bool_decide (1 <= tc_pos s)%nat /\
    tc_pos s' = (tc_pos s - 1)%nat.

  Definition tc_back2 (s : tcursor) (ans : bool) (s' : tcursor) : Prop :=
    tc_cnt s' = tc_cnt s /\ ans = bool_decide (2 <= tc_pos s)%nat /\
    tc_pos s' = (tc_pos s - 2)%nat.

  Definition tc_skip (s : tcursor) (N ans : nat) (s' : tcursor) : Prop :=
    tc_cnt s' = tc_cnt s /\ ans = Nat.min N (length recs - tc_pos s) /\
    tc_pos s' = (tc_pos s + ans)%nat.
End cursor.

(** * Csv *)

Definition blank (d c : Z) : Prop := (c = 32 \/ c = 9) /\ c <> d.

(** A field text that may be written without quotes: no delimiter, no quote,
    no line break, and no blank at either end. *)
Definition plain (d : Z) (s : list Z) : Prop :=
  Forall (fun c => c <> d /\ c <> 34 /\ c <> 10 /\ c <> 13) s /\
  (forall c, head s = Some c \/ last s = Some c -> ~ (c = 32 \/ c = 9)).

(** A text in quotes, every quote in it doubled (RFC 4180). *)
Definition quoted (s : list Z) : list Z :=
  [34] ++ concat ((fun c => if decide (c = 34) then [34; 34] else [c]) <$> s) ++ [34].

(** [e] writes the field text [s]: plainly or in quotes, with optional blanks
    around it.  A quoted text must not contain a newline, because the readers
    split the file at newlines before they parse. *)
Definition field_enc (d : Z) (s e : list Z) : Prop :=
  exists b1 b2 e0, e = b1 ++ e0 ++ b2 /\ Forall (blank d) b1 /\ Forall (blank d) b2 /\
    (e0 = s /\ plain d s \/ e0 = quoted s /\ 10 ∉ s).

(** [l] is a row with the fields [fs]: the written fields separated by the
    delimiter.  (A row that consists of one empty plain field is a blank
    line.) *)
Fixpoint joined (d : Z) (es : list (list Z)) : list Z :=
  match es with
  | [] => []
  | [e] => e
  | e :: es' => e ++ [d] ++ joined d es'
  end.

Definition csv_row (d : Z) (fs : list (list Z)) (l : list Z) : Prop :=
  exists es, Forall2 (field_enc d) fs es /\ l = joined d es /\
    fs <> [] /\ ~ Forall (blank d) l.

(** A line of the file that holds the row: lines may end in CR LF. *)
Definition csv_text (d : Z) (fs : list (list Z)) (l : list Z) : Prop :=
  exists l0, csv_row d fs l0 /\ (l = l0 \/ l = l0 ++ [13]).

(** Delimiters: anything but a quote, a line break or NUL. *)
Definition delim_ok (d : Z) : Prop := d <> 34 /\ d <> 10 /\ d <> 13 /\ d <> 0.

(** The [k]-th field of a row, counted from 1; index 0 means that the trace has
    no such field. *)
Definition field (fs : list (list Z)) (k : Z) : option (list Z) :=
  if decide (1 <= k) then fs !! Z.to_nat (k - 1) else None.
