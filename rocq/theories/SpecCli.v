(** What the command line means to a user (C57, C58): sizes, lists, trace types
    and trace parameters as text.  Nothing here refers to the functions that
    parse it. *)
From stdpp Require Import gmap list numbers strings.
Open Scope Z_scope.

(** The bytes of a name. *)
Definition bytes_of (s : string) : list Z := (fun a => Z.of_N (Ascii.N_of_ascii a)) <$> String.list_ascii_of_string s.

(** The same text up to the case of letters. *)
Definition same_char (a b : Z) : Prop := a = b \/ (65 <= a <= 90 /\ b = a + 32) \/ (65 <= b <= 90 /\ a = b + 32).
Definition same_text (a b : list Z) : Prop := Forall2 same_char a b.

(** [t]: the texts [ts] with commas between them. *)
Fixpoint comma_list (ts : list (list Z)) : list Z :=
  match ts with
  | [] => []
  | [t] => t
  | t :: ts => t ++ 44 :: comma_list ts
  end.

(** * Sizes *)

(** Decimal digits and the number they denote. *)
Definition numeral (ds : list Z) (n : Z) : Prop :=
  ds <> [] /\ Forall (fun c => 48 <= c <= 57) ds /\ n = foldl (fun a c => 10 * a + (c - 48)) 0 ds.

Definition units : list (string * Z) :=
  [("", 1); ("k", 2 ^ 10); ("kb", 2 ^ 10); ("m", 2 ^ 20); ("mb", 2 ^ 20); ("g", 2 ^ 30); ("gb", 2 ^ 30);
   ("t", 2 ^ 40); ("tb", 2 ^ 40)]%string.

(** A number of bytes (or objects), with a unit or without: "1024", "4Kb", "1G". *)
Definition size_text (t : list Z) (n : Z) : Prop :=
  exists ds d u u' k, numeral ds d /\ (u, k) ∈ units /\ same_text u' (bytes_of u) /\ t = ds ++ u' /\
    n = d * k /\ n < 2 ^ 63.

(** A fraction of the working set: "0.1". *)
Definition fraction_text (t : list Z) : Prop := 46 ∈ t /\ 44 ∉ t.

(** The objects in a trace of ids and sizes, and the size each of them has when
    it is first requested. *)
Definition objects (tr : list (Z * Z)) (ids : list Z) : Prop := NoDup ids /\ forall id, id ∈ ids <-> id ∈ tr.*1.
Fixpoint first_size (tr : list (Z * Z)) (id : Z) : Z :=
  match tr with
  | [] => 0
  | (i, z) :: tr => if decide (i = id) then z else first_size tr id
  end.
Definition total (l : list Z) : Z := foldr Z.add 0 l.

(** * Trace types and parameters *)

(** The documented parameters. *)
Inductive setting : Type :=
| SetTime (n : Z) | SetId (n : Z) | SetSize (n : Z) | SetCnt (n : Z) | SetNext (n : Z)
| SetIdNum (b : bool) | SetHeader (b : bool) | SetFormat (f : list Z) | SetDelim (c : Z).

(** A name with its hyphens possibly written as underscores, in any case. *)
Definition spelled (k : list Z) (name : string) : Prop :=
  Forall2 (fun a b => same_char a b \/ (a = 95 /\ b = 45)) k (bytes_of name).

(** A column number: no leading zero. *)
Definition column_text (v : list Z) (n : Z) : Prop :=
  numeral v n /\ (head v = Some 48 -> v = [48]) /\ n < 2 ^ 31.
Definition bool_text (v : list Z) (b : bool) : Prop :=
  exists w, same_text v (bytes_of w) /\
    w ∈ (if b then ["true"; "yes"; "y"; "1"] else ["false"; "no"; "n"; "0"])%string.
(** The delimiter itself; a tab is written "\t", a comma as nothing or "\". *)
Definition delim_text (v : list Z) (c : Z) : Prop :=
  (v = [c] /\ c <> 92 /\ c <> 44) \/ (v = [92; 116] /\ c = 9) \/ ((v = [] \/ v = [92]) /\ c = 44).

(** "key=value" *)
Definition setting_text (t : list Z) (s : setting) : Prop :=
  exists k v, t = k ++ 61 :: v /\ 44 ∉ v /\
    match s with
    | SetTime n => (spelled k "time-col" \/ spelled k "time-field") /\ column_text v n
    | SetId n => (spelled k "obj-id-col" \/ spelled k "obj-id-field") /\ column_text v n
    | SetSize n => (spelled k "obj-size-col" \/ spelled k "obj-size-field" \/ spelled k "size-col" \/ spelled k "size-field") /\
        column_text v n
    | SetCnt n => (spelled k "cnt-col" \/ spelled k "cnt-field") /\ column_text v n
    | SetNext n => (spelled k "next-access-col" \/ spelled k "next-access-field") /\ column_text v n
    | SetIdNum b => spelled k "obj-id-is-num" /\ bool_text v b
    | SetHeader b => (spelled k "header" \/ spelled k "has-header") /\ bool_text v b
    | SetFormat f => spelled k "format" /\ v = f
    | SetDelim c => spelled k "delimiter" /\ delim_text v c
    end.

(** Settings one after the other: a comma after each but the last, then any
    number of blanks and commas. *)
Inductive settings_text : list Z -> list setting -> Prop :=
| st_nil : settings_text [] []
| st_one t s : setting_text t s -> settings_text t [s]
| st_more t s b t' l : setting_text t s -> Forall (fun c => c = 32 \/ c = 44) b ->
    settings_text t' l -> (head t' <> Some 32 /\ head t' <> Some 44) ->
    settings_text (t ++ 44 :: b ++ t') (s :: l).

(** The last setting of a field counts. *)
Definition last_of {A} (sel : setting -> option A) (l : list setting) : option A := last (omap sel l).
Definition sel_time (s : setting) := match s with SetTime n => Some n | _ => None end.
Definition sel_id (s : setting) := match s with SetId n => Some n | _ => None end.
Definition sel_size (s : setting) := match s with SetSize n => Some n | _ => None end.
Definition sel_cnt (s : setting) := match s with SetCnt n => Some n | _ => None end.
Definition sel_next (s : setting) := match s with SetNext n => Some n | _ => None end.
Definition sel_idnum (s : setting) := match s with SetIdNum b => Some b | _ => None end.
Definition sel_header (s : setting) := match s with SetHeader b => Some b | _ => None end.
Definition sel_format (s : setting) := match s with SetFormat f => Some f | _ => None end.
Definition sel_delim (s : setting) := match s with SetDelim c => Some c | _ => None end.
