(** What a printed table is: lines, comment lines, and the numbers in the other lines. *)
From Coq Require Import String List Ascii NArith ZArith Reals Bool.
From Coq Require Import Floats.SpecFloat.
From Verif.Model Require Import Py PyFloat Particle Reaction Field Section Columns Dataset Print.
From Verif.Spec Require Import Text Exfor Names Doubles.
Import ListNotations.
Local Open Scope string_scope.
Local Open Scope list_scope.

Definition newline : ascii := ascii_of_N 10.
Definition one_line (s : list ascii) : Prop := ~ In newline s.
(** The text consists of these lines. *)
Definition text_lines (text : list ascii) (ls : list (list ascii)) : Prop :=
  ls <> [] /\ Forall one_line ls /\ text = between [newline] ls.
Definition comment_line (l : list ascii) : Prop := exists rest, l = "#"%char :: rest.

(** The numeral of a number has at most n digits. *)
Definition digits_at_most (n : Z) (d : dec) : Prop := (Z.of_N (dman d) < 10 ^ n)%Z.
(** Not so small that digits get lost: at least 2^-1022. *)
Definition normal (x : float) : Prop := match x with S754_finite _ m _ => (2 ^ 52 <= Zpos m)%Z | _ => False end.

(** [y] is [x], but for what is lost beyond the twelfth digit. *)
Definition to_12_digits (x y : float) : Prop :=
  (~ finite x -> y = x) /\
  (float_value x = 0%R -> y = x) /\
  (finite x -> (Rabs (float_value x) < powerRZ 10 308)%R ->
     finite y /\ (Rabs (float_value y - float_value x) <= Rabs (float_value x) / powerRZ 10 11)%R) /\
  (normal x -> (exists d, digits_at_most 12 d /\ float_of_dec d = x) -> y = x).

(** Zero, or a number of at most n digits that is neither tiny nor large. *)
Definition short_number (n : Z) (x : float) : Prop :=
  (exists s, x = S754_zero s) \/
  exists d, digits_at_most n d /\ float_of_dec d = x /\
    (powerRZ 10 (-99) <= Rabs (dec_value d) < powerRZ 10 (n + 3))%R.

(** ** Data sets *)

(** Nothing that goes into the header contains a line end. *)
Definition meta_texts (m : bibmeta) : list str :=
  [bm_title m; bm_year m; meta_institute_str m; meta_reference_str m; bm_subent m] ++ author_items (bm_author m).
Definition header_ok (nm : names) (d : dataset) : Prop :=
  Forall one_line (meta_texts (ds_meta d)) /\
  (forall m t s, ds_reaction d = Some (m, t) -> m_str nm m = Ok s -> one_line s /\ one_line (tree_str t)) /\
  (forall l x s, ds_monitor d = Some l -> In x l -> monitor_str nm x = Ok s -> one_line s) /\
  (forall f, ds_frame d = Some f -> one_line f).
(** Nor do the headings. *)
Definition table_ok (t : table) : Prop :=
  Forall one_line (t_labels t) /\ (forall u, In (Some u) (t_units t) -> one_line u).

(** What a cell of a data set reads as *)
Definition cell_read (c : dcell) (w : str) : Prop :=
  match c with
  | VNone => w = lit "None"
  | VFloat x => exists y, float_of_str w = Some y /\ to_12_digits x y
  | VZero => float_of_str w = Some fzero
  end.
(** The same when no digits are lost *)
Definition cell_read_exactly (c : dcell) (w : str) : Prop :=
  match c with VNone => w = lit "None" | VFloat x => float_of_str w = Some x | VZero => float_of_str w = Some fzero end.
(** and a cell of a DATA or COMMON section *)
Definition number_read (x : option float) (w : str) : Prop :=
  match x with None => w = lit "None" | Some x => float_of_str w = Some x end.
