(** Vocabulary of the EXFOR line format: fields of a BIB section, pointers, DATA tables.  Nothing
    here refers to the model. *)
From Coq Require Import String List Ascii NArith ZArith Bool Arith.
From Verif.Spec Require Import Text.
Import ListNotations.
Local Open Scope list_scope.

(** [core] is [s] without trailing whitespace. *)
Definition right_trimmed (s core : list ascii) : Prop :=
  exists b, s = core ++ b /\ blank b /\ (forall c t, core = t ++ [c] -> ~ white c).

(** [omits P l k]: [k] is [l] without the elements satisfying [P]. *)
Inductive omits {A} (P : A -> Prop) : list A -> list A -> Prop :=
| omits_nil : omits P [] []
| omits_skip : forall x l k, P x -> omits P l k -> omits P (x :: l) k
| omits_keep : forall x l k, ~ P x -> omits P l k -> omits P (x :: l) (x :: k).

(** ** BIB sections *)

(** The keyword of a line is what is written in columns 1-10. *)
Definition has_keyword (line kw : list ascii) : Prop := trimmed (columns 0 10 line) kw.
Definition frame_line (line : list ascii) : Prop :=
  has_keyword line (list_ascii_of_string "BIB") \/ has_keyword line (list_ascii_of_string "ENDBIB").
Definition continuation (line : list ascii) : Prop := blank (columns 0 10 line).

(** A field: any first line, then continuation lines. *)
Definition one_field (field : list (list ascii)) : Prop :=
  exists first rest, field = first :: rest /\ Forall continuation rest.
(** A field that starts with a keyword. *)
Definition keyword_field (field : list (list ascii)) : Prop :=
  exists first rest, field = first :: rest /\ ~ continuation first /\ Forall continuation rest.

(** ** Pointers *)

(** Column 11; a line too short to have one has a blank there. *)
Definition column11 (line : list ascii) : ascii := nth 10 line " "%char.

(** The pointer every line belongs to: the most recent non-blank character in column 11. *)
Fixpoint marks (current : ascii) (lines : list (list ascii)) : list ascii :=
  match lines with
  | [] => []
  | l :: ls => let p := if Ascii.eqb (column11 l) " " then current else column11 l in p :: marks p ls
  end.

(** The items marked [p], in order. *)
Fixpoint marked {A} (p : ascii) (ps : list ascii) (xs : list A) : list A :=
  match ps, xs with
  | q :: ps', x :: xs' => if Ascii.eqb p q then x :: marked p ps' xs' else marked p ps' xs'
  | _, _ => []
  end.

(** ** Subentry numbers *)

Definition three_digits (n : nat) : list ascii :=
  digits_text [N.of_nat (n / 100); N.of_nat (n / 10 mod 10); N.of_nat (n mod 10)].

(** [x] is the last element of [l] satisfying [P]. *)
Definition last_such {A} (P : A -> Prop) (l : list A) (x : A) : Prop :=
  exists a b, l = a ++ x :: b /\ P x /\ Forall (fun y => ~ P y) b.

(** The lines of a field and the keyword on its first line. *)
Definition field_keyword (kw : list ascii) (field : list (list ascii)) : Prop :=
  exists first rest, field = first :: rest /\ has_keyword first kw.
(** Keys of a BIB section: a keyword, or nothing when it is blank. *)
Definition key_of (kw : list ascii) : option (list ascii) := match kw with [] => None | _ => Some kw end.

(** Decimal text of a number, right-adjusted in eleven columns, read back. *)
Definition writes_number (n : nat) (s : list ascii) : Prop :=
  exists ds, trimmed s (digits_text ds) /\ is_digits ds /\ ds <> [] /\ N.to_nat (value10 ds) = n.

Definition mentions (line word : list ascii) : Prop := exists a b, line = a ++ word ++ b.
(** An AUTHOR field that says there is none. *)
Definition author_missing (field : list (list ascii)) : Prop :=
  exists l, In l field /\
    (mentions l (list_ascii_of_string "No author given") \/ mentions l (list_ascii_of_string ".NOT GIVEN.")).

(** ** DATA tables *)

(** A line of the table: at most 66 characters, no newline in it. *)
Definition card (line : list ascii) : Prop := length line <= 66 /\ ~ In (ascii_of_N 10) line.

(** Six columns of eleven characters fit on a line. *)
Definition lines_per_row (numcols : nat) : nat := (numcols + 5) / 6.

(** The text of column [j] (from 0) in a row whose first line has number [first]. *)
Definition table_cell (lines : list (list ascii)) (first j : nat) (text : list ascii) : Prop :=
  exists line, nth_error lines (first + j / 6) = Some line /\
    trimmed (columns (11 * (j mod 6)) (11 * (j mod 6) + 11) line) text.

(** The three ways in which the number on the DATA line is counted in practice: rows; rows with the
    two header rows; lines between DATA and ENDDATA. *)
Definition counts_rows (lines ncols : nat) (announced : Z) : Prop :=
  Z.of_nat lines = (2 + (announced + 2) * Z.of_nat (lines_per_row ncols))%Z.
Definition counts_rows_and_headers (lines ncols : nat) (announced : Z) : Prop :=
  Z.of_nat lines = (2 + announced * Z.of_nat (lines_per_row ncols))%Z.
Definition counts_lines (lines : nat) (announced : Z) : Prop :=
  Z.of_nat lines = (2 + announced)%Z.

(** A heading with a pointer fills its eleven columns; the pointer is the last character. *)
Definition heading_pointer (label : list ascii) (p : ascii) : Prop :=
  length label = 11 /\ nth_error label 10 = Some p.

(** ** MONITOR fields *)

(** Does the text of a line open with a parenthesis, or with two? *)
Definition opens (line : list ascii) : Prop := exists rest, trimmed line ("("%char :: rest).
Definition opens_twice (line : list ascii) : Prop := exists rest, trimmed line ("("%char :: "("%char :: rest).
Definition balanced (line : list ascii) : Prop :=
  count_occ ascii_dec line "("%char = count_occ ascii_dec line ")"%char.

(** Free text after a reaction. *)
Inductive remarks : list (list ascii) -> list ascii -> Prop :=
| remarks_nil : remarks [] []
| remarks_cons : forall line core lines text, trimmed line core -> ~ opens line -> remarks lines text ->
    remarks (line :: lines) (" "%char :: core ++ text).

(** One reaction with the remarks that follow it: on one line, or, for an expression in double
    parentheses, on two. *)
Inductive monitor_item : list (list ascii) -> list ascii -> Prop :=
| monitor_one : forall line lines text, opens line -> balanced line -> remarks lines text ->
    monitor_item (line :: lines) (line ++ text)
| monitor_two : forall line next lines text, opens_twice line -> ~ balanced line -> remarks lines text ->
    monitor_item (line :: next :: lines) ((line ++ next) ++ text).

(** ** Words of a line *)
Inductive words : list ascii -> list (list ascii) -> Prop :=
| words_nil : forall b, blank b -> words b []
| words_last : forall b w, blank b -> w <> [] -> Forall (fun c => ~ white c) w -> words (b ++ w) [w]
| words_cons : forall b w c rest ws, blank b -> w <> [] -> Forall (fun c => ~ white c) w -> white c ->
    words rest ws -> words (b ++ w ++ c :: rest) (w :: ws).

(** A line whose first word is SUBENT. *)
Definition subent_line (l : list ascii) : Prop := exists ws, words l (list_ascii_of_string "SUBENT" :: ws).
