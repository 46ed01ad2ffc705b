(** What is shown when an entry is printed.  Refers to the types of the model, to what single texts
    are read as (reactions, monitors, tables) and to its names for parts of texts (title case, quoted texts). *)
From Coq Require Import String List Ascii NArith ZArith Bool Arith Sorted.
From Verif.Model Require Import Py Dicts Particle Reaction Field Section Columns Dataset Print.
From Verif.Spec Require Import Text Exfor Codes Names References Document WellWritten ReadBack Query.
Import ListNotations.
Local Open Scope string_scope.
Local Open Scope list_scope.
Local Open Scope nat_scope.

(** ** Frames *)

(** Texts, each on lines of its own. *)
Definition stacked (l : list (list ascii)) : list ascii := concat (map (fun t => t ++ [ascii_of_N 10]) l).
(** A text and blanks up to column eleven. *)
Definition padded (t : list ascii) : list ascii := t ++ repeat " "%char (11 - length t).

(** ** Fields *)

(** The pointers of a field in the order of their codes. *)
Definition pointers_sorted (fld : list (list ascii)) (ps : list ascii) : Prop :=
  StronglySorted (fun p q => (N_of_ascii p < N_of_ascii q)%N) ps /\ forall p, In p ps <-> In p (marks " " fld).
(** A text that belongs to a pointer. *)
Definition pointing (p : ascii) (t : list ascii) : list ascii :=
  if Ascii.eqb p " " then t else tx "[" ++ [p] ++ tx "] " ++ t.
(** The texts that belong to pointers. *)
Definition per_pointer (fld : list (list ascii)) (shows : ascii -> list (list ascii) -> list ascii -> Prop)
  (ps : list ascii) (ts : list (list ascii)) : Prop :=
  Forall2 (fun p t => exists ls, pointer_lines fld p ls /\ shows p ls t) ps ts.

(** Any field without a format of its own: the texts of its pointers. *)
Definition plain_shown (fld : list (list ascii)) (t : list ascii) : Prop :=
  exists ps ts, pointers_sorted fld ps /\
    per_pointer fld (fun p ls t => exists text, pointer_text ls text /\ t = pointing p text) ps ts /\ t = between (tx "; ") ts.
(** The title, in title case. *)
Definition title_shown (fld : list (list ascii)) (t : list ascii) : Prop :=
  exists ps ts, pointers_sorted fld ps /\
    per_pointer fld (fun p ls t => exists text, pointer_text ls text /\ trimmed (title text) t) ps ts /\ t = between (tx " ") ts.
(** Reactions: what is read of their texts; with a pointer also the rest of the line. *)
Definition reactions_shown (e : env) (nm : names) (fld : list (list ascii)) (t : list ascii) : Prop :=
  exists ps ts, pointers_sorted fld ps /\
    per_pointer fld (fun p ls t => exists text m line s, pointer_text ls text /\ reaction_of_text e text = Ok (m, PTok line) /\
      m_str nm m = Ok s /\
      t = pointing p (s ++ if Ascii.eqb p " " then [] else match line with [] => [] | _ => tx ", " ++ line end)) ps ts /\
    t = between (tx "; ") ts.
(** A monitor: its reaction, if it has one, the rest of its line, and its heading, if it has one. *)
Definition monitor_shown (e : env) (nm : names) (text t : list ascii) : Prop :=
  exists m line h s, monitor_reaction e text = Ok (m, PTok line, h) /\
    match m with Some m => m_repr nm m = Ok s | None => s = tx "None" end /\
    t = tx "(" ++ s ++ tx ", " ++ repr_str line ++ tx ", " ++ match h with Some h => repr_str h | None => tx "None" end ++ tx ")".
(** Monitors: pointers in the order in which they appear, all monitors of each. *)
Definition monitors_shown (e : env) (nm : names) (fld : list (list ascii)) (t : list ascii) : Prop :=
  exists ts, per_pointer fld (fun p ls t => exists before remark groups texts xs,
      ls = concat (before ++ groups) /\ Forall2 remark_item before remark /\ length before <= 1 /\ Forall2 monitor_item groups texts /\
      Forall2 (monitor_shown e nm) (remark ++ texts) xs /\ t = pointing p (tx "[" ++ between (tx ", ") xs ++ tx "]"))
    (appearing (marks " " fld)) ts /\
    t = between (tx "; ") ts.
(** Authors: in title case, or that there are none. *)
Definition authors_shown (fld : list (list ascii)) (t : list ascii) : Prop :=
  (author_missing fld -> t = tx "No author given") /\
  (~ author_missing fld -> exists nss,
     Forall2 (fun p names => exists ls parts, pointer_lines fld p ls /\ Forall2 trimmed ls parts /\ author_list names (concat parts))
             (appearing (marks " " fld)) nss /\
     t = between (tx ", ") (map title (concat nss))).
(** Institutes: their names from the dictionary, and the comments. *)
Definition institute_shown (i : list ascii * list ascii * list ascii) : list ascii :=
  let '(_, name, comment) := i in match comment with [] => name | _ => name ++ tx " (" ++ comment ++ tx ")" end.
Definition institutes_shown (e : env) (fld : list (list ascii)) (t : list ascii) : Prop :=
  exists iss rs,
    Forall2 (fun p is => exists ls text, pointer_lines fld p ls /\ pointer_text ls text /\ institutes_text is text)
            (appearing (marks " " fld)) iss /\
    Forall2 (institute_named title (fun k => dget str_eqb k (e_institutes e))) (concat iss) rs /\
    t = between (tx "; ") (map institute_shown rs).
(** A reference: the name of the publication, the details and the year. *)
Definition reference_shown (e : env) (r : ref) (t : list ascii) : Prop :=
  exists name details year, pretty_name capitalize (table_of (e_dicts e)) (rt_type r) (rt_name r) name /\
    Forall2 trimmed (rt_details r) details /\ parseX4Year (digits_text (rt_date r)) = Ok year /\
    t = name ++ between (tx ", ") details ++ tx " (" ++ year ++ tx ")".
Definition references_shown (e : env) (fld : list (list ascii)) (t : list ascii) : Prop :=
  exists ts, per_pointer fld (fun p ls t => exists rs xs, reference_lines ls rs /\ Forall2 (reference_shown e) rs xs /\
      t = (if Ascii.eqb p " " then [] else tx "[" ++ [p] ++ tx "]") ++ between (tx "; ") xs)
    (appearing (marks " " fld)) ts /\
    t = between (tx "; ") ts.

Definition formatted : list (list ascii) := map tx ["REACTION"; "MONITOR"; "REFERENCE"; "AUTHOR"; "TITLE"; "INSTITUTE"].
(** The text of a field with this keyword. *)
Record field_shown (e : env) (nm : names) (kw : list ascii) (fld : list (list ascii)) (t : list ascii) : Prop := {
  shown_reaction : kw = tx "REACTION" -> reactions_shown e nm fld t;
  shown_monitor : kw = tx "MONITOR" -> monitors_shown e nm fld t;
  shown_reference : kw = tx "REFERENCE" -> references_shown e fld t;
  shown_author : kw = tx "AUTHOR" -> authors_shown fld t;
  shown_title : kw = tx "TITLE" -> title_shown fld t;
  shown_institute : kw = tx "INSTITUTE" -> institutes_shown e fld t;
  shown_plain : ~ In kw formatted -> plain_shown fld t }.

(** ** Sections, subentries, entries *)

(** A number in the eleven columns of a header. *)
Definition in_columns (n : nat) (t : list ascii) : Prop := writes_number n t /\ (length t = 11 \/ (10 ^ 11 <= N.of_nat n)%N).

(** A BIB section: for every field, in order, the text of the last field with that keyword; no
    keywords.  The header gives the number of keywords and, if none stands twice and the authors
    are given, the number of the lines of the fields. *)
Definition bib_shown (e : env) (nm : names) (section : list (list ascii)) (t : list ascii) : Prop :=
  exists fs kws ts k n k' n', fields section fs /\ Forall2 field_keyword kws fs /\
    Forall2 (fun kw t => exists fld, last_such (field_keyword kw) fs fld /\ field_shown e nm kw fld t) kws ts /\
    in_columns k k' /\ in_columns n n' /\ k = length (nodup (list_eq_dec ascii_dec) kws) /\
    (NoDup kws -> (forall f, In f fs -> field_keyword (tx "AUTHOR") f -> ~ author_missing f) -> n = length (concat fs)) /\
    t = tx "BIB        " ++ k' ++ n' ++ [ascii_of_N 10] ++ stacked ts ++ tx "ENDBIB     " ++ n'.

(** A subentry: its BIB, COMMON and DATA sections, as far as it has them, in this order. *)
Definition section_shown (e : env) (nm : names) (name : string) (section : list (list ascii)) (t : list ascii) : Prop :=
  (name = "BIB" -> bib_shown e nm section t) /\
  (name <> "BIB" -> exists d, X4DataSection (tx name) section = Ok d /\ t = data_str d).
Definition subentry_shown (e : env) (nm : names) (num text t : list ascii) : Prop :=
  exists has ts, let names := filter has ["BIB"; "COMMON"; "DATA"] in
    (forall name, In name ["BIB"; "COMMON"; "DATA"] -> (has name = true <-> exists b, has_section name text b)) /\
    Forall2 (fun name t => exists b, has_section name text b /\ section_shown e nm name b t) names ts /\
    t = tx "SUBENT     " ++ padded num ++ [ascii_of_N 10] ++ stacked ts ++ tx "ENDSUBENT  ".

(** An entry: its subentries in the order of their numbers; of those with the same number the last. *)
Definition entry_shown (e : env) (nm : names) (acc : list ascii) (raw : list (list ascii)) (t : list ascii) : Prop :=
  exists nums ts, StronglySorted str_lt nums /\
    (forall num, In num nums <-> exists text, In text raw /\ numbered num text) /\
    Forall2 (fun num t => exists text, last_such (numbered num) raw text /\ subentry_shown e nm num text t) nums ts /\
    t = tx "ENTRY      " ++ padded acc ++ [ascii_of_N 10] ++ stacked ts ++ tx "ENDENTRY   ".

(** A subentry whose authors are "not given". *)
Definition without_authors (text : list ascii) : Prop :=
  exists b fs fld, has_section "BIB" text b /\ fields b fs /\ last_such (field_keyword (tx "AUTHOR")) fs fld /\ author_missing fld.
