(** What examples/get-entry.py is to print.  Refers to the types of the model, to the texts of numbers
    and reactions, and to what headers take from BIB sections (C97). *)
From Coq Require Import String List Ascii NArith ZArith Bool Arith.
From Verif.Model Require Import Py PyFloat Repr Storage Manager Particle Reaction Field Section Entry Columns Dataset Print Grammars Client.
From Verif.Spec Require Import Text Exfor Codes Names Query Files Document WellWritten Stored Shown Headers.
Import ListNotations.
Local Open Scope string_scope.
Local Open Scope list_scope.
Local Open Scope nat_scope.

(** ** repr() of a data set *)

Definition header_lines (h : header) (num : list ascii) : list ascii :=
  between [ascii_of_N 10]
    [ tx "Authors:   " ++ between (tx ", ") (h_authors h);
      tx "Title:     " ++ h_title h;
      tx "Year:      " ++ h_year h;
      tx "Institute: " ++ h_institute h;
      tx "Reference: " ++ h_reference h;
      tx "Subent:    " ++ num ].
Definition cell_listed (x : dcell) : list ascii :=
  match x with VNone => tx "None" | VFloat x => repr_float x | VZero => tx "0" end.
(** A table as a list of lists. *)
Definition listing (labels units : list (list ascii)) (rows : list (list dcell)) : list ascii :=
  tx "[" ++
  between (tx "," ++ [ascii_of_N 10])
    ((tx "['" ++ between (tx "','") labels ++ tx "']") ::
     (tx "['" ++ between (tx "','") units ++ tx "']") ::
     map (fun row => tx "[" ++ between (tx ",") (map cell_listed row) ++ tx "]") rows) ++
  tx "]".
Definition monitor_listed (nm : names) (x : option measurement * ptree * option str) (t : list ascii) : Prop :=
  match fst (fst x) with Some m => m_repr nm m = Ok t | None => t = tx "None" end.
Definition set_listed (nm : names) (d : dataset) (h : header) (num text : list ascii) : Prop :=
  exists m remark s ms us, ds_reaction d = Some (m, remark) /\ m_repr nm m = Ok s /\
    (ds_monitor d = None \/ ds_monitor d = Some [] -> ms = []) /\
    (forall x l, ds_monitor d = Some (x :: l) -> exists ts, Forall2 (monitor_listed nm) (x :: l) ts /\
       ms = tx " " ++ [ascii_of_N 10] ++ tx "Monitor(s):[" ++ between (tx ", ") ts ++ tx "]") /\
    t_units (ds_table d) = map Some us /\
    text = header_lines h num ++ tx " " ++ [ascii_of_N 10] ++ tx "Reaction:  " ++ s ++ ms ++ [ascii_of_N 10] ++
           listing (t_labels (ds_table d)) us (t_data (ds_table d)).
(** Metadata from the texts of subentry 001 and of the subentry; without a BIB section of its own it
    goes by the number of subentry 001. *)
Definition told_by (e : env) (acc num text1 text : list ascii) (h : header) (who : list ascii) : Prop :=
  exists b1, has_section "BIB" text1 b1 /\
    ((exists b, has_section "BIB" text b /\ told e [b1; b] h /\ who = num) \/
     ((~ exists b, has_section "BIB" text b) /\ told e [b1] h /\ who = acc ++ tx "001")).

(** ** The database *)

(** Subentry [num] stands in the index and the file of its entry is well-written; for -f, it stands in
    the file, which has no subentries of other entries. *)
Record available (c : codes) (table : list Sql.row) (fs : files) (file : bool) (num : str) (bs : list (list str)) : Prop := {
  avail_length : length num = 8;
  avail_plain : plain_text num;
  avail_index : file = false -> In num (map Sql.r_subent table);
  avail_well : well_file c fs (firstn 5 num) bs;
  avail_file : file = true -> In num (map block_number bs) /\ Forall (fun b => firstn 5 (block_number b) = firstn 5 num) bs }.

(** The subentries of a file with these numbers, in order, if there are not several of a number. *)
Definition listed_numbers (bs : list (list str)) (Q : str -> Prop) (nums : list str) : Prop :=
  NoDup nums /\ (forall num, In num nums <-> In num (map block_number bs) /\ Q num) /\
  (NoDup (map block_number bs) -> exists sel, (forall num, sel num = true <-> Q num) /\ nums = filter sel (map block_number bs)).
