(** Entry files that keep to the format, and what a search is to return from them. *)
From Coq Require Import String List Ascii NArith ZArith Bool Arith.
From Verif.Model Require Import Py Storage Sql Manager Field Section Entry Columns Dataset Print Pyparsing Grammars.
From Verif.Spec Require Import Text Exfor Codes Files Document WellWritten.
Import ListNotations.
Local Open Scope string_scope.
Local Open Scope list_scope.
Local Open Scope nat_scope.

(** A subentry in a file: its first line is a SUBENT line, with a number of eight characters in
    columns 15-22, and it keeps to the format. *)
Record well_block (c : codes) (b : list str) : Prop := {
  block_well : well_subentry c (concat b);
  block_line : exists l rest, lines_of (concat b) (l :: rest) /\ subent_line l /\
                 block_number b = columns 14 22 l /\ length (block_number b) = 8 }.

(** The file of entry [acc] is there, consists of the subentries [bs], all of them keep to the
    format, and one of them is subentry 001, with a BIB section. *)
Record well_file (c : codes) (fs : files) (acc : str) (bs : list (list str)) : Prop := {
  file_length : length acc = 5;
  file_blocks : exists content ls, fs (firstn 3 acc) acc = Some content /\ stored content ls /\ entry_file ls bs;
  file_well : Forall (well_block c) bs;
  file_main : exists b bib, last_such (fun x => block_number x = acc ++ tx "001") bs b /\ has_section "BIB" (concat b) bib }.

(** [n] is entry [acc] with the subentries of [bs] whose numbers satisfy [Q], no others, each as
    read from the (last) block of that number. *)
Definition entry_holding (e : env) (acc : str) (bs : list (list str)) (Q : str -> Prop) (n : entry) : Prop :=
  n_accnum n = acc /\
  forall num s, length num = 8 ->
    (entry_getitem n (EStr num) = Ok s <->
     Q num /\ exists b, last_such (fun x => block_number x = num) bs b /\ X4SubEntry e (concat b) = Ok s).
(** Its data sets can be had, are those of its subentries, and can be printed. *)
Definition entry_usable (nm : names) (acc : str) (Q : str -> Prop) (n : entry) : Prop :=
  forall errs, exists ds errs' n', getDataSets nm n errs = Ok (ds, errs', n') /\
    forall k d, dget key_eqb k ds = Some d ->
      (exists num p, k = (acc, Some num, p) /\ Q num) /\
      (exists t, dataset_str nm d = Ok t) /\ exists t, dataset_repr nm d = Ok t.
