(** What is to come out of an entry for a subentry that is written in full: its reaction and its
    numbers.  Refers to the types of the model, not to its functions. *)
From Coq Require Import String List Ascii NArith ZArith Bool Arith.
From Coq Require Import Floats.SpecFloat.
From Verif.Model Require Import Py PyFloat Storage Manager Particle Reaction Section Entry Columns Dataset Grammars.
From Verif.Spec Require Import Text Exfor Tables DataSets Merging Codes General Known GeneralKnown Files Document WellWritten Pointed.
From Verif.Spec Require Readings.
Import ListNotations.
Local Open Scope string_scope.
Local Open Scope list_scope.
Local Open Scope nat_scope.

(** Under pointer [p], the subentry with text [text] gives the reaction [x] (with [line] after it), of
    kind [k], and the table [t]; [text1] is subentry 001. *)
Definition data_written (c : codes) (text text1 : list ascii) (p : ascii) (x : rxcode) (line : list ascii) (k : ds_class) (t : table) : Prop :=
  (exists code q, stated_for text text1 p code /\ code_text c x line code /\ code_quantity c x q /\ kind (map PTok q) k) /\
  exists data h1 h2 r1 r2 hd rows, pointed_common p text1 h1 r1 /\ pointed_common p text h2 r2 /\
    has_section "DATA" text data /\ pointed_table data hd rows /\ t = pointed_set p h1 h2 r1 r2 hd rows.

(** A data set of this reaction. *)
Definition of_reaction (x : rxcode) (line : list ascii) (k : ds_class) (d : dataset) : Prop :=
  exists m, ds_reaction d = Some (m, PTok line) /\ code_means x m /\ ds_class_of d = k /\ (ds_coupled d = false <-> exists r, x = One r).

(** The numbers of a simplified data set: those that are read from the table [t] for the quantities of
    the kind [k]; or [t], if there is nothing to read or nothing in it, which is recorded as [err]. *)
Definition numbers_read (acos : float -> option float) (mk : bool) (k : ds_class) (t : table) (d : dataset) (err : option exn) : Prop :=
  let qs := Readings.quantities k in
  (wanted_columns k = [] -> ds_simplified d = false /\ ds_table d = t) /\
  (wanted_columns k <> [] -> forallb (Readings.has_values acos t) qs = true ->
     ds_simplified d = true /\ ds_table d = Readings.read_table acos mk qs t) /\
  (wanted_columns k <> [] -> forallb (Readings.has_values acos t) qs = false ->
     ds_simplified d = false /\ ds_table d = t /\ err = Some NoValuesGivenError).

(** The same for subentry [num] of the entry [acc], other than 001, whose blocks of lines are [bs]. *)
Definition block_written (c : codes) (acc : str) (bs : list (list str)) (num : str) (p : ascii) (x : rxcode) (line : list ascii) (k : ds_class) (t : table) : Prop :=
  num <> acc ++ tx "001" /\
  exists b b1, last_such (fun y => block_number y = num) bs b /\ last_such (fun y => block_number y = acc ++ tx "001") bs b1 /\
    data_written c (concat b) (concat b1) p x line k t.

(** The data sets of entry [n] are of the subentries that satisfy [Q]; what is written in full there
    is among them, as it is written. *)
Definition entry_gives (c : codes) (nm : names) (acc : str) (bs : list (list str)) (Q : str -> Prop) (n : entry) : Prop :=
  forall errs, exists ds errs' n', getDataSets nm n errs = Ok (ds, errs', n') /\
    (forall key d, dget key_eqb key ds = Some d -> exists num p, key = (acc, Some num, p) /\ Q num) /\
    forall num p x line k t, Q num -> block_written c acc bs num p x line k t ->
      exists d, dget key_eqb (acc, Some num, p) ds = Some d /\ of_reaction x line k d /\ ds_simplified d = false /\ ds_table d = t.
(** The simplified ones. *)
Definition entry_gives_simplified (c : codes) (nm : names) (acos : float -> option float) (mk : bool) (acc : str) (bs : list (list str)) (Q : str -> Prop) (n : entry) : Prop :=
  forall errs s, exists ds errs' n' s', getSimplifiedDataSets nm acos mk n errs s = Ok (ds, errs', n', s') /\
    (forall key d, dget key_eqb key ds = Some d -> exists num p, key = (acc, Some num, p) /\ Q num) /\
    forall num p x line k t, Q num -> block_written c acc bs num p x line k t ->
      exists d, dget key_eqb (acc, Some num, p) ds = Some d /\ of_reaction x line k d /\
        numbers_read acos mk k t d (dget key_eqb (acc, Some num, p) errs').
