(** Entries as they are to be written: every section and every field keeps to the format.  Refers
    to the model only for the types of dictionaries and numbers. *)
From Coq Require Import String List Ascii NArith ZArith Bool Arith.
From Coq Require Import Floats.SpecFloat.
From Verif.Model Require Import Py PyFloat Dicts Particle Field Columns Grammars.
From Verif.Spec Require Import Text Exfor Tables Codes General Balance Known GeneralKnown IsomerMath Names References Document DataSets.
Import ListNotations.
Local Open Scope string_scope.
Local Open Scope list_scope.
Local Open Scope nat_scope.

(** ** Tables *)

(** A DATA or COMMON section: on its first line the number of columns and the number of rows (or of
    rows with headings and units, or of the lines of all these); headings and units may be
    anything, below them are numbers. *)
Definition numeric_table (section : list (list ascii)) : Prop :=
  exists cols rows, let k := lines_per_row cols in
    0 < cols /\ Forall card section /\
    (exists l0 rest w0 w1 w2 ws, section = l0 :: rest /\ words (columns 0 33 l0) (w0 :: w1 :: w2 :: ws) /\
       number_is w1 (Z.of_nat cols) /\ exists m, number_is w2 (Z.of_nat m) /\ In m [rows; rows + 2; (rows + 2) * k]) /\
    length section = 2 + (rows + 2) * k /\
    (forall i j, i < rows -> j < cols -> exists t x, table_cell section (1 + (2 + i) * k) j t /\ number_text t x).

(** ** Fields *)

(** The lines of a field that belong to pointer [p]: columns 12-66, without blanks at the end. *)
Definition pointer_lines (fld : list (list ascii)) (p : ascii) (ls : list (list ascii)) : Prop :=
  exists texts, Forall2 right_trimmed (map (columns 11 66) fld) texts /\ ls = marked p (marks " " fld) texts /\ ls <> [].
(** Their text: without blanks around the lines, one blank between. *)
Definition pointer_text (ls : list (list ascii)) (text : list ascii) : Prop :=
  exists parts, Forall2 trimmed ls parts /\ text = blank_separated parts.

(** A reaction, a reaction to several states of the residual nucleus, or a combination of such reactions in
    parentheses, of known codes. *)
Definition one_reaction (c : codes) (text : list ascii) : Prop :=
  exists r line, good_general (c_particles c) (c_compounds c) r /\ known_general r /\ in_field (general_tokens r) line text.
Definition to_states (c : codes) (text : list ascii) : Prop :=
  exists r n q line, good_general (c_particles c) (c_compounds c) r /\ state_math r n q /\ in_field (general_tokens r) line text.
Definition several_reactions (c : codes) (text : list ascii) : Prop :=
  exists ts l line, cexpr (written (c_particles c) (c_compounds c)) ts l /\ in_field (tx "(" :: ts ++ [tx ")"]) line text /\
    forall q, In (PGroup q) l -> piece_of (c_particles c) (c_compounds c) q.
Definition reaction_code (c : codes) (text : list ascii) : Prop := one_reaction c text \/ to_states c text \/ several_reactions c text.

Definition written_reactions (c : codes) (fld : list (list ascii)) : Prop :=
  forall p ls text, pointer_lines fld p ls -> pointer_text ls text -> reaction_code c text.

(** A monitor: a reaction, a reaction after a heading (MONITn), or a remark. *)
Inductive monitor_text (c : codes) : list ascii -> Prop :=
| mt_reaction : forall rest, ~ mentions ("("%char :: rest) (tx "((MONIT") -> reaction_code c ("("%char :: rest) ->
    monitor_text c ("("%char :: rest)
| mt_heading : forall n rest, ~ In ")"%char n -> ~ mentions (n ++ ")"%char :: rest) (tx "((MONIT") ->
    reaction_code c ("("%char :: rest) -> monitor_text c (tx "((MONIT" ++ n ++ ")"%char :: rest)
| mt_remark : forall text, ~ mentions text (tx "((MONIT") -> (forall rest, text <> "("%char :: rest) -> monitor_text c text.
(** Remarks before the first of them. *)
Inductive remark_item : list (list ascii) -> list ascii -> Prop :=
| remark_first : forall line core lines text, trimmed line core -> ~ opens line -> remarks lines text ->
    remark_item (line :: lines) (core ++ text).
Definition written_monitors (c : codes) (fld : list (list ascii)) : Prop :=
  forall p ls, pointer_lines fld p ls -> exists before remark groups texts,
    ls = concat (before ++ groups) /\ Forall2 remark_item before remark /\ length before <= 1 /\
    Forall2 monitor_item groups texts /\ Forall (monitor_text c) (remark ++ texts).

Definition written_authors (fld : list (list ascii)) : Prop :=
  author_missing fld \/
  forall p ls parts, pointer_lines fld p ls -> Forall2 trimmed ls parts -> exists names, author_list names (concat parts).

Definition written_institutes (fld : list (list ascii)) : Prop :=
  forall p ls text, pointer_lines fld p ls -> pointer_text ls text ->
    exists is, is <> [] /\ institutes_text is text /\ no_tabs text.

(** References; the first one is a publication. *)
Definition reference_lines (ls : list (list ascii)) (rs : list ref) : Prop :=
  pointer_refs rs ls /\ Forall (fun r => In (rt_type r) (publication_types ++ numbered_types)) rs.
Definition written_references (fld : list (list ascii)) : Prop :=
  Forall (fun l => ~ In (ascii_of_N 10) l) fld /\
  (forall p ls, pointer_lines fld p ls -> exists rs, reference_lines ls rs) /\
  (forall p ps ls, marks " " fld = p :: ps -> pointer_lines fld p ls ->
     exists r rs, reference_lines ls (r :: rs) /\ In (rt_type r) publication_types).

(** A field keeps to the format of its keyword, if there is one. *)
Record well_field (c : codes) (fld : list (list ascii)) : Prop := {
  well_reaction : field_keyword (tx "REACTION") fld -> written_reactions c fld;
  well_monitor : field_keyword (tx "MONITOR") fld -> written_monitors c fld;
  well_reference : field_keyword (tx "REFERENCE") fld -> written_references fld;
  well_author : field_keyword (tx "AUTHOR") fld -> written_authors fld;
  well_institute : field_keyword (tx "INSTITUTE") fld -> written_institutes fld }.

(** ** Sections, subentries, entries *)

Definition well_bib (c : codes) (section : list (list ascii)) : Prop := exists fs, fields section fs /\ Forall (well_field c) fs.
Definition well_section (c : codes) (section : list (list ascii)) : Prop :=
  field_keyword (tx "BIB") section /\ well_bib c section \/
  (field_keyword (tx "DATA") section \/ field_keyword (tx "COMMON") section) /\ numeric_table section.
Definition well_subentry (c : codes) (text : list ascii) : Prop :=
  (exists num, numbered num text) /\
  exists lines bs, lines_of text lines /\ sections lines bs /\ Forall (well_section c) bs.

(** An entry of accession number [acc]: the first line of its first subentry is a SUBENT line with
    that number in columns 15-19, and a subentry 001 has a BIB section. *)
Record well_entry (c : codes) (acc : list ascii) (raw : list (list ascii)) : Prop := {
  well_first : exists text rest l ls, raw = text :: rest /\ lines_of text (l :: ls) /\ subent_line l /\
                 acc = columns 14 19 l /\ length acc = 5;
  well_subs : Forall (well_subentry c) raw;
  well_main : exists text bib, last_such (numbered (acc ++ tx "001")) raw text /\ has_section "BIB" text bib }.

(** The dictionaries that are looked up: every row has the columns that are used. *)
Definition rows_filled (d : x4dict) : Prop := forall k row, dget str_eqb k d = Some row -> row <> [].
Record well_dictionaries (c : codes) (e : env) : Prop := {
  well_particles : Forall particle_key (c_particles c);
  well_compounds : Forall compound_key (c_compounds c);
  well_grammars : e_g e = x4grammars c;
  well_named : has_names (c_compounds c) (e_compounds e);
  well_institutes : rows_filled (e_institutes e);
  well_rows : rows_ok (e_dicts e);
  well_depth : 0 < e_depth e }.

(** ** Entries whose data sets can be simplified *)

(** Heading and unit of column [j] of a table. *)
Definition table_heading (section : list (list ascii)) (j : nat) (heading unit : list ascii) : Prop :=
  exists cols l0 rest w0 w1 ws, section = l0 :: rest /\ words (columns 0 33 l0) (w0 :: w1 :: ws) /\ number_is w1 (Z.of_nat cols) /\
    j < cols /\ table_cell section 1 j heading /\ table_cell section (1 + lines_per_row cols) j unit.
(** The text in column [j] of row [i] of the numbers. *)
Definition table_entry (section : list (list ascii)) (i j : nat) (t : list ascii) : Prop :=
  exists cols l0 rest w0 w1 ws, section = l0 :: rest /\ words (columns 0 33 l0) (w0 :: w1 :: ws) /\ number_is w1 (Z.of_nat cols) /\
    j < cols /\ 1 + (3 + i) * lines_per_row cols < length section /\ table_cell section (1 + (2 + i) * lines_per_row cols) j t.
(** Cosines are such (and 0 is one, for zeros stand where COMMON has no number); no barns times the
    root of an energy, no pointers in COMMON. *)
Record simple_headings (acos : float -> option float) (section : list (list ascii)) : Prop := {
  cosine_zero : forall j h u, table_heading section j h u -> mentions h (tx "COS") -> has_angle acos (S754_zero false);
  cosine_entry : forall i j h u t x, table_heading section j h u -> mentions h (tx "COS") ->
    table_entry section i j t -> number_text t (Some x) -> has_angle acos x;
  no_roots : forall j t u, table_heading section j t u -> ~ mentions u (tx "B*RT-EV");
  no_pointers : field_keyword (tx "COMMON") section -> forall j t u, table_heading section j t u -> length t < 11 }.
Definition simple_subentry (acos : float -> option float) (text : list ascii) : Prop :=
  exists lines bs, lines_of text lines /\ sections lines bs /\ Forall (fun b => ~ field_keyword (tx "BIB") b -> simple_headings acos b) bs.
