(** Data sets as they are written: reactions under pointers, tables whose headings carry pointers.
    Refers to the types of the model, not to its functions. *)
From Coq Require Import String List Ascii NArith ZArith Bool Arith.
From Coq Require Import Floats.SpecFloat.
From Verif.Model Require Import Py PyFloat Particle Reaction Columns Grammars.
From Verif.Spec Require Import Text Exfor Tables Codes General Balance Known GeneralKnown IsomerMath Document WellWritten.
Import ListNotations.
Local Open Scope string_scope.
Local Open Scope list_scope.
Local Open Scope nat_scope.

(** ** Tables *)

(** A heading: a label, perhaps a pointer, a unit.  The pointer stands in the eleventh character of
    the cell, the label in the ten before. *)
Record phead := mkPhead { ph_label : string; ph_pointer : option ascii; ph_unit : string }.
Definition heading_cell (h : phead) (t : list ascii) : Prop :=
  match ph_pointer h with
  | None => String.length (ph_label h) <= 10 /\ t = tx (ph_label h)
  | Some p => trimmed (tx (ph_label h)) (tx (ph_label h)) /\
              exists k, String.length (ph_label h) + k = 10 /\ t = tx (ph_label h) ++ repeat " "%char k ++ [p]
  end.

(** A DATA section, as in [written_table] (Spec/Document), with headings that may carry pointers; no two
    headings with pointers are alike. *)
Definition pointed_table (section : list (list ascii)) (heads : list phead) (rows : list (list (option float))) : Prop :=
  let k := lines_per_row (length heads) in
  heads <> [] /\ Forall card section /\
  (exists l0 rest w0 w1 w2 ws, section = l0 :: rest /\ words (columns 0 33 l0) (w0 :: w1 :: w2 :: ws) /\
     number_is w1 (Z.of_nat (length heads)) /\
     exists m, number_is w2 (Z.of_nat m) /\ In m [length rows; length rows + 2; (length rows + 2) * k]) /\
  length section = 2 + (length rows + 2) * k /\
  (forall j h, nth_error heads j = Some h ->
     exists t, heading_cell h t /\ table_cell section 1 j t /\
       String.length (ph_unit h) <= 10 /\ table_cell section (1 + k) j (tx (ph_unit h))) /\
  (forall i j h h', nth_error heads i = Some h -> nth_error heads j = Some h' -> ph_pointer h <> None ->
     ph_pointer h = ph_pointer h' -> ph_label h = ph_label h' -> i = j) /\
  Forall (fun row => length row = length heads) rows /\
  (forall i row j x, nth_error rows i = Some row -> nth_error row j = Some x ->
     exists t, table_cell section (1 + (2 + i) * k) j t /\ number_text t x).

(** The columns of pointer [p]: those that carry it and those that carry none. *)
Definition belongs (p : ascii) (h : phead) : bool :=
  match ph_pointer h with None => true | Some q => Ascii.eqb q p end.
Definition own_heads (p : ascii) (heads : list phead) : list heading :=
  map (fun h => (ph_label h, ph_unit h)) (filter (belongs p) heads).
Definition own_cells (p : ascii) (heads : list phead) (row : list (option float)) : list (option float) :=
  map snd (filter (fun hx => belongs p (fst hx)) (combine heads row)).

(** A COMMON section: one row, valid for every row of DATA.  It may have columns with pointer [p], but none
    of another pointer (C46 shows what happens then). *)
Definition pointed_common (p : ascii) (text : list ascii) (heads : list heading) (row : list (option float)) : Prop :=
  (heads = [] /\ row = [] /\ no_section "COMMON" text) \/
  exists section hs, has_section "COMMON" text section /\ pointed_table section hs [row] /\
    Forall (fun h => belongs p h = true) hs /\ heads = map (fun h => (ph_label h, ph_unit h)) hs.

(** The table of a data set: the columns of both COMMON sections, then those of DATA that belong to
    the pointer. *)
Definition pointed_set (p : ascii) (h1 h2 : list heading) (r1 r2 : list (option float)) (hd : list phead) (rows : list (list (option float))) : table :=
  merged_table (h1 ++ h2 ++ own_heads p hd) (map (fun row => r1 ++ r2 ++ own_cells p hd row) rows).

(** ** Reactions *)

(** The text under pointer [p] in the (last) field REACTION of a subentry; there is none. *)
Definition stated (text : list ascii) (p : ascii) (code : list ascii) : Prop :=
  exists bib fs fld ls, has_section "BIB" text bib /\ fields bib fs /\ last_such (field_keyword (tx "REACTION")) fs fld /\
    pointer_lines fld p ls /\ pointer_text ls code.
Definition unstated (text : list ascii) (p : ascii) : Prop :=
  no_section "BIB" text \/
  exists bib fs, has_section "BIB" text bib /\ fields bib fs /\
    (Forall (fun fld => ~ field_keyword (tx "REACTION") fld) fs \/
     exists fld, last_such (field_keyword (tx "REACTION")) fs fld /\ forall ls, ~ pointer_lines fld p ls).
(** What holds for a subentry: its own, or that of subentry 001. *)
Definition stated_for (text text1 : list ascii) (p : ascii) (code : list ascii) : Prop :=
  stated text p code \/ unstated text p /\ stated text1 p code.

(** One reaction, one to several states, or several reactions; [line] is the rest of the line. *)
Inductive rxcode := One (r : gcode) | States (r : gcode) (n : nuclide) (q : list ascii) | Several (l : list ptree).
Definition code_text (c : codes) (x : rxcode) (line text : list ascii) : Prop :=
  match x with
  | One r => good_general (c_particles c) (c_compounds c) r /\ known_general r /\ in_field (general_tokens r) line text
  | States r n q => good_general (c_particles c) (c_compounds c) r /\ state_math r n q /\ in_field (general_tokens r) line text
  | Several l => exists ts, cexpr (written (c_particles c) (c_compounds c)) ts l /\ in_field (tx "(" :: ts ++ [tx ")"]) line text /\
      forall q, In (PGroup q) l -> piece_of (c_particles c) (c_compounds c) q
  end.
(** What is read of it. *)
Definition code_means (x : rxcode) (m : measurement) : Prop :=
  match x with
  | One r => exists rx T J pss rs, m = MRxn rx /\ gsays r rx T J /\
      Forall2 outgoing_objects (gc_products r) pss /\ residual_objects (gc_residual r) rs /\
      comes_out r T (concat pss ++ rs) (p_products (r_process rx)) (p_residual (r_process rx))
  | States r n q => exists data, m = MIso (EOp (tx "(") :: data ++ [EOp (tx ")")]) /\ Forall2 gsaying (states_apart r n q) data
  | Several l => exists data, m = MComb (EOp (tx "(") :: data ++ [EOp (tx ")")]) /\ Forall2 saying_states l data
  end.
(** The quantity of the reactions, if they all have the same. *)
Definition code_quantity (c : codes) (x : rxcode) (q : list (list ascii)) : Prop :=
  match x with
  | One r => q = general_quantities r
  | States r n w => q = [w]
  | Several l => (exists piece, In (PGroup piece) l) /\ (forall piece, In (PGroup piece) l -> tl piece = map PTok q) /\
      (length q = 1 \/ forall piece, In (PGroup piece) l ->
         exists r, good_general (c_particles c) (c_compounds c) r /\ known_general r /\ piece = general_tree r)
  end.
