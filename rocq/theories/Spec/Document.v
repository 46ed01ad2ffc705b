(** A whole entry as it is written, and the measurement it reports.  Refers to the types of the
    model (numbers, cells), not to its functions. *)
From Coq Require Import String List Ascii NArith ZArith Bool Arith.
From Coq Require Import Floats.SpecFloat.
From Verif.Model Require Import Py PyFloat Columns.
From Verif.Spec Require Import Text Exfor Tables DataSets Codes Balance.
Import ListNotations.
Local Open Scope string_scope.
Local Open Scope list_scope.
Local Open Scope nat_scope.

(** ** Lines, subentries, sections, fields *)

(** A text and its lines. *)
Fixpoint lines_text (lines : list (list ascii)) : list ascii :=
  match lines with
  | [] => []
  | [l] => l
  | l :: ls => l ++ ascii_of_N 10 :: lines_text ls
  end.
Definition lines_of (text : list ascii) (lines : list (list ascii)) : Prop :=
  lines <> [] /\ text = lines_text lines /\ Forall (fun l => ~ In (ascii_of_N 10) l) lines.

(** The number of a subentry stands in columns 15-22 of its first SUBENT line. *)
Definition numbered (num : list ascii) (text : list ascii) : Prop :=
  exists lines pre l post, lines_of text lines /\ lines = pre ++ l :: post /\
    Forall (fun x => ~ subent_line x) pre /\ subent_line l /\ num = columns 14 22 l.

(** The sections of a subentry. *)
Definition sections (lines : list (list ascii)) (bs : list (list (list ascii))) : Prop :=
  blocks (fun l => keyword_line "BIB" l \/ keyword_line "DATA" l \/ keyword_line "COMMON" l)
         (fun l => columns 0 3 l = tx "END") lines bs.
(** Its (last) section of this name; it has none. *)
Definition has_section (name : string) (text : list ascii) (section : list (list ascii)) : Prop :=
  exists lines bs, lines_of text lines /\ sections lines bs /\ last_such (field_keyword (tx name)) bs section.
Definition no_section (name : string) (text : list ascii) : Prop :=
  exists lines bs, lines_of text lines /\ sections lines bs /\ Forall (fun b => ~ field_keyword (tx name) b) bs.
(** Every section bears its name in columns 1-10. *)
Definition sections_named (text : list ascii) : Prop :=
  exists lines bs, lines_of text lines /\ sections lines bs /\
    Forall (fun b => exists name, In name ["BIB"; "DATA"; "COMMON"] /\ field_keyword (tx name) b) bs.

(** The fields of a BIB section. *)
Definition fields (section : list (list ascii)) (fs : list (list (list ascii))) : Prop :=
  exists first rest, fs = first :: rest /\ one_field first /\ Forall keyword_field rest /\
    omits frame_line section (concat fs).
(** Columns 12-66 of the lines, without blanks around, one blank between. *)
Fixpoint blank_separated (l : list (list ascii)) : list ascii :=
  match l with
  | [] => []
  | [x] => x
  | x :: l' => x ++ " "%char :: blank_separated l'
  end.
Definition field_text (fld : list (list ascii)) (text : list ascii) : Prop :=
  exists parts, Forall2 (fun l p => trimmed (columns 11 66 l) p) fld parts /\ text = blank_separated parts.

(** The BIB section has, in its last REACTION field, without pointers, the reaction [r]; [line]
    is the rest of its line. *)
Definition states_reaction (section : list (list ascii)) (r : rcode) (line : list ascii) : Prop :=
  exists fs fld text, fields section fs /\ last_such (field_keyword (tx "REACTION")) fs fld /\
    Forall (fun l => column11 l = " "%char) fld /\ field_text fld text /\ in_field (reaction_tokens r) line text.

(** ** Tables of numbers *)

(** A number as it is written: 12.5, 1.25E+01, 1.25+01, the exponent perhaps after blanks, or nothing. *)
Definition exponent (minus : bool) (ds : list N) : Z := if minus then - Z.of_N (value10 ds) else Z.of_N (value10 ds).
Definition decimal (sg : sign) (ip : list N) (fr : option (list N)) (e : Z) : float :=
  float_of_dec (mkDec (is_minus sg) (value10 (ip ++ frac_digits fr)) (e - Z.of_nat (length (frac_digits fr)))).
Definition sign_char (minus : bool) : ascii := if minus then "-"%char else "+"%char.
Inductive number_text : list ascii -> option float -> Prop :=
| number_none : number_text [] None
| number_plain : forall sg ip fr, good_mantissa ip fr -> number_text (mantissa_text sg ip fr) (Some (decimal sg ip fr 0))
| number_E : forall sg ip fr k minus ds, good_mantissa ip fr -> is_digits ds -> ds <> [] ->
    number_text (mantissa_text sg ip fr ++ repeat " "%char k ++ "E"%char :: sign_char minus :: digits_text ds)
                (Some (decimal sg ip fr (exponent minus ds)))
| number_sign : forall sg ip fr k minus ds, good_mantissa ip fr -> is_digits ds -> length ds = 1 \/ length ds = 2 ->
    number_text (mantissa_text sg ip fr ++ repeat " "%char k ++ sign_char minus :: digits_text ds)
                (Some (decimal sg ip fr (exponent minus ds))).

(** A DATA or COMMON section: on its first line the numbers of columns and of rows (or of rows with
    headings and units, or of the lines of all these), then headings, units and rows, in columns eleven characters wide, six on a line.  Headings of at most ten
    characters have no pointer. *)
Definition heading := (string * string)%type.
Definition written_as {A} (reads : list ascii -> A -> Prop) (section : list (list ascii)) (heads : list heading) (rows : list (list A)) : Prop :=
  let k := lines_per_row (length heads) in
  heads <> [] /\ Forall card section /\
  (exists l0 rest w0 w1 w2 ws, section = l0 :: rest /\ words (columns 0 33 l0) (w0 :: w1 :: w2 :: ws) /\
     number_is w1 (Z.of_nat (length heads)) /\
     exists m, number_is w2 (Z.of_nat m) /\ In m [length rows; length rows + 2; (length rows + 2) * k]) /\
  length section = 2 + (length rows + 2) * k /\
  (forall j l u, nth_error heads j = Some (l, u) ->
     String.length l <= 10 /\ String.length u <= 10 /\ table_cell section 1 j (tx l) /\ table_cell section (1 + k) j (tx u)) /\
  Forall (fun row => length row = length heads) rows /\
  (forall i row j x, nth_error rows i = Some row -> nth_error row j = Some x ->
     exists t, table_cell section (1 + (2 + i) * k) j t /\ reads t x).
Definition written_table : list (list ascii) -> list heading -> list (list (option float)) -> Prop := written_as number_text.

(** A COMMON section: headings and one row, valid for every row of DATA. *)
Definition common_as {A} (reads : list ascii -> A -> Prop) (text : list ascii) (heads : list heading) (row : list A) : Prop :=
  (heads = [] /\ row = [] /\ no_section "COMMON" text) \/
  exists section, has_section "COMMON" text section /\ written_as reads section heads [row].
Definition common_table : list ascii -> list heading -> list (option float) -> Prop := common_as number_text.

(** All columns: those of the COMMON sections, with their values on every row, then those of DATA. *)
Definition merged_table (heads : list heading) (rows : list (list (option float))) : table :=
  mkTable (map (fun h => tx (fst h)) heads) (map (fun h => Some (tx (snd h))) heads) (map (map as_cell) rows).

(** ** Cross sections *)

(** Headings that mean something for the energy and the value of a cross section. *)
Definition reserved : list string :=
  ["EN"; "EN-DUMMY"; "EN-ASSUM"; "EN-MEAN"; "EN-APRX"; "EN-ERR"; "EN-RES"; "EN-RSL"; "EN-RSL-FW"; "EN-RSL-HW"; "EN-MIN"; "EN-MAX";
   "-EN-ERR"; "+EN-ERR"; "MOM";
   "DATA"; "DATA-DUMMY"; "DATA-ASSUM"; "DATA-MEAN"; "DATA-APRX"; "DATA-CM"; "DATA-ERR"; "DATA-MIN"; "DATA-MAX"; "-DATA-ERR"; "+DATA-ERR";
   "RATIO"; "RATIO-DUMMY"; "RATIO-ASSUM"; "RATIO-MEAN"; "RATIO-APRX"; "RATIO-CM"; "RATIO-ERR"; "RATIO-MIN"; "RATIO-MAX";
   "-RATIO-ERR"; "+RATIO-ERR"; "ERR-T"; "ERR"; "ERR-S"].

(** How the uncertainty of the cross section is given: not at all, in column [c] in a unit worth
    (m, x) barns, in column [c] in percent. *)
Inductive uncertainty := NotGiven | Absolute (c : nat) (m : N) (x : Z) | Percent (c : nat).
Definition error_column (w : uncertainty) : option nat :=
  match w with NotGiven => None | Absolute c _ _ | Percent c => Some c end.

(** Column [a] holds the energy in a unit worth [f] MeV, column [b] the cross section in a unit
    worth [g] barns, and the uncertainty is given as [w] says. *)
Record cross_section_columns (heads : list heading) (a : nat) (f : N * Z) (b : nat) (g : N * Z) (w : uncertainty) : Prop := {
  csc_energy : exists u, nth_error heads a = Some ("EN", u) /\ In (u, "MeV", f) unit_table;
  csc_value : exists u, nth_error heads b = Some ("DATA", u) /\ In (u, "barns", g) unit_table;
  csc_error : match w with
              | NotGiven => True
              | Absolute c m x => exists u, nth_error heads c = Some ("DATA-ERR", u) /\ In (u, "barns", (m, x)) unit_table
              | Percent c => nth_error heads c = Some ("DATA-ERR", "PER-CENT")
              end;
  csc_others : forall j l u, nth_error heads j = Some (l, u) -> In l reserved -> j = a \/ j = b \/ Some j = error_column w }.

(** A number in a unit worth [f], in the canonical unit. *)
Definition in_unit (f : N * Z) (x : option float) : option float :=
  option_map (fun x => fadd (fmul (fmul x (fl (fst f) (snd f))) (fl 1 0)) (S754_zero false)) x.
(** The cell of a row. *)
Definition at_column (row : list (option float)) (j : nat) : option float :=
  match nth_error row j with Some x => x | None => None end.
Definition energy_of (a : nat) (f : N * Z) (row : list (option float)) : option float := in_unit f (at_column row a).
Definition uncertainty_of (b : nat) (g : N * Z) (w : uncertainty) (row : list (option float)) : option float :=
  match w with
  | NotGiven => None
  | Absolute c m x => magnitude (in_unit (m, x) (at_column row c))
  | Percent c => magnitude (percent (in_unit g (at_column row b)) (in_unit (1%N, 0%Z) (at_column row c)))
  end.

(** The table of the simplified data set: energies and cross sections, and uncertainties if there
    are any. *)
Definition simplified_table (rows : list (list (option float))) (a : nat) (f : N * Z) (b : nat) (g : N * Z) (w : uncertainty) : table :=
  let given := existsb (fun row => match uncertainty_of b g w row with Some _ => true | None => false end) rows in
  mkTable (map tx (["Energy"; "Data"] ++ if given then ["d(Data)"] else []))
          (map (fun u => Some (tx u)) (["MeV"; "barns"] ++ if given then ["barns"] else []))
          (map (fun row => map as_cell ([energy_of a f row; in_unit g (at_column row b)] ++
                                        if given then [uncertainty_of b g w row] else [])) rows).
