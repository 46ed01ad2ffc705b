(** Writing tables with csv.writer: exfor_dataset.py:279-288 and exfor_section.py:311-320.  No
    proofs here.

    [csv.writer(f, lineterminator='\n')] of the standard library is modelled: the excel dialect
    with QUOTE_MINIMAL.  The text is what is written to the file before it is encoded as UTF-8.
    The second branch (except TypeError) is for Python 2. *)
From Coq Require Import String List Ascii NArith ZArith Bool Arith.
From Verif.Model Require Import Py PyFloat Section Columns.
Import ListNotations.
Local Open Scope list_scope.

(** What the rows consist of. *)
Inductive csv_value := CText (s : str) | CNone | CFloat (x : float) | CZero.

Definition quote_c : ascii := ch 34.
Definition comma_c : ascii := ",".

(** The text of a value: [repr] of a float is a function of the standard library that is left open. *)
Definition csv_text (repr : float -> str) (v : csv_value) : str :=
  match v with CText s => s | CNone => [] | CFloat x => repr x | CZero => ["0"%char] end.

(** QUOTE_MINIMAL *)
Definition needs_quotes (s : str) : bool :=
  existsb (fun c => Ascii.eqb c comma_c || Ascii.eqb c quote_c || Ascii.eqb c nl) s.
Definition quoted (s : str) : str :=
  quote_c :: flat_map (fun c => if Ascii.eqb c quote_c then [c; c] else [c]) s ++ [quote_c].
(** [single]: the field is alone in its row *)
Definition csv_field (single : bool) (s : str) : str :=
  if needs_quotes s || (single && match s with [] => true | _ => false end) then quoted s else s.
Definition csv_row (fields : list str) : str :=
  join [comma_c] (map (csv_field (Nat.eqb (length fields) 1)) fields) ++ [nl].
Definition writerows (repr : float -> str) (rows : list (list csv_value)) : str :=
  concat (map (fun row => csv_row (map (csv_text repr) row)) rows).

(** exfor_dataset.py:279-288 *)
Definition of_dcell (c : dcell) : csv_value := match c with VNone => CNone | VFloat x => CFloat x | VZero => CZero end.
Definition of_text (u : option str) : csv_value := match u with Some s => CText s | None => CNone end.
Definition dataset_csv (repr : float -> str) (t : table) : str :=
  writerows repr (map CText (t_labels t) :: map of_text (t_units t) :: map (map of_dcell) (t_data t)).

(** exfor_section.py:311-320 *)
Definition of_number (x : option float) : csv_value := match x with Some x => CFloat x | None => CNone end.
Definition section_csv (repr : float -> str) (d : data_section) : str :=
  writerows repr (map CText (d_labels d) :: map CText (d_units d) :: map (map of_number) (d_data d)).
