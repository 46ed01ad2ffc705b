(** Data sets: what their classes promise.  Refers to the types of the model, not to its functions. *)
From Coq Require Import String List Ascii NArith ZArith Bool.
From Coq Require Import Floats.SpecFloat.
From Verif.Model Require Import Py PyFloat Columns Dataset.
From Verif.Spec Require Import Tables.
Import ListNotations.
Local Open Scope string_scope.
Local Open Scope list_scope.

(** The columns a simplified data set of each class has. *)
Definition wanted_columns (c : ds_class) : list string :=
  match c with
  | CrossSection | Nubar | SpectrumAve => ["Energy"; "Data"]
  | AngularDist => ["Energy"; "Angle"; "Data"]
  | EnergyDist => ["Energy"; "E'"; "Data"]
  | DataSet | AnalyzingPower | ResonanceInt | EnergyAngle => []
  end.
Definition uncertainty_label (name : list ascii) : list ascii := list_ascii_of_string "d(" ++ name ++ [")"%char].

(** Cell [i] of a column; nothing beyond its end. *)
Definition at_row {A} (i : nat) (l : list (option A)) : option A :=
  match nth_error l i with Some x => x | None => None end.

(** Every column has a label and a unit, every row a cell for every column. *)
Definition table_ok (d : table) : Prop := rectangular (t_labels d) (t_units d) (t_data d).
(** Column [j] suits a column parser. *)
Definition suits (c : colparser) (d : table) (j : nat) : Prop :=
  column_fits (t_labels d) (t_units d) (cp_labels c) (cp_units c) j.

Definition mentions_cos (label : list ascii) : Prop := exists a b, label = a ++ list_ascii_of_string "COS" ++ b.
(** The parser does not take the inverse cosine of this column. *)
Definition no_cosine (c : colparser) (d : table) (j : nat) : Prop :=
  cp_angle c = false \/ forall l, nth_error (t_labels d) j = Some l -> ~ mentions_cos l.

(** What is kept of the cell of a table. *)
Definition number (c : dcell) : option float :=
  match c with VNone => None | VFloat x => Some x | VZero => Some (S754_zero false) end.
(** A number as a cell. *)
Definition as_cell (x : option float) : dcell := match x with Some x => VFloat x | None => VNone end.

(** [p] percent of [v], both known. *)
Definition percent (v p : option float) : option float :=
  match v, p with
  | Some v, Some p => Some (fdiv (fmul v p) (fl 100 0))
  | _, _ => None
  end.
(** Two uncertainties, each possibly missing, added in quadrature. *)
Definition quadrature (a b : option float) : option float :=
  match a, b with
  | None, None => None
  | _, _ => let x := match a with Some x => x | None => S754_zero false end in
            let y := match b with Some y => y | None => S754_zero false end in
            Some (fsqrt (fadd (fmul x x) (fmul y y)))
  end.
(** A cell as a parser with this scale and offset converts it from a unit worth [f]. *)
Definition converted (c : colparser) (f : float) (x : option float) : option float :=
  option_map (fun x => fadd (fmul (fmul x f) (cp_scale c)) (cp_offset c)) x.
Definition magnitude (x : option float) : option float := option_map fabs x.
Definition PERCENT : list ascii := list_ascii_of_string "PER-CENT".

(** A data column in barns times the square root of the energy. *)
Definition barns_root_energy (d : table) : Prop :=
  exists j, column_fits (t_labels d) (t_units d) (Some [list_ascii_of_string "DATA"])
              (Some [list_ascii_of_string "B*RT-EV"; list_ascii_of_string "MB*RT-EV"]) j.

(** A good table without cosines. *)
Definition plain_table (d : table) : Prop := table_ok d /\ (forall l, In l (t_labels d) -> ~ mentions_cos l).
(** A number between -1 and 1. *)
Definition cosine (x : float) : Prop := SFleb (SFopp (fl 1 0)) x = true /\ SFleb x (fl 1 0) = true.
(** There is an inverse cosine of [x], and of its half (full widths count half). *)
Definition has_angle (acos : float -> option float) (x : float) : Prop :=
  acos (fadd (fmul x (fl 1 0)) (S754_zero false)) <> None /\ acos (fadd (fmul x (fl 5 (-1))) (S754_zero false)) <> None.
(** So it is for all numbers in columns of cosines. *)
Definition cosines_defined (acos : float -> option float) (d : table) : Prop :=
  forall j l row c x, nth_error (t_labels d) j = Some l -> mentions_cos l ->
    In row (t_data d) -> nth_error row j = Some c -> number c = Some x -> has_angle acos x.
