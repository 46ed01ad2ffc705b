(** Which columns of a data set give the energies, angles, data and uncertainties of its simplified
    form.  Refers to the type of tables and to the arithmetic of doubles only. *)
From Coq Require Import String List Ascii NArith ZArith Bool Arith.
From Coq Require Import Floats.SpecFloat.
From Verif.Model Require Import Py PyFloat Columns Dataset.
From Verif.Spec Require Import Tables DataSets.
Import ListNotations.
Local Open Scope string_scope.
Local Open Scope list_scope.
Local Open Scope nat_scope.

Definition tx : string -> list ascii := list_ascii_of_string.
Definition same_text (a b : list ascii) : bool := if list_eq_dec ascii_dec a b then true else false.
Definition named (names : list string) (s : list ascii) : bool := existsb (fun n => same_text s (tx n)) names.

(** What a unit is worth in canonical units, and which. *)
Definition worth (u : list ascii) : float * list ascii :=
  match find (fun e => same_text u (tx (fst (fst e)))) unit_table with
  | Some (_, c, (m, x)) => (fl m x, tx c)
  | None => if named ["RAD"; "SR"] u then (fdiv (fl 180 0) (S754_finite false 7074237752028440 (-51)), tx "degrees")
            else if named ["K"] u then (fl 8621738 (-17), tx "MeV")
            else (fl 1 0, u)
  end.
(** The units worth a canonical unit. *)
Definition units_in (canonical : string) : list string :=
  map (fun e => fst (fst e)) (filter (fun e => String.eqb (snd (fst e)) canonical) unit_table).

(** A column one may look for: its headings and units; full widths count half. *)
Record sought := mkSought { so_heads : list string; so_units : list string; so_half : bool }.
Definition col (heads units : list string) : sought := mkSought heads units false.
Definition width (heads units : list string) : sought := mkSought heads units true.

(** Where it is: the first column with such a heading and such a unit. *)
Definition suits_at (w : sought) (t : table) (j : nat) : bool :=
  match nth_error (t_labels t) j, nth_error (t_units t) j with
  | Some l, Some (Some u) => named (so_heads w) l && named (so_units w) u
  | _, _ => false
  end.
Definition place (w : sought) (t : table) : option nat := find (suits_at w t) (seq 0 (length (t_labels t))).
Definition there (w : sought) (t : table) : bool := match place w t with Some _ => true | None => false end.
(** Its unit as written. *)
Definition written_unit (w : sought) (t : table) : option (list ascii) :=
  match place w t with
  | Some j => match nth_error (t_units t) j with Some u => u | None => None end
  | None => None
  end.
(** Headings derived from a name. *)
Definition plainly (k : string) : list string :=
  [k; (k ++ "-DUMMY")%string; (k ++ "-ASSUM")%string; (k ++ "-MEAN")%string; (k ++ "-APRX")%string].
Definition full_widths (k : string) : list string := [(k ++ "-RES")%string; (k ++ "-RSL")%string; (k ++ "-RSL-FW")%string].
(** Columns of cosines are turned into angles, in degrees whatever their unit. *)
Definition cosine_heads : list string := "COS-CM" :: "COS-ERR" :: "COS-RSL-HW" :: plainly "COS" ++ full_widths "COS".
Definition cosines (w : sought) (t : table) : bool :=
  match place w t with
  | Some j => match nth_error (t_labels t) j with Some l => named cosine_heads l | None => false end
  | None => false
  end.
Definition unit_of (w : sought) (t : table) : option (list ascii) :=
  if cosines w t then Some (tx "degrees") else option_map (fun u => snd (worth u)) (written_unit w t).
Definition in_percent (w : sought) (t : table) : bool :=
  negb (cosines w t) && match written_unit w t with Some u => same_text u PERCENT | None => false end.

Section Acos.
Variable acos : float -> option float.  (* the inverse cosine, in radians *)

(** Its number in row [i], in canonical units. *)
Definition cell (w : sought) (t : table) (i : nat) : option float :=
  match place w t, written_unit w t, nth_error (t_data t) i with
  | Some j, Some u, Some row =>
      match nth_error row j with
      | Some c =>
          match number c with
          | Some x =>
              let share := if so_half w then fl 5 (-1) else fl 1 0 in
              if cosines w t then option_map (fun angle => fmul angle (fst (worth (tx "RAD")))) (acos (fadd (fmul x share) (S754_zero false)))
              else Some (fadd (fmul (fmul x (fst (worth u))) share) (S754_zero false))
          | None => None
          end
      | None => None
      end
  | _, _, _ => None
  end.

(** The ways of reading a quantity. *)
Inductive reading :=
| Alone (v : sought)                      (* a column of values *)
| WithError (v e : sought)                (* values and their uncertainties *)
| Limits (lo hi : sought)                 (* least and greatest values *)
| Asymmetric (v minus plus : sought)      (* values and their uncertainties down and up *)
| TwoErrors (v e1 e2 : sought).           (* values and two uncertainties to be added in quadrature *)

(** When there are columns for it. *)
Definition applies (r : reading) (t : table) : bool :=
  match r with
  | Alone v => there v t
  | WithError v e => there v t && there e t
  | Limits lo hi => there lo t || there hi t
  | Asymmetric v a b | TwoErrors v a b => there v t && (there a t || there b t)
  end.

Definition half_of (x : float) : float := fmul (fl 5 (-1)) x.
Definition either {A} (x y : option A) : option A := match x with Some _ => x | None => y end.

Definition value (r : reading) (t : table) (i : nat) : option float :=
  if applies r t then
    match r with
    | Alone v | WithError v _ | TwoErrors v _ _ => cell v t i
    | Limits lo hi =>
        match cell lo t i, cell hi t i with
        | Some a, Some b => Some (half_of (fadd a b))
        | None, Some b => Some (half_of b)
        | _, None => None
        end
    | Asymmetric v a b =>
        match cell v t i, cell a t i, cell b t i with
        | Some v, Some a, Some b => Some (half_of (fadd (fsub v a) (fadd v b)))
        | _, _, _ => None
        end
    end
  else None.
Definition value_unit (r : reading) (t : table) : option (list ascii) :=
  if applies r t then
    match r with
    | Alone v | WithError v _ | TwoErrors v _ _ => unit_of v t
    | Limits lo hi => either (unit_of hi t) (unit_of lo t)
    | Asymmetric v a b => either (unit_of b t) (either (unit_of a t) (unit_of v t))
    end
  else None.

Definition uncertainty (r : reading) (t : table) (i : nat) : option float :=
  if applies r t then
    magnitude
      match r with
      | Alone _ => None
      | WithError v e => if in_percent e t then percent (cell v t i) (cell e t i) else cell e t i
      | Limits lo hi =>
          match cell lo t i, cell hi t i with
          | Some a, Some b => Some (half_of (fabs (fsub a b)))
          | _, _ => None
          end
      | Asymmetric v a b =>
          match cell v t i, cell a t i, cell b t i with
          | Some v, Some a, Some b => Some (half_of (fsub (fsub v a) (fadd v b)))
          | _, _, _ => None
          end
      | TwoErrors v a b =>
          if in_percent a t || in_percent b t
          then quadrature (percent (cell v t i) (cell a t i)) (percent (cell v t i) (cell b t i))
          else quadrature (cell a t i) (cell b t i)
      end
  else None.
Definition uncertainty_unit (r : reading) (t : table) : option (list ascii) :=
  if applies r t then
    match r with
    | Alone _ => None
    | WithError v e => if in_percent e t then unit_of v t else unit_of e t
    | Limits lo hi => either (unit_of hi t) (unit_of lo t)
    | Asymmetric v a b => either (unit_of b t) (either (unit_of a t) (unit_of v t))
    | TwoErrors v a b =>
        if in_percent a t || in_percent b t then unit_of v t else either (unit_of b t) (unit_of a t)
    end
  else None.

(** A quantity is what the first reading that gives a number says. *)
Definition quantity (rs : list reading) (t : table) (i : nat) : option float := first_some (map (fun r => value r t i) rs).
Definition quantity_unit (rs : list reading) (t : table) : option (list ascii) := first_some (map (fun r => value_unit r t) rs).
Definition deviation (rs : list reading) (t : table) (i : nat) : option float := first_some (map (fun r => uncertainty r t i) rs).
Definition deviation_unit (rs : list reading) (t : table) : option (list ascii) := first_some (map (fun r => uncertainty_unit r t) rs).

(** * The readings of each quantity *)

Definition KELVIN : list string := ["K"].
Definition energy_units : list string := units_in "MeV" ++ KELVIN.
Definition no_units : list string := units_in "no-dim".
Definition percent_units : list string := ["PER-CENT"].

(** Energies: EN for the projectile, E for the outgoing particle. *)
Definition energies (k : string) : list reading :=
  [WithError (col (plainly k) energy_units) (col [(k ++ "-ERR")%string] (energy_units ++ percent_units));
   WithError (col (plainly k) energy_units) (width (full_widths k) (energy_units ++ percent_units));
   WithError (col (plainly k) energy_units) (col [(k ++ "-RSL-HW")%string] (energy_units ++ percent_units));
   Limits (col [(k ++ "-MIN")%string] energy_units) (col [(k ++ "-MAX")%string] energy_units);
   Asymmetric (col [k; "MOM"] energy_units) (col [("-" ++ k ++ "-ERR")%string] energy_units) (col [("+" ++ k ++ "-ERR")%string] energy_units);
   Alone (col ("MOM" :: plainly k) (energy_units ++ units_in "GeV/c"))].
(** Temperatures of a spectrum *)
Definition temperatures : list reading :=
  [WithError (col ("KT-K" :: plainly "KT") energy_units) (col ["KT-ERR"] (energy_units ++ percent_units));
   WithError (col (plainly "KT") energy_units) (width (full_widths "KT") (energy_units ++ percent_units));
   WithError (col (plainly "KT") energy_units) (col ["KT-RSL-HW"] (energy_units ++ percent_units));
   Limits (col ["KT-MIN"] energy_units) (col ["KT-MAX"] energy_units);
   Asymmetric (col ["KT"] energy_units) (col ["-KT-ERR"] energy_units) (col ["+KT-ERR"] energy_units);
   Alone (col ("TEMP-K" :: plainly "TEMP" ++ plainly "KT") energy_units)].
(** Angles *)
Definition angle_units : list string := ["ADEG"; "RAD"; "SR"] ++ no_units.
Definition angle_heads : list string := "ANG-CM" :: "COS-CM" :: plainly "ANG" ++ plainly "COS".
Definition angles : list reading :=
  [WithError (col angle_heads angle_units) (col ["ANG-ERR"; "ANG-RSL-HW"; "COS-ERR"; "COS-RSL-HW"] (angle_units ++ percent_units));
   WithError (col angle_heads angle_units) (width (full_widths "ANG" ++ full_widths "COS") (angle_units ++ percent_units));
   Alone (col angle_heads angle_units)].
(** Data in units of [c]; ratios have none. *)
Definition data_heads : list string := plainly "DATA" ++ plainly "RATIO".
Definition data_error_heads : list string := ["DATA-ERR"; "RATIO-ERR"; "ERR-T"].
Definition more_data_readings (units : list string) : list reading :=
  [Limits (col ["DATA-MIN"; "RATIO-MIN"] units) (col ["DATA-MAX"; "RATIO-MAX"] units);
   Asymmetric (col ["DATA"; "RATIO"] units) (col ["-DATA-ERR"; "-RATIO-ERR"] units) (col ["+DATA-ERR"; "+RATIO-ERR"] units);
   TwoErrors (col ["DATA"; "RATIO"] units) (col ["ERR"] (units ++ percent_units)) (col ["ERR-S"] (units ++ percent_units))].
Definition cross_sections : list reading :=
  let units := units_in "barns" ++ no_units in
  WithError (col ("DATA-CM" :: "RATIO-CM" :: data_heads) units) (col data_error_heads (units ++ percent_units))
  :: more_data_readings units ++ [Alone (col data_heads units)].
Definition yields : list reading :=
  let units := units_in "ptcls/fis" ++ no_units in
  WithError (col data_heads units) (col data_error_heads (units ++ percent_units))
  :: more_data_readings units ++ [Alone (col data_heads units)].
Definition distributions (canonical : string) : list reading :=
  let units := units_in canonical ++ no_units in
  [WithError (col ("DATA-CM" :: "RATIO-CM" :: data_heads) units) (col data_error_heads (units ++ percent_units));
   Alone (col ("DATA-CM" :: "RATIO-CM" :: data_heads) units)].

(** The quantities of a simplified data set. *)
Definition quantities (c : ds_class) : list (string * list reading) :=
  match c with
  | CrossSection => [("Energy", energies "EN"); ("Data", cross_sections)]
  | Nubar => [("Energy", energies "EN"); ("Data", yields)]
  | SpectrumAve => [("Energy", temperatures ++ energies "EN"); ("Data", cross_sections)]
  | AngularDist => [("Energy", energies "EN"); ("Angle", angles); ("Data", distributions "barns/ster")]
  | EnergyDist => [("Energy", energies "EN"); ("E'", energies "E"); ("Data", distributions "1/MeV")]
  | _ => []
  end.

(** * The simplified table *)

Definition has_values (t : table) (q : string * list reading) : bool :=
  existsb (fun i => match quantity (snd q) t i with Some _ => true | None => false end) (seq 0 (length (t_data t))).
Definition has_deviations (t : table) (q : string * list reading) : bool :=
  existsb (fun i => match deviation (snd q) t i with Some _ => true | None => false end) (seq 0 (length (t_data t))).
(** The quantities that get a column of uncertainties: all of them, or those that have some. *)
Definition with_deviations (every : bool) (t : table) (qs : list (string * list reading)) : list (string * list reading) :=
  filter (fun q => has_deviations t q || every) qs.

Definition value_cell (t : table) (i : nat) (q : string * list reading) : dcell := as_cell (quantity (snd q) t i).
Definition deviation_cell (t : table) (i : nat) (q : string * list reading) : dcell :=
  if has_deviations t q then as_cell (deviation (snd q) t i) else VFloat (S754_zero false).
Definition read_table (every : bool) (qs : list (string * list reading)) (t : table) : table :=
  let ds := with_deviations every t qs in
  mkTable (map (fun q => tx (fst q)) qs ++ map (fun q => uncertainty_label (tx (fst q))) ds)
          (map (fun q => quantity_unit (snd q) t) qs ++
           map (fun q => if has_deviations t q then deviation_unit (snd q) t else quantity_unit (snd q) t) ds)
          (map (fun i => map (value_cell t i) qs ++ map (deviation_cell t i) ds) (seq 0 (length (t_data t)))).
End Acos.
