(** Vocabulary for tables of numbers: units, columns, uncertainties.  Nothing here refers to the
    model. *)
From Coq Require Import String List NArith ZArith Bool.
From Coq Require Import Floats.SpecFloat.
Import ListNotations.
Local Open Scope string_scope.
Local Open Scope list_scope.

(** Units and what they are worth: unit, canonical unit, factor m * 10^e. *)
Definition unit_table : list (string * string * (N * Z)) :=
  [("GEV", "MeV", (1%N, 3%Z)); ("MEV", "MeV", (1%N, 0%Z)); ("KEV", "MeV", (1%N, (-3)%Z)); ("EV", "MeV", (1%N, (-6)%Z));
   ("MILLI-EV", "MeV", (1%N, (-9)%Z)); ("MeV", "MeV", (1%N, 0%Z));
   ("1/GEV", "1/MeV", (1%N, (-3)%Z)); ("1/MEV", "1/MeV", (1%N, 0%Z)); ("1/KEV", "1/MeV", (1%N, 3%Z));
   ("1/EV", "1/MeV", (1%N, 6%Z)); ("1/MILLI-EV", "1/MeV", (1%N, 9%Z)); ("1/MeV", "1/MeV", (1%N, 0%Z));
   ("B", "barns", (1%N, 0%Z)); ("MB", "barns", (1%N, (-3)%Z)); ("MICRO-B", "barns", (1%N, (-6)%Z)); ("barns", "barns", (1%N, 0%Z));
   ("B/SR", "barns/ster", (1%N, 0%Z)); ("MB/SR", "barns/ster", (1%N, (-3)%Z)); ("MICRO-B/SR", "barns/ster", (1%N, (-6)%Z));
   ("barns/SR", "barns/ster", (1%N, 0%Z));
   ("B*RT-EV", "B*RT-EV", (1%N, 0%Z)); ("MB*RT-EV", "B*RT-EV", (1%N, (-3)%Z));
   ("GEV/C", "GeV/c", (1%N, 0%Z)); ("MEV/C", "GeV/c", (1%N, (-3)%Z));
   ("PRT/FIS", "ptcls/fis", (1%N, 0%Z));
   ("ADEG", "degrees", (1%N, 0%Z));
   ("NO-DIM", "no-dim", (1%N, 0%Z)); ("ARB-UNITS", "no-dim", (1%N, 0%Z)); ("no-dim", "no-dim", (1%N, 0%Z))].
(** Units with a factor that is no power of ten. *)
Definition odd_units : list string := ["RAD"; "SR"; "K"].
Definition canonical_units : list string :=
  ["MeV"; "1/MeV"; "barns"; "barns/ster"; "B*RT-EV"; "GeV/c"; "ptcls/fis"; "degrees"; "no-dim"].

(** The first thing there is. *)
Fixpoint first_some {A} (l : list (option A)) : option A :=
  match l with
  | [] => None
  | Some x :: _ => Some x
  | None :: l' => first_some l'
  end.
Fixpoint last_some {A} (l : list (option A)) : option A :=
  match l with
  | [] => None
  | x :: l' => match last_some l' with Some y => Some y | None => x end
  end.

(** No sign, unless not a number. *)
Definition not_negative (x : spec_float) : Prop :=
  match x with
  | S754_zero s | S754_infinity s | S754_finite s _ _ => s = false
  | S754_nan => True
  end.

(** A number a processor can hold. *)
Definition is_double (x : spec_float) : Prop := valid_binary 53 1024 x = true.

(** Column [j] of a table has one of the wanted labels and one of the wanted units (no wish: any). *)
Definition column_fits (labels : list (list Ascii.ascii)) (units : list (option (list Ascii.ascii)))
    (wanted_labels wanted_units : option (list (list Ascii.ascii))) (j : nat) : Prop :=
  (exists l, nth_error labels j = Some l /\ forall ls, wanted_labels = Some ls -> In l ls) /\
  (forall us, wanted_units = Some us -> exists u, nth_error units j = Some (Some u) /\ In u us).
(** [j] is the first number for which [P] holds. *)
Definition first_such (P : nat -> Prop) (j : nat) : Prop := P j /\ forall i, i < j -> ~ P i.

(** Every column has a label and a unit, every row has one cell for every column. *)
Definition rectangular {A} (labels : list (list Ascii.ascii)) (units : list (option (list Ascii.ascii))) (rows : list (list A)) : Prop :=
  length units = length labels /\ Forall (fun u => u <> None) units /\ Forall (fun r => length r = length labels) rows.
