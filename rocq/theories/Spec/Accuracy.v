(** The numbers of a simplified cross section as real numbers: what is written, in the units that are
    written, and how near a double has to come. *)
From Coq Require Import String List Ascii NArith ZArith Reals Bool.
From Coq Require Import Floats.SpecFloat.
From Verif.Model Require Import Py PyFloat Columns.
From Verif.Spec Require Import Text Tables Doubles Document.
Import ListNotations.
Local Open Scope list_scope.

(** [y] is the number [r] but for a part in 2^n. *)
Definition within (n : Z) (y : float) (r : R) : Prop :=
  finite y /\ (Rabs (float_value y - r) <= powerRZ 2 (- n) * Rabs r)%R.
(** Zero, or neither tiny nor huge. *)
Definition ordinary (r : R) : Prop := r = 0%R \/ (powerRZ 10 (-100) <= Rabs r <= powerRZ 10 100)%R.

(** What stands in a cell: nothing, or a number. *)
Definition stands_for (t : list ascii) (r : option R) : Prop :=
  match r with
  | None => t = []
  | Some r => denotes t r
  end.

(** Tables of real numbers *)
Definition real_table : list (list ascii) -> list heading -> list (list (option R)) -> Prop := written_as stands_for.
Definition real_common : list ascii -> list heading -> list (option R) -> Prop := common_as stands_for.
Definition all_ordinary (rows : list (list (option R))) : Prop :=
  forall row r, In row rows -> In (Some r) row -> ordinary r.

Definition real_at (row : list (option R)) (j : nat) : option R :=
  match nth_error row j with Some x => x | None => None end.
(** What a unit is worth, exactly *)
Definition worth_of (f : N * Z) : R := (IZR (Z.of_N (fst f)) * powerRZ 10 (snd f))%R.
Definition times (f : N * Z) (x : option R) : option R := option_map (fun r => r * worth_of f)%R x.

(** The uncertainty of the cross section *)
Definition real_uncertainty (b : nat) (g : N * Z) (w : uncertainty) (row : list (option R)) : option R :=
  match w with
  | NotGiven => None
  | Absolute c m x => option_map Rabs (times (m, x) (real_at row c))
  | Percent c =>
      match times g (real_at row b), real_at row c with
      | Some v, Some p => Some (Rabs (v * p / 100))%R
      | _, _ => None
      end
  end.
Definition is_given {A} (x : option A) : bool := match x with Some _ => true | None => false end.
(** Energy, cross section and, if any row has one, uncertainty *)
Definition real_row (rows : list (list (option R))) (a : nat) (f : N * Z) (b : nat) (g : N * Z) (w : uncertainty)
    (row : list (option R)) : list (option R) :=
  [times f (real_at row a); times g (real_at row b)] ++
  if existsb (fun row => is_given (real_uncertainty b g w row)) rows then [real_uncertainty b g w row] else [].

(** The cell of a data set *)
Definition agrees (n : Z) (c : dcell) (r : option R) : Prop :=
  match c, r with
  | VNone, None => True
  | VFloat y, Some r => within n y r
  | _, _ => False
  end.
