(** The numbers that IEEE binary64 ("double") can represent, as real numbers. *)
From Coq Require Import List Ascii ZArith NArith Reals Bool.
From Coq Require Import Floats.SpecFloat.
From Verif.Model Require Import PyFloat.
From Verif.Spec Require Import Text.
Import ListNotations.
Local Open Scope R_scope.

(** The real number that a float denotes. *)
Definition float_value (x : float) : R :=
  match x with
  | S754_finite s m e => (if s then -1 else 1) * IZR (Zpos m) * powerRZ 2 e
  | _ => 0
  end.

Definition finite (x : float) : Prop :=
  match x with S754_finite _ _ _ | S754_zero _ => True | _ => False end.

(** Mantissas of 53 bits; the leading bit is set unless the exponent is the least one. *)
Definition double (x : float) : Prop :=
  match x with
  | S754_finite _ m e => (Zpos m < 2 ^ 53 /\ -1074 <= e <= 971 /\ (2 ^ 52 <= Zpos m \/ e = -1074))%Z
  | _ => True
  end.

Definition even_mantissa (x : float) : Prop :=
  match x with S754_finite _ m _ => Z.even (Zpos m) = true | _ => True end.

Definition sign_bit (x : float) : bool :=
  match x with S754_finite s _ _ | S754_zero s | S754_infinity s => s | S754_nan => false end.

(** The real number that a decimal numeral denotes. *)
Definition dec_value (d : dec) : R :=
  (if dneg d then -1 else 1) * IZR (Z.of_N (dman d)) * powerRZ 10 (dexp d).

(** [x] is a double nearest to [r]; of two that are equally near, the one with the even mantissa. *)
Definition nearest (r : R) (x : float) : Prop :=
  double x /\ finite x /\
  (forall y, double y -> finite y -> Rabs (float_value x - r) <= Rabs (float_value y - r)) /\
  (forall y, double y -> finite y -> float_value y <> float_value x ->
     Rabs (float_value y - r) = Rabs (float_value x - r) -> even_mantissa x).

(** Halfway between the largest double and the power of two that follows it. *)
Definition overflow : R := powerRZ 2 1024 - powerRZ 2 970.

(** The number written as a mantissa and an exponent. *)
Definition written_value (sg : sign) (ip : list N) (fr : option (list N)) (e : Z) : R :=
  (if is_minus sg then -1 else 1) * IZR (Z.of_N (value10 (ip ++ frac_digits fr)))
  * powerRZ 10 (e - Z.of_nat (length (frac_digits fr))).
Definition exp_value (minus : bool) (ds : list N) : Z := if minus then (- Z.of_N (value10 ds))%Z else Z.of_N (value10 ds).
Definition exp_mark (minus : bool) : ascii := if minus then "-"%char else "+"%char.
(** 12.5, 1.25E+01 or 1.25 E+01, and the Fortran way 1.25+01 or 1.25 +01 *)
Inductive denotes : list ascii -> R -> Prop :=
| denotes_plain : forall sg ip fr, good_mantissa ip fr -> denotes (mantissa_text sg ip fr) (written_value sg ip fr 0)
| denotes_E : forall sg ip fr k minus ds, good_mantissa ip fr -> is_digits ds -> ds <> [] ->
    denotes (mantissa_text sg ip fr ++ repeat " "%char k ++ "E"%char :: exp_mark minus :: digits_text ds) (written_value sg ip fr (exp_value minus ds))
| denotes_sign : forall sg ip fr k minus ds, good_mantissa ip fr -> is_digits ds -> length ds = 1%nat \/ length ds = 2%nat ->
    denotes (mantissa_text sg ip fr ++ repeat " "%char k ++ exp_mark minus :: digits_text ds) (written_value sg ip fr (exp_value minus ds)).
