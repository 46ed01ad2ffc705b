(** Python floats: IEEE binary64 from Coq's standard library (SpecFloat, no axioms),
    and the conversion float(text).  No proofs here. *)
From Coq Require Import String List Ascii NArith ZArith Bool Arith.
From Coq Require Import Floats.SpecFloat.
From Verif.Model Require Import Py.
Import ListNotations.
Local Open Scope list_scope.

Definition float := spec_float.

Definition fprec : Z := 53.
Definition femax : Z := 1024.

Definition fadd : float -> float -> float := SFadd fprec femax.
Definition fsub : float -> float -> float := SFsub fprec femax.
Definition fmul : float -> float -> float := SFmul fprec femax.
(** Division by a non-zero divisor (division by zero raises in Python; see [pydiv]). *)
Definition fdiv : float -> float -> float := SFdiv fprec femax.
Definition fsqrt : float -> float := SFsqrt fprec femax.
Definition fabs : float -> float := SFabs.
Definition feqb : float -> float -> bool := SFeqb.
Definition fltb : float -> float -> bool := SFltb.
Definition fleb : float -> float -> bool := SFleb.

Definition fzero : float := S754_zero false.

Definition is_fzero (x : float) : bool := match x with S754_zero _ => true | _ => false end.

(** [x / y] *)
Definition pydiv (x y : float) : res float :=
  if is_fzero y then Raise ZeroDivisionError else Ok (fdiv x y).

(** [math.sqrt(x)]: ValueError for negative arguments (minus zero is fine). *)
Definition pysqrt (x : float) : res float :=
  match x with
  | S754_infinity true | S754_finite true _ _ => Raise ValueError
  | _ => Ok (fsqrt x)
  end.

(** A decimal number (-1)^neg * man * 10^exp. *)
Record dec := mkDec { dneg : bool; dman : N; dexp : Z }.

(** Correctly rounded conversion (round to nearest even). *)
Definition float_of_dec (d : dec) : float :=
  match dman d with
  | N0 => S754_zero (dneg d)
  | Npos m =>
      if (0 <=? dexp d)%Z
      then binary_normalize fprec femax
             (cond_Zopp (dneg d) (Zpos m * 10 ^ dexp d)) 0 (dneg d)
      else SFdiv fprec femax (S754_finite (dneg d) m 0)
                             (S754_finite false (Z.to_pos (10 ^ (- dexp d))) 0)
  end.

(** Float literals of the source: [fl m e] is the Python literal m * 10^e. *)
Definition fl (m : N) (e : Z) : float := float_of_dec (mkDec false m e).

(** Longest prefix of ASCII digits. *)
Fixpoint span_dig (s : str) : str * str :=
  match s with
  | c :: s' => if is_dig c then let '(a, b) := span_dig s' in (c :: a, b) else ([], s)
  | [] => ([], [])
  end.

(** Optional exponent part; must reach the end of the text. *)
Definition scan_exp (s : str) : option Z :=
  match s with
  | [] => Some 0%Z
  | c :: s' =>
      if (Ascii.eqb c "e" || Ascii.eqb c "E")%char then
        let '(neg, d) := take_sign s' in
        match d with
        | [] => None
        | _ => if forallb is_dig d
               then Some (if neg then - Z.of_N (n_of_digits d) else Z.of_N (n_of_digits d))%Z
               else None
        end
      else None
  end.

(** Unsigned decimal literal: digits, optional point and digits, optional exponent. *)
Definition scan_udec (neg : bool) (s : str) : option dec :=
  let '(ip, r) := span_dig s in
  let '(fp, r') := match r with
                   | c :: r1 => if Ascii.eqb c "."%char then span_dig r1 else ([], r)
                   | [] => ([], [])
                   end in
  match ip ++ fp with
  | [] => None
  | ds => option_map (fun e => mkDec neg (n_of_digits ds) (e - Z.of_nat (length fp)))
                     (scan_exp r')
  end.

(** [float(s)]; None stands for ValueError. *)
Definition float_of_str (s : str) : option float :=
  match drop_underscores false (num_strip s) with
  | None => None
  | Some t =>
      let '(neg, u) := take_sign t in
      let l := lower u in
      if str_eqb l (lit "inf") || str_eqb l (lit "infinity") then Some (S754_infinity neg)
      else if str_eqb l (lit "nan") then Some S754_nan
      else option_map float_of_dec (scan_udec neg u)
  end.
