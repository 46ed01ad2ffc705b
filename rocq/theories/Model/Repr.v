(** Texts of floats: repr(x), str(x) and format(x, '.12g') of the standard library.  No proofs here. *)
From Coq Require Import String List Ascii NArith ZArith Bool Arith.
From Coq Require Import Floats.SpecFloat.
From Verif.Model Require Import Py PyFloat.
Import ListNotations.
Local Open Scope list_scope.

(** The absolute value m * 2^e as a fraction. *)
Definition float_ratio (m : positive) (e : Z) : Z * Z :=
  if (0 <=? e)%Z then (Zpos m * 2 ^ e, 1)%Z else (Zpos m, 2 ^ (- e))%Z.

Definition digit_count (n : Z) : Z := Z.of_nat (length (n_to_str (Z.to_N n))).
(** The exponent of the leading decimal digit of num/den. *)
Definition exponent10 (num den : Z) : Z :=
  if (den <=? num)%Z then (digit_count (num / den) - 1)%Z
  else let l := digit_count (den / num) in
       if (den <=? num * 10 ^ (l - 1))%Z then (1 - l)%Z else (- l)%Z.

(** num/den divided by 10^k *)
Definition scaled (num den k : Z) : Z * Z :=
  if (0 <=? k)%Z then (num, den * 10 ^ k)%Z else (num * 10 ^ (- k), den)%Z.

(** The two multiples of 10^k around num/den, the nearer one first (of two equally near ones, the
    even one). *)
Definition around (num den k : Z) : Z * Z :=
  let '(n, d) := scaled num den k in
  let q := (n / d)%Z in let r := (n mod d)%Z in
  match Z.compare (2 * r) d with
  | Lt => (q, q + 1)%Z
  | Gt => (q + 1, q)%Z
  | Eq => if Z.even q then (q, q + 1)%Z else (q + 1, q)%Z
  end.

Definition same_bits (x y : float) : bool :=
  match x, y with
  | S754_finite s m e, S754_finite s' m' e' => Bool.eqb s s' && Pos.eqb m m' && Z.eqb e e'
  | _, _ => false
  end.

(** The nearest numeral of n digits that reads back as x, if there is one. *)
Definition numeral (s : bool) (m : positive) (e : Z) (n : nat) : option dec :=
  let '(num, den) := float_ratio m e in
  let k := (exponent10 num den - Z.of_nat n + 1)%Z in
  let '(c, c') := around num den k in
  let back c := same_bits (float_of_dec (mkDec s (Z.to_N c) k)) (S754_finite s m e) in
  if back c then Some (mkDec s (Z.to_N c) k)
  else if back c' then Some (mkDec s (Z.to_N c') k) else None.
Fixpoint first_some {A B} (f : A -> option B) (l : list A) : option B :=
  match l with
  | [] => None
  | x :: l' => match f x with Some y => Some y | None => first_some f l' end
  end.
(** The shortest numeral that reads back; 17 digits are enough. *)
Definition shortest (s : bool) (m : positive) (e : Z) : option dec := first_some (numeral s m e) (seq 1 17).

(** ** Notation *)

Fixpoint drop_zeros (s : str) : str :=
  match s with c :: s' => if Ascii.eqb c "0"%char then drop_zeros s' else s | [] => [] end.
Definition strip_zeros (s : str) : str := rev (drop_zeros (rev s)).

Definition zeros (n : Z) : str := repeat "0"%char (Z.to_nat n).
(** Digits [ds], the first one of weight 10^x *)
Definition fixed_text (ds : str) (x : Z) : str :=
  if (0 <=? x)%Z
  then let n := Z.to_nat (x + 1) in
       if Nat.leb (length ds) n then ds ++ repeat "0"%char (n - length ds) ++ lit ".0"
       else firstn n ds ++ "."%char :: skipn n ds
  else lit "0." ++ zeros (- x - 1) ++ ds.
Definition exponent_text (ds : str) (x : Z) : str :=
  firstn 1 ds ++ match skipn 1 ds with [] => [] | f => "."%char :: f end
  ++ "e"%char :: (if (x <? 0)%Z then "-"%char else "+"%char) :: zfill 2 (n_to_str (Z.to_N (Z.abs x))).
(** repr of a number whose digits are known: fixed notation from 1e-4 up to 1e16 *)
Definition dec_text (d : dec) : str :=
  let all := n_to_str (dman d) in
  let x := (Z.of_nat (length all) - 1 + dexp d)%Z in
  let ds := strip_zeros all in
  (if dneg d then lit "-" else []) ++
  if ((-4 <=? x) && (x <? 16))%Z then fixed_text ds x else exponent_text ds x.

(** [repr(x)], [str(x)] *)
Definition repr_float (x : float) : str :=
  match x with
  | S754_nan => lit "nan"
  | S754_infinity s => if s then lit "-inf" else lit "inf"
  | S754_zero s => if s then lit "-0.0" else lit "0.0"
  | S754_finite s m e => match shortest s m e with Some d => dec_text d | None => [] end
  end.

(** ** float(format(x, '.12g')) *)

(** The numeral of 12 digits nearest to x.  Simplified: the text between format and float is not
    built; it denotes this numeral. *)
Definition round12 (s : bool) (m : positive) (e : Z) : dec :=
  let '(num, den) := float_ratio m e in
  let k := (exponent10 num den - 11)%Z in
  mkDec s (Z.to_N (fst (around num den k))) k.
Definition float12 (x : float) : float :=
  match x with S754_finite s m e => float_of_dec (round12 s m e) | _ => x end.
