(** Natural isotopes and the lines of a table that describe them. *)
From Coq Require Import String List Ascii NArith ZArith Bool.
From Verif.Spec Require Import Text Exfor.
Import ListNotations.
Local Open Scope list_scope.

(** Abundance and its uncertainty in millionths of a per cent. *)
Record isotope := mkIso { iso_Z : N; iso_A : N; iso_symbol : list ascii; iso_percent : N; iso_error : N }.
Definition iso_key (i : isotope) : N * N := (iso_Z i, iso_A i).

(** A number with six decimals. *)
Definition six_decimals (text : list ascii) (n : N) : Prop :=
  exists ip fp, text = digits_text ip ++ "."%char :: digits_text fp /\ is_digits ip /\ is_digits fp /\ ip <> [] /\
    length fp = 6 /\ n = value10 (ip ++ fp).
Definition decimal (text : list ascii) (n : N) : Prop :=
  exists ds, text = digits_text ds /\ is_digits ds /\ ds <> [] /\ n = value10 ds.

(** The line consists of charge, mass number, symbol, abundance and uncertainty. *)
Definition describes (line : list ascii) (i : isotope) : Prop :=
  exists z a x y, words line [z; a; iso_symbol i; x; y] /\
    decimal z (iso_Z i) /\ decimal a (iso_A i) /\ six_decimals x (iso_percent i) /\ six_decimals y (iso_error i).

(** What the isotopes of an element add up to. *)
Definition total (z : N) (l : list isotope) : N :=
  fold_right (fun i n => if N.eqb (iso_Z i) z then (iso_percent i + n)%N else n) 0%N l.
