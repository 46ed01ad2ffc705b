(** Small, model-independent vocabulary for text: blanks, columns, keyword lines,
    decimal literals, block layouts of line lists. *)
From Coq Require Import String List Ascii NArith ZArith Bool Arith.
Import ListNotations.
Local Open Scope list_scope.

(** The latin-1 characters that Python calls whitespace, by code point. *)
Definition white (c : ascii) : Prop :=
  In (N_of_ascii c) [9; 10; 11; 12; 13; 28; 29; 30; 31; 32; 133; 160]%N.

Definition blank (s : list ascii) : Prop := Forall white s.

(** The whitespace that float() and int() ignore around a number. *)
Definition num_white (c : ascii) : Prop :=
  In (N_of_ascii c) [9; 10; 11; 12; 13; 32; 133; 160]%N.
Definition num_blank (s : list ascii) : Prop := Forall num_white s.

(** [core] is [s] without leading and trailing whitespace. *)
Definition trimmed (s core : list ascii) : Prop :=
  exists a b, s = a ++ core ++ b /\ blank a /\ blank b /\
    (forall c t, core = c :: t -> ~ white c) /\ (forall c t, core = t ++ [c] -> ~ white c).

(** Characters number i+1 .. j of a line (EXFOR counts columns from 1). *)
Definition columns (i j : nat) (s : list ascii) : list ascii := firstn (j - i) (skipn i s).

(** A line whose columns 1-11 hold exactly the keyword [kw]. *)
Definition keyword_line (kw : string) (line : list ascii) : Prop :=
  trimmed (columns 0 11 line) (list_ascii_of_string kw).

(** ** Decimal literals *)

(** Text of a list of decimal digits (each below ten) and its value. *)
Definition digit_char (d : N) : ascii := ascii_of_N (48 + d).
Definition digits_text (ds : list N) : list ascii := map digit_char ds.
Definition is_digits (ds : list N) : Prop := Forall (fun d => (d < 10)%N) ds.
Definition value10 (ds : list N) : N := fold_left (fun a d => a * 10 + d)%N ds 0%N.

(** Sign texts: nothing, plus, minus. *)
Inductive sign := SNone | SPlus | SMinus.
Definition sign_text (s : sign) : list ascii :=
  match s with SNone => [] | SPlus => ["+"%char] | SMinus => ["-"%char] end.
Definition is_minus (s : sign) : bool := match s with SMinus => true | _ => false end.
Definition signed (s : sign) (n : N) : Z :=
  if is_minus s then (- Z.of_N n)%Z else Z.of_N n.

(** ** Block layouts: blocks separated by other lines *)

(** [blocks is_start is_end lines bs]: [lines] consists of blocks, each running from a
    start line to the first end line after it, with non-start lines between blocks;
    what follows the last block is either no block at all or an unterminated one. *)
Inductive blocks (is_start is_end : list ascii -> Prop)
  : list (list ascii) -> list (list (list ascii)) -> Prop :=
| blocks_nil : blocks is_start is_end [] []
| blocks_junk : forall line lines bs,
    ~ is_start line -> blocks is_start is_end lines bs ->
    blocks is_start is_end (line :: lines) bs
| blocks_block : forall first body last lines bs,
    is_start first -> Forall (fun l => ~ is_end l) body -> is_end last ->
    blocks is_start is_end lines bs ->
    blocks is_start is_end (first :: body ++ last :: lines) ((first :: body ++ [last]) :: bs)
| blocks_open : forall first body,
    is_start first -> Forall (fun l => ~ is_end l) body ->
    blocks is_start is_end (first :: body) [].

(** Mantissas: optional sign, digits, optionally a point and more digits. *)
Definition mantissa_text (sg : sign) (ip : list N) (fr : option (list N)) : list ascii :=
  sign_text sg ++ digits_text ip ++
  match fr with Some fp => "."%char :: digits_text fp | None => [] end.
Definition frac_digits (fr : option (list N)) : list N :=
  match fr with Some fp => fp | None => [] end.
(** At least one digit, and only decimal digits. *)
Definition good_mantissa (ip : list N) (fr : option (list N)) : Prop :=
  is_digits ip /\ is_digits (frac_digits fr) /\ ip ++ frac_digits fr <> [].

(** The characters that may occur in a number text: digits, point, signs, underscore, and
    the letters of e, inf, infinity, nan in either case. *)
Definition number_char (c : ascii) : Prop :=
  In c (list_ascii_of_string "0123456789.+-_eEiInNfFtTyYaA").
