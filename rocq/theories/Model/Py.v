(** Python runtime fragment used by x4i: exceptions as values, strings over the
    latin-1 alphabet, insertion-ordered dictionaries, loops.  No proofs here.

    Entry files are opened with encoding='latin1' (x4i3/exfor_entry.py:71-73), so one
    Coq [ascii] (code points 0..255) is exactly one character of such text. *)
From Coq Require Import String List Ascii NArith ZArith Bool Arith.
Import ListNotations.
Local Open Scope list_scope.

(** * Exceptions *)

(** The exception classes that x4i raises or catches
    (x4i3/exfor_exceptions.py plus Python builtins).  Messages are dropped. *)
Inductive exn : Type :=
| KeyError | IndexError | ValueError | TypeError | AttributeError
| NotImplementedError | ZeroDivisionError | LookupError | OSError
| SqlError                      (* sqlite3.OperationalError *)
| GenericException              (* a bare Exception(...) *)
| ParseException                (* pyparsing *)
| BrokenNumberError | NoValuesGivenError | NoUncertaintyGivenError
| ReactionParsingError | IsomerMathParsingError | ResidualNucleusError
| ParticleParsingError | ReferenceParsingError | AuthorParsingError
| InstituteParsingError
| RecursionError                (* the limit on the depth of calls is reached *)
| OutsideModel.                 (* not a Python exception: the model does not say what happens *)

Definition exn_eqb (a b : exn) : bool :=
  match a, b with
  | KeyError, KeyError | IndexError, IndexError | ValueError, ValueError
  | TypeError, TypeError | AttributeError, AttributeError
  | NotImplementedError, NotImplementedError | ZeroDivisionError, ZeroDivisionError
  | LookupError, LookupError | OSError, OSError | SqlError, SqlError
  | GenericException, GenericException | ParseException, ParseException
  | BrokenNumberError, BrokenNumberError | NoValuesGivenError, NoValuesGivenError
  | NoUncertaintyGivenError, NoUncertaintyGivenError
  | ReactionParsingError, ReactionParsingError
  | IsomerMathParsingError, IsomerMathParsingError
  | ResidualNucleusError, ResidualNucleusError
  | ParticleParsingError, ParticleParsingError
  | ReferenceParsingError, ReferenceParsingError
  | AuthorParsingError, AuthorParsingError
  | InstituteParsingError, InstituteParsingError
  | RecursionError, RecursionError
  | OutsideModel, OutsideModel => true
  | _, _ => false
  end.

(** Outcome of a Python call: a value or a raised exception. *)
Inductive res (A : Type) : Type :=
| Ok (a : A)
| Raise (e : exn).
Arguments Ok {A} _.
Arguments Raise {A} _.

Definition bind {A B} (m : res A) (k : A -> res B) : res B :=
  match m with Ok a => k a | Raise e => Raise e end.

Notation "x <- m ;; k" := (bind m (fun x => k))
  (at level 61, m at next level, right associativity).
Notation "' p <- m ;; k" := (bind m (fun x => match x with p => k end))
  (at level 61, p pattern, m at next level, right associativity).

Definition of_option {A} (e : exn) (o : option A) : res A :=
  match o with Some a => Ok a | None => Raise e end.

(** [[f(x) for x in l]] where [f] may raise: first exception wins. *)
Fixpoint map_res {A B} (f : A -> res B) (l : list A) : res (list B) :=
  match l with
  | [] => Ok []
  | x :: l' => y <- f x ;; ys <- map_res f l' ;; Ok (y :: ys)
  end.

(** [for x in l: s = f(s, x)] where [f] may raise. *)
Fixpoint fold_res {A S} (f : S -> A -> res S) (l : list A) (s : S) : res S :=
  match l with
  | [] => Ok s
  | x :: l' => s' <- f s x ;; fold_res f l' s'
  end.

(** [l[i]] for a non-negative index. *)
Definition idx {A} (l : list A) (i : nat) : res A := of_option IndexError (nth_error l i).
(** [l[-1]] and [l[:-1]]. *)
Definition last_of {A} (l : list A) : res A := of_option IndexError (nth_error l (length l - 1)).
Definition but_last {A} (l : list A) : list A := firstn (length l - 1) l.

(** [l[i:j]] for any integers. *)
Definition clamp (n i : Z) : Z := Z.max 0 (Z.min n (if (i <? 0)%Z then i + n else i)).
Definition zslice {A} (l : list A) (i j : Z) : list A :=
  let n := Z.of_nat (length l) in
  firstn (Z.to_nat (clamp n j - clamp n i)) (skipn (Z.to_nat (clamp n i)) l).
(** [l[i]] for any integer. *)
Definition zidx {A} (l : list A) (i : Z) : res A :=
  let n := Z.of_nat (length l) in
  if ((- n <=? i) && (i <? n))%Z
  then of_option IndexError (nth_error l (Z.to_nat (if (i <? 0)%Z then i + n else i)))
  else Raise IndexError.

(** * Strings *)

Notation str := (list ascii).

(** String literals. *)
Definition lit (s : string) : str := list_ascii_of_string s.

Definition ch (n : N) : ascii := ascii_of_N n.
Definition code (c : ascii) : N := N_of_ascii c.

Definition sp : ascii := " "%char.
Definition nl : ascii := ch 10.
Definition cr : ascii := ch 13.

Fixpoint str_eqb (a b : str) : bool :=
  match a, b with
  | [], [] => true
  | x :: a', y :: b' => Ascii.eqb x y && str_eqb a' b'
  | _, _ => false
  end.

(** Python's [x in l] for a list or tuple of strings. *)
Definition smem (x : str) (l : list str) : bool := existsb (str_eqb x) l.

(** Python's [c in s] for a one-character string. *)
Definition cmem (c : ascii) (s : str) : bool := existsb (Ascii.eqb c) s.

(** Lexicographic order by code point: Python's [<=] on str. *)
Fixpoint str_leb (a b : str) : bool :=
  match a, b with
  | [], _ => true
  | _ :: _, [] => false
  | x :: a', y :: b' =>
      if (code x <? code y)%N then true
      else if (code y <? code x)%N then false else str_leb a' b'
  end.

(** [str.isspace] on one latin-1 character. *)
Definition is_space (c : ascii) : bool :=
  let n := code c in
  (((9 <=? n) && (n <=? 13)) || ((28 <=? n) && (n <=? 32)) || (n =? 133) || (n =? 160))%N.

(** ASCII decimal digit. *)
Definition is_dig (c : ascii) : bool := ((48 <=? code c) && (code c <=? 57))%N.
Definition dig_val (c : ascii) : N := (code c - 48)%N.
Definition dig_chr (n : N) : ascii := ch (48 + n).

(** [str.isdigit] on one latin-1 character: also superscript two, three and one. *)
Definition is_digit_py (c : ascii) : bool :=
  is_dig c || ((code c =? 178) || (code c =? 179) || (code c =? 185))%N.
(** [s.isdigit()]. *)
Definition str_isdigit (s : str) : bool :=
  match s with [] => false | _ => forallb is_digit_py s end.

(** [s[i:j]] with 0 <= i, j. *)
Definition slice (s : str) (i j : nat) : str := firstn (j - i) (skipn i s).
(** [s[i:]], [s[:j]]. *)
Definition slice_from (s : str) (i : nat) : str := skipn i s.
Definition slice_to (s : str) (j : nat) : str := firstn j s.
(** [s[-k:]] and [s[:-k]] for k >= 1. *)
Definition last_n (k : nat) (s : str) : str := skipn (length s - k) s.
Definition drop_last_n (k : nat) (s : str) : str := firstn (length s - k) s.

Fixpoint lstrip (s : str) : str :=
  match s with
  | c :: s' => if is_space c then lstrip s' else s
  | [] => []
  end.
Definition rstrip (s : str) : str := rev (lstrip (rev s)).
Definition strip (s : str) : str := rstrip (lstrip s).

(** The blanks that int() and float() ignore around a number: CPython drops the same
    characters as strip() except the four separators 28..31. *)
Definition is_num_space (c : ascii) : bool :=
  is_space c && negb ((28 <=? code c) && (code c <=? 31))%N.
Fixpoint num_lstrip (s : str) : str :=
  match s with
  | c :: s' => if is_num_space c then num_lstrip s' else s
  | [] => []
  end.
Definition num_strip (s : str) : str := rev (num_lstrip (rev (num_lstrip s))).

(** [s.split()] *)
Fixpoint split_ws_aux (s cur : str) : list str :=
  match s with
  | [] => match cur with [] => [] | _ => [rev cur] end
  | c :: s' =>
      if is_space c then
        match cur with
        | [] => split_ws_aux s' []
        | _ => rev cur :: split_ws_aux s' []
        end
      else split_ws_aux s' (c :: cur)
  end.
Definition split_ws (s : str) : list str := split_ws_aux s [].

(** [s.split(c)] for a one-character separator; never empty. *)
Fixpoint split_char (sep : ascii) (s : str) : list str :=
  match s with
  | [] => [[]]
  | c :: s' =>
      if Ascii.eqb c sep then [] :: split_char sep s'
      else match split_char sep s' with
           | [] => [[c]]
           | w :: ws => (c :: w) :: ws
           end
  end.

(** [sep.join(l)] *)
Fixpoint join (sep : str) (l : list str) : str :=
  match l with
  | [] => []
  | [x] => x
  | x :: l' => x ++ sep ++ join sep l'
  end.

Fixpoint is_prefix (p s : str) : bool :=
  match p, s with
  | [], _ => true
  | x :: p', y :: s' => Ascii.eqb x y && is_prefix p' s'
  | _, _ => false
  end.
(** [s.startswith(p)] *)
Definition startswith (s p : str) : bool := is_prefix p s.

(** [p in s] for strings. *)
Fixpoint contains (p s : str) : bool :=
  is_prefix p s || match s with [] => false | _ :: s' => contains p s' end.

(** [s.count(c)] for one character. *)
Definition count_char (c : ascii) (s : str) : nat := length (filter (Ascii.eqb c) s).

(** [s.replace(c, r)] for a one-character pattern. *)
Definition replace_char (c : ascii) (r : str) (s : str) : str :=
  flat_map (fun x => if Ascii.eqb x c then r else [x]) s.

(** [s.replace(p, r)] for a non-empty pattern: leftmost, non-overlapping.
    [skip] characters of the last match are still to be consumed. *)
Fixpoint replace_str_aux (p r s : str) (skip : nat) : str :=
  match s with
  | [] => []
  | c :: s' =>
      match skip with
      | S k => replace_str_aux p r s' k
      | O => if is_prefix p s then r ++ replace_str_aux p r s' (length p - 1)
             else c :: replace_str_aux p r s' 0
      end
  end.
Definition replace_str (p r s : str) : str := replace_str_aux p r s 0.

(** [s.ljust(n)], [s.rjust(n)], [s.zfill(n)]. *)
Definition ljust (n : nat) (s : str) : str := s ++ repeat sp (n - length s).
Definition rjust (n : nat) (s : str) : str := repeat sp (n - length s) ++ s.
(** zfill keeps a leading sign in front. *)
Definition zfill (n : nat) (s : str) : str :=
  let pad := repeat "0"%char (n - length s) in
  match s with
  | c :: s' => if (Ascii.eqb c "+" || Ascii.eqb c "-")%char then c :: pad ++ s' else pad ++ s
  | [] => pad
  end.

(** Case mapping: ASCII letters and the regular latin-1 letter pairs.
    Simplified: the three latin-1 characters whose upper case is outside latin-1
    (micro sign, sharp s, y with diaeresis) are left alone, and these three and the two
    ordinal indicators do not count as letters for title(). *)
Definition is_upper (c : ascii) : bool :=
  let n := code c in
  (((65 <=? n) && (n <=? 90)) || ((192 <=? n) && (n <=? 222) && negb (n =? 215)))%N.
Definition is_lower (c : ascii) : bool :=
  let n := code c in
  (((97 <=? n) && (n <=? 122)) || ((224 <=? n) && (n <=? 254) && negb (n =? 247)))%N.
Definition upper_c (c : ascii) : ascii := if is_lower c then ch (code c - 32) else c.
Definition lower_c (c : ascii) : ascii := if is_upper c then ch (code c + 32) else c.
Definition upper (s : str) : str := map upper_c s.
Definition lower (s : str) : str := map lower_c s.
Definition capitalize (s : str) : str :=
  match s with [] => [] | c :: s' => upper_c c :: lower s' end.
Fixpoint title_aux (prev : bool) (s : str) : str :=
  match s with
  | [] => []
  | c :: s' =>
      let cased := is_upper c || is_lower c in
      (if prev then lower_c c else upper_c c) :: title_aux cased s'
  end.
Definition title (s : str) : str := title_aux false s.

(** Universal newlines (open(..., newline=None)): CR LF and CR become LF. *)
Fixpoint universal_newlines (s : str) : str :=
  match s with
  | [] => []
  | c :: s' =>
      if Ascii.eqb c cr then
        match s' with
        | d :: s'' => if Ascii.eqb d nl then nl :: universal_newlines s''
                      else nl :: universal_newlines s'
        | [] => [nl]
        end
      else c :: universal_newlines s'
  end.

(** [f.readlines()]: lines keep their newline; no empty last line. *)
Fixpoint readlines_aux (s cur : str) : list str :=
  match s with
  | [] => match cur with [] => [] | _ => [rev cur] end
  | c :: s' =>
      if Ascii.eqb c nl then rev (c :: cur) :: readlines_aux s' []
      else readlines_aux s' (c :: cur)
  end.
Definition readlines (s : str) : list str := readlines_aux s [].

(** * Integers *)

Definition n_of_digits (s : str) : N :=
  fold_left (fun acc c => (acc * 10 + dig_val c)%N) s 0%N.

Fixpoint n_digits_aux (fuel : nat) (n : N) (acc : str) : str :=
  match fuel with
  | O => acc
  | S f =>
      let q := N.div n 10 in
      let acc' := dig_chr (N.modulo n 10) :: acc in
      if N.eqb q 0 then acc' else n_digits_aux f q acc'
  end.
(** [str(n)] for n >= 0. *)
Definition n_to_str (n : N) : str := n_digits_aux (S (N.size_nat n)) n [].
(** [str(z)]. *)
Definition z_to_str (z : Z) : str :=
  match z with
  | Zneg p => "-"%char :: n_to_str (Npos p)
  | _ => n_to_str (Z.to_N z)
  end.
Definition nat_to_str (n : nat) : str := n_to_str (N.of_nat n).

(** Python allows one underscore between two digits in numeric literals passed to
    int() and float(); this removes them, or fails
    (CPython: _Py_string_to_number_with_underscores). *)
Fixpoint drop_underscores (prev_dig : bool) (s : str) : option str :=
  match s with
  | [] => Some []
  | c :: s' =>
      if Ascii.eqb c "_"%char then
        match s' with
        | d :: _ => if prev_dig && is_dig d then drop_underscores false s' else None
        | [] => None
        end
      else option_map (cons c) (drop_underscores (is_dig c) s')
  end.

Definition take_sign (s : str) : bool * str :=
  match s with
  | c :: s' => if Ascii.eqb c "-"%char then (true, s')
               else if Ascii.eqb c "+"%char then (false, s') else (false, s)
  | [] => (false, [])
  end.

(** [int(s)] in base 10; None stands for ValueError. *)
Definition int_of_str (s : str) : option Z :=
  match drop_underscores false (num_strip s) with
  | None => None
  | Some t =>
      let '(neg, d) := take_sign t in
      match d with
      | [] => None
      | _ => if forallb is_dig d
             then Some (if neg then - Z.of_N (n_of_digits d) else Z.of_N (n_of_digits d))%Z
             else None
      end
  end.

(** * Dictionaries: insertion ordered, update in place *)

Section Dict.
  Context {K V : Type} (keqb : K -> K -> bool).

  Fixpoint dget (k : K) (d : list (K * V)) : option V :=
    match d with
    | [] => None
    | (k', v) :: d' => if keqb k k' then Some v else dget k d'
    end.

  Fixpoint dset (k : K) (v : V) (d : list (K * V)) : list (K * V) :=
    match d with
    | [] => [(k, v)]
    | (k', v') :: d' => if keqb k k' then (k', v) :: d' else (k', v') :: dset k v d'
    end.

  Definition dhas (k : K) (d : list (K * V)) : bool :=
    match dget k d with Some _ => true | None => false end.

  Definition dkeys (d : list (K * V)) : list K := map fst d.
  Definition dvals (d : list (K * V)) : list V := map snd d.
End Dict.

(** [sorted(l)] for strings (insertion sort; Python's sort is stable and so is this). *)
Fixpoint sinsert (x : str) (l : list str) : list str :=
  match l with
  | [] => [x]
  | y :: l' => if str_leb x y then x :: l else y :: sinsert x l'
  end.
Fixpoint ssort (l : list str) : list str :=
  match l with
  | [] => []
  | x :: l' => sinsert x (ssort l')
  end.
