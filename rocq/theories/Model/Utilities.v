(** x4i3/exfor_utilities.py, transcribed function by function.  No proofs here. *)
From Coq Require Import String List Ascii NArith ZArith Bool Arith.
From Verif.Model Require Import Py PyFloat.
Import ListNotations.
Local Open Scope list_scope.

(** exfor_utilities.py:81-86  withinXPercent(a, b, percent, absTol).
    ZeroDivisionError cannot occur in the last line because a+b == 0 returned earlier,
    but it is kept in the type. *)
Definition withinXPercent (a b percent absTol : float) : res bool :=
  if feqb (fadd a b) fzero then Ok true
  else if fltb (fadd (fabs a) (fabs b)) absTol then Ok true
  else q <- pydiv (fmul (fabs (fsub a b)) (fl 2 0)) (fabs (fadd a b)) ;;
       p <- pydiv percent (fl 100 0) ;;
       Ok (fleb q p).

(** Default tolerances of the signature at exfor_utilities.py:81. *)
Definition default_percent : float := fl 1 0.
Definition default_absTol : float := fl 1 (-14).

(** exfor_utilities.py:89-92 *)
Definition allWithinXPercent (aL bL : list float) (percent absTol : float) : res bool :=
  if negb (length aL =? length bL) then Ok false
  else bs <- map_res (fun x => withinXPercent (fst x) (snd x) percent absTol) (combine aL bL) ;;
       Ok (forallb (fun b => b) bs).

(** exfor_utilities.py:96-101  unique(l); [eqb] is Python's == on the element type. *)
Definition unique {A} (eqb : A -> A -> bool) (l : list A) : list A :=
  fold_left (fun newl x => if existsb (eqb x) newl then newl else newl ++ [x]) l [].

(** exfor_utilities.py:118-127: the text edits applied when float() fails. *)
Definition fortran_repair (tmp : str) : str :=
  let t3 := last_n 3 tmp in
  let tmp :=
    if (count_char "E" tmp <? 1) && (1 <=? count_char "+" t3 + count_char "-" t3) then
      let separator := if count_char "-" t3 =? 1 then "-"%char else "+"%char in
      drop_last_n 3 tmp ++ replace_char separator (["E"%char; separator]) t3
    else tmp in
  replace_char sp [] tmp.

(** exfor_utilities.py:105-134  parseFORTRANNumber.  None is Python's None.
    The [return 0] of line 119 is transcribed as zero. *)
Definition parseFORTRANNumber (numstring : str) : res (option float) :=
  if str_eqb (strip numstring) [] then Ok None
  else match float_of_str numstring with
       | Some f => Ok (Some f)
       | None =>
           let tmp := strip numstring in
           if str_eqb tmp [] then Ok (Some fzero)
           else match float_of_str (fortran_repair tmp) with
                | Some f => Ok (Some f)
                | None => Raise BrokenNumberError
                end
       end.

(** The common shape of the three line loops chunkifyX4Request
    (exfor_utilities.py:147-164), X4Entry.chunkify (exfor_entry.py:204-219) and
    X4SubEntry.chunkify (exfor_subentry.py:110-123): state is
    (chunks so far, inside?, current chunk). *)
Definition chunk_step (is_start is_end : str -> bool)
    (st : list (list str) * bool * list str) (line : str) : list (list str) * bool * list str :=
  let '(done, inside, cur) := st in
  if inside then
    let cur := cur ++ [line] in
    if is_end line then (done ++ [cur], false, cur) else (done, true, cur)
  else if is_start line then (done, true, [line])
  else (done, false, cur).

Definition chunkify_lines (is_start is_end : str -> bool) (lines : list str) : list (list str) :=
  let '(done, _, _) := fold_left (chunk_step is_start is_end) lines ([], false, []) in done.

(** exfor_utilities.py:138-164 *)
Definition chunkifyX4Request (request : list str) : list (list str) :=
  chunkify_lines (fun line => str_eqb (strip (slice line 0 11)) (lit "ENTRY"))
                 (fun line => str_eqb (strip (slice line 0 11)) (lit "ENDENTRY")) request.

(** exfor_utilities.py:167-179  list_of_dicts_to_table; dictionaries with string keys. *)
Definition list_of_dicts_to_table {V} (ds : list (list (str * V))) (cols : option (list str))
  : list str * list (list (option V)) :=
  let cols := match cols with
              | Some c => c
              | None => fold_left
                          (fun cols i => fold_left
                             (fun cols k => if smem k cols then cols else cols ++ [k])
                             (dkeys i) cols) ds []
              end in
  (cols, map (fun i => map (fun k => dget str_eqb k i) cols) ds).
