(** Reading comma separated values, as csv.reader of Python's standard library does with its
    default settings.  Nothing here refers to the model. *)
From Coq Require Import String List Ascii NArith Bool.
Import ListNotations.
Local Open Scope list_scope.

Inductive csv_state :=
| AtRow                      (* at the start of a row *)
| AtField                    (* at the start of a field *)
| InField                    (* in a field without quotes *)
| InQuotes                   (* between quotes *)
| AfterQuote.                (* after a quote between quotes *)

(** [field] and [row] are what has been read of the field and of the row, last first.  A carriage
    return outside quotes is not considered: None. *)
Fixpoint csv_scan (st : csv_state) (field : list ascii) (row : list (list ascii)) (s : list ascii)
  : option (list (list (list ascii))) :=
  match s with
  | [] =>
      match st with
      | AtRow => Some []
      | _ => Some [rev (rev field :: row)]
      end
  | c :: s' =>
      let is n := N.eqb (N_of_ascii c) n in
      let next st field row := csv_scan st field row s' in
      let comma := next AtField [] (rev field :: row) in
      let newline := option_map (cons (rev (rev field :: row))) (next AtRow [] []) in
      match st with
      | InQuotes => if is 34%N then next AfterQuote field row else next InQuotes (c :: field) row
      | AfterQuote =>
          if is 34%N then next InQuotes (c :: field) row
          else if is 44%N then comma
          else if is 10%N then newline
          else if is 13%N then None
          else next InField (c :: field) row
      | InField =>
          if is 44%N then comma
          else if is 10%N then newline
          else if is 13%N then None
          else next InField (c :: field) row
      | AtField =>
          if is 34%N then next InQuotes field row
          else if is 44%N then comma
          else if is 10%N then newline
          else if is 13%N then None
          else next InField (c :: field) row
      | AtRow =>
          if is 34%N then next InQuotes field row
          else if is 44%N then comma
          else if is 10%N then option_map (cons []) (next AtRow [] [])
          else if is 13%N then None
          else next InField (c :: field) row
      end
  end.

(** The rows of a text. *)
Definition csv_read (s : list ascii) : option (list (list (list ascii))) := csv_scan AtRow [] [] s.

(** No carriage return. *)
Definition no_return (s : list ascii) : Prop := ~ In (ascii_of_N 13) s.
