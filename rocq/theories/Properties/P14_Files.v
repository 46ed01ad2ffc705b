(** Properties C76 and C77: files of comma separated values, and the table of natural abundances. *)
From Coq Require Import String List Ascii NArith ZArith Bool Arith.
From Verif.Model Require Import Py PyFloat Dicts Section Columns Csv Abundance.
From Verif.Spec Require Import Text Exfor CsvText Isotopes.
From Verif.Proofs Require Import CsvLemmas AbundanceLemmas.
Import ListNotations.
Local Open Scope string_scope.
Local Open Scope list_scope.
Local Open Scope nat_scope.

(** ** C76: what csv() writes is the table *)

(** [repr] is Python's repr of a float.  [csv_read] is the reader of Spec/CsvText.v. *)
Theorem C76_dataset : forall repr t, (forall x, Forall number_char (repr x)) ->
  Forall no_return (t_labels t) -> (forall u, In (Some u) (t_units t) -> no_return u) ->
  csv_read (dataset_csv repr t) = Some (t_labels t :: map (fun u => match u with Some u => u | None => [] end) (t_units t) ::
    map (map (fun c => match c with VNone => [] | VFloat x => repr x | VZero => list_ascii_of_string "0" end)) (t_data t)).
Proof. exact dataset_csv_reads. Qed.
Print Assumptions C76_dataset.

(** The numbers come back as well, provided that float(repr(x)) is x. *)
Theorem C76_dataset_numbers : forall repr t, (forall x, Forall number_char (repr x)) ->
  Forall no_return (t_labels t) -> (forall u, In (Some u) (t_units t) -> no_return u) ->
  (forall row x, In row (t_data t) -> In (VFloat x) row -> float_of_str (repr x) = Some x) ->
  exists rows, csv_read (dataset_csv repr t) = Some (t_labels t :: map (fun u => match u with Some u => u | None => [] end) (t_units t) :: rows) /\
    Forall2 (Forall2 (fun c text => match c with VNone => text = [] | VFloat x => float_of_str text = Some x | VZero => float_of_str text = Some fzero end))
            (t_data t) rows.
Proof. exact dataset_csv_numbers. Qed.
Print Assumptions C76_dataset_numbers.

Theorem C76_section : forall repr d, (forall x, Forall number_char (repr x)) ->
  Forall no_return (d_labels d) -> Forall no_return (d_units d) ->
  csv_read (section_csv repr d) = Some (d_labels d :: d_units d ::
    map (map (fun x => match x with Some x => repr x | None => [] end)) (d_data d)).
Proof. exact section_csv_reads. Qed.
Print Assumptions C76_section.

(** A heading with a comma, a quote and a line end, a missing unit and missing cells. *)
Definition a_repr (x : float) : str := if fltb x (fl 2 0) then lit "1.5" else lit "2.5e-05".
Definition a_table : table :=
  mkTable [lit "EN"; lit "a,b" ++ [quote_c; nl] ++ lit "c"] [Some (lit "MEV"); None]
          [[VFloat (fl 15 (-1)); VNone]; [VZero; VFloat (fl 25 (-1))]].
Example C76_example :
  (forall x, Forall number_char (a_repr x)) /\ Forall no_return (t_labels a_table) /\
  (forall u, In (Some u) (t_units a_table) -> no_return u) /\
  dataset_csv a_repr a_table = lit "EN," ++ [quote_c] ++ lit "a,b" ++ [quote_c; quote_c; nl] ++ lit "c" ++ [quote_c; nl] ++
    lit "MEV," ++ [nl] ++ lit "1.5," ++ [nl] ++ lit "0,2.5e-05" ++ [nl].
Proof.
  split; [|split; [|split]].
  - intro x. unfold a_repr. destruct (fltb x (fl 2 0));
      repeat (apply Forall_cons; [repeat first [left; reflexivity|right]|]); apply Forall_nil.
  - repeat (apply Forall_cons; [intro H; repeat (destruct H as [H|H]; [discriminate H|]); destruct H|]); apply Forall_nil.
  - intros u [H|[H|[]]]; [|discriminate H]. injection H as H. subst u.
    intro H. repeat (destruct H as [H|H]; [discriminate H|]); destruct H.
  - vm_compute. reflexivity.
Qed.
(** A row whose only cell is missing is not an empty line. *)
Example C76_single_example :
  csv_read (dataset_csv a_repr (mkTable [lit "EN"] [Some (lit "MEV")] [[VNone]; [VFloat (fl 15 (-1))]])) =
  Some [[lit "EN"]; [lit "MEV"]; [[]]; [lit "1.5"]].
Proof. vm_compute. reflexivity. Qed.

(** ** C77: natural abundances *)

(** For any table of isotopes below five lines of heading. *)
Theorem C77_lookup : forall head rows last isos, length head = 5 -> Forall2 describes rows isos -> NoDup (map iso_key isos) ->
  exists d, abundance_dict (head ++ rows ++ [last]) = Ok d /\
    (forall i, In i isos -> getAbundance d (Z.of_N (iso_Z i)) (Z.of_N (iso_A i)) =
       (float_of_dec (mkDec false (iso_percent i) (-6)), float_of_dec (mkDec false (iso_error i) (-6)))) /\
    (forall z a, (forall i, In i isos -> (Z.of_N (iso_Z i), Z.of_N (iso_A i)) <> (z, a)) -> getAbundance d z a = (fzero, fzero)).
Proof. exact abundance_lookup. Qed.
Print Assumptions C77_lookup.

(** The table in abundance.py is of this kind; every isotope has the symbol of its element, and the
    abundances of every element add up to 100 % within 0.004 %. *)
Theorem C77_shipped : exists head rows last isos,
  abundance_data = head ++ rows ++ [last] /\ length head = 5 /\ length rows = 287 /\ Forall2 describes rows isos /\
  NoDup (map iso_key isos) /\
  Forall (fun i => endl_ZSymbol (Z.of_N (iso_Z i)) = Some (iso_symbol i)) isos /\
  Forall (fun i => (0 < iso_percent i <= 100000000)%N /\ (iso_Z i <= iso_A i)%N) isos /\
  (forall z, In z (map iso_Z isos) -> (99996000 <= total z isos <= 100004000)%N).
Proof. exact shipped_table. Qed.
Print Assumptions C77_shipped.

Example C77_example :
  match abundance_dict abundance_data with
  | Ok d => getAbundance d 92 235 = (fl 720400 (-6), fl 600 (-6)) /\
            getAbundance d 92 236 = (fzero, fzero) /\ length d = 287
  | Raise _ => False
  end.
Proof. vm_compute. auto. Qed.
