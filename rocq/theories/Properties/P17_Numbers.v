(** Properties C80 and C81: numbers as real numbers; numbers written and read back.  The proofs use
    the real numbers of Coq's standard library and Flocq. *)
From Coq Require Import String List Ascii NArith ZArith Bool Arith Reals Lra.
From Coq Require Import Floats.SpecFloat.
From Verif.Model Require Import Py PyFloat Utilities Section Columns Csv Repr.
From Verif.Spec Require Import Text Doubles CsvText.
From Verif.Proofs Require Import RoundLemmas ReprLemmas NearestLemmas.
Import ListNotations.
Local Open Scope string_scope.
Local Open Scope list_scope.
Local Open Scope nat_scope.

(** ** C80: a number read is the double nearest to the number written *)

Theorem C80_nearest : forall text r, denotes text r ->
  exists x, parseFORTRANNumber text = Ok (Some x) /\ double x /\
    ((Rabs r < overflow)%R -> nearest r x) /\
    ((overflow <= r)%R -> x = S754_infinity false) /\
    ((r <= - overflow)%R -> x = S754_infinity true).
Proof. exact denotes_reads. Qed.
Print Assumptions C80_nearest.

(** Nothing else but doubles is ever returned. *)
Theorem C80_doubles : forall text x, parseFORTRANNumber text = Ok (Some x) -> double x.
Proof. exact parse_double. Qed.
Print Assumptions C80_doubles.

(** Two texts of the same number, however written, are read as the same double. *)
Theorem C80_same_number : forall text text' r, denotes text r -> denotes text' r -> r <> 0%R ->
  parseFORTRANNumber text = parseFORTRANNumber text'.
Proof. exact denotes_same. Qed.
Print Assumptions C80_same_number.

Example C80_example : denotes (lit "-1.25 -03") (- (125 / 100000))%R /\ denotes (lit "-0.00125") (- (125 / 100000))%R /\
  (exists x, parseFORTRANNumber (lit "-1.25 -03") = Ok (Some x) /\ finite x).
Proof.
  split; [|split].
  - replace (- (125 / 100000))%R with (written_value SMinus [1%N] (Some [2%N; 5%N]) (exp_value true [0%N; 3%N]))
      by (unfold written_value; cbn -[Rmult Rdiv IZR Pos.to_nat]; change (Pos.to_nat 5) with 5; cbv [value10 fold_left]; cbn; field).
    apply (denotes_sign SMinus [1%N] (Some [2%N; 5%N]) 1 true [0%N; 3%N]).
    + split; [repeat constructor|]. split; [repeat constructor|discriminate].
    + repeat constructor.
    + right. reflexivity.
  - replace (- (125 / 100000))%R with (written_value SMinus [0%N] (Some [0%N; 0%N; 1%N; 2%N; 5%N]) 0)
      by (unfold written_value; cbn -[Rmult Rdiv IZR Pos.to_nat]; change (Pos.to_nat 5) with 5; cbv [value10 fold_left]; cbn; field).
    apply (denotes_plain SMinus [0%N] (Some [0%N; 0%N; 1%N; 2%N; 5%N])).
    split; [repeat constructor|]. split; [repeat constructor|discriminate].
  - eexists. split; [vm_compute; reflexivity|exact I].
Qed.

(** ** C81: numbers that are written read back *)

Theorem C81_repr : forall x, double x -> float_of_str (repr_float x) = Some x.
Proof. exact repr_reads. Qed.
Print Assumptions C81_repr.

Theorem C81_dataset_csv : forall t,
  Forall no_return (t_labels t) -> (forall u, In (Some u) (t_units t) -> no_return u) ->
  (forall row x, In row (t_data t) -> In (VFloat x) row -> double x) ->
  exists rows, csv_read (dataset_csv repr_float t)
    = Some (t_labels t :: map (fun u => match u with Some u => u | None => [] end) (t_units t) :: rows) /\
    Forall2 (Forall2 (fun c text => match c with VNone => text = [] | VFloat x => float_of_str text = Some x | VZero => float_of_str text = Some fzero end))
            (t_data t) rows.
Proof. exact dataset_csv_doubles. Qed.
Print Assumptions C81_dataset_csv.

(** Of the numbers in a DATA or COMMON section nothing need be supposed. *)
Theorem C81_section_csv : forall tag lines d, X4DataSection tag lines = Ok d ->
  Forall no_return (d_labels d) -> Forall no_return (d_units d) ->
  exists rows, csv_read (section_csv repr_float d) = Some (d_labels d :: d_units d :: rows) /\
    Forall2 (Forall2 (fun c text => match c with None => text = [] | Some x => float_of_str text = Some x end)) (d_data d) rows.
Proof. exact section_csv_doubles. Qed.
Print Assumptions C81_section_csv.

Definition third : float := fdiv (fl 1 0) (fl 3 0).
Example C81_example : double third /\ repr_float third = lit "0.3333333333333333" /\
  repr_float (fmul third (fl 1 (-5))) = lit "3.3333333333333333e-06" /\
  map repr_float [fl 1 22; fl 5 (-324); fl 17976931348623157 292; fl 15 (-1)] =
  map lit ["1e+22"; "5e-324"; "1.7976931348623157e+308"; "1.5"].
Proof. split; [|split; [|split]]; [|vm_compute; reflexivity..]. vm_compute. intuition discriminate. Qed.
Example C81_section_example :
  match X4DataSection (lit "DATA") (map lit ["DATA                 2          2"; "EN         DATA       "; "MEV        MB         ";
                                       " 1.0        1.234567-5"; " 2.5                  "; "ENDDATA              4"]) with
  | Ok d => section_csv repr_float d = lit "EN,DATA" ++ [nl] ++ lit "MEV,MB" ++ [nl] ++ lit "1.0,1.234567e-05" ++ [nl] ++ lit "2.5," ++ [nl]
  | Raise _ => False
  end.
Proof. vm_compute. reflexivity. Qed.
