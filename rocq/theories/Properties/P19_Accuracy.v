(** Property C84: how near the numbers of data sets come to the real numbers that are written. *)
From Coq Require Import String List Ascii NArith ZArith Bool Arith Reals Lra.
From Coq Require Import Floats.SpecFloat.
From Verif.Model Require Import Py PyFloat Utilities Dicts Particle Reaction Field Section Entry Columns Dataset Pyparsing Grammars Shipped.
From Verif.Spec Require Import Text Exfor Tables Merging Codes Balance Doubles Document Accuracy.
From Verif.Spec Require Readings.
From Verif.Proofs Require Import DocumentCheck ArithLemmas AccuracyLemmas AccurateDoc.
From Verif.Properties Require Import P15_Document.
Import ListNotations.
Local Open Scope string_scope.
Local Open Scope list_scope.
Local Open Scope nat_scope.

(** From the text of an entry to the real numbers: energies in MeV, cross sections and uncertainties in
    barns are what is written, times what the units are worth, but for one part in 2^50. *)
Theorem C84_cross_section : forall c e nm acos raw n num text text1 bib data r line h1 h2 hd q1 q2 qs a f b g w errs s ds errs' n' s',
  Forall particle_key (c_particles c) -> Forall compound_key (c_compounds c) -> e_g e = x4grammars c ->
  X4Entry e raw = Ok n -> getSimplifiedDataSets nm acos false n errs s = Ok (ds, errs', n', s') ->
  last_such (numbered num) raw text -> last_such (numbered (n_accnum n ++ tx "001")) raw text1 -> num <> n_accnum n ++ tx "001" ->
  sections_named text -> sections_named text1 ->
  has_section "BIB" text bib -> states_reaction bib r line -> good_reaction (c_particles c) r -> balances r ->
  kind (map PTok (quantities r)) CrossSection ->
  real_common text1 h1 q1 -> real_common text h2 q2 -> has_section "DATA" text data -> real_table data hd qs ->
  cross_section_columns (h1 ++ h2 ++ hd) a f b g w ->
  (exists row, In row qs /\ real_at (q1 ++ q2 ++ row) a <> None) ->
  (exists row, In row qs /\ real_at (q1 ++ q2 ++ row) b <> None) ->
  all_ordinary (q1 :: q2 :: qs) ->
  exists d rx R, dget key_eqb (n_accnum n, Some num, " "%char) ds = Some d /\
    ds_reaction d = Some (MRxn rx, PTok line) /\ tells r rx R /\ ds_class_of d = CrossSection /\ ds_simplified d = true /\
    Forall2 (fun cells row => Forall2 (agrees 50) cells (real_row (map (fun row => q1 ++ q2 ++ row) qs) a f b g w row))
            (t_data (ds_table d)) (map (fun row => q1 ++ q2 ++ row) qs).
Proof. exact doc_accurate. Qed.
Print Assumptions C84_cross_section.

(** One number in any unit of the table *)
Theorem C84_unit : forall text r un c f, denotes text r -> ordinary r -> In (un, c, f) unit_table ->
  exists x y, parseFORTRANNumber text = Ok (Some x) /\ in_unit f (Some x) = Some y /\ within 51 y (r * worth_of f).
Proof. exact unit_accurate. Qed.
Print Assumptions C84_unit.

(** The columns of data sets of any kind, as the table of readings (C79) takes them *)
Theorem C84_cell : forall acos w t i j un c f row x r, Readings.place w t = Some j -> Readings.cosines w t = false ->
  nth_error (t_units t) j = Some (Some (Readings.tx un)) -> In (un, c, f) unit_table ->
  nth_error (t_data t) i = Some row -> nth_error row j = Some (VFloat x) -> nearest r x -> ordinary r ->
  exists y, Readings.cell acos w t i = Some y /\ within 50 y (r * worth_of f * (if Readings.so_half w then / 2 else 1))%R.
Proof. exact cell_accurate. Qed.
Print Assumptions C84_cell.

(** The operations themselves give the double nearest to the exact result. *)
Theorem C84_operations : forall x y, double x -> finite x -> double y -> finite y ->
  ((Rabs (float_value x * float_value y) < overflow)%R -> nearest (float_value x * float_value y) (fmul x y)) /\
  ((Rabs (float_value x + float_value y) < overflow)%R -> nearest (float_value x + float_value y) (fadd x y)) /\
  ((Rabs (float_value x - float_value y) < overflow)%R -> nearest (float_value x - float_value y) (fsub x y)) /\
  (float_value y <> 0%R -> (Rabs (float_value x / float_value y) < overflow)%R -> nearest (float_value x / float_value y) (fdiv x y)) /\
  ((0 <= float_value x)%R -> nearest (sqrt (float_value x)) (fsqrt x)).
Proof.
  intros x y Dx Fx Dy Fy. split; [|split; [|split; [|split]]]; intros; apply rounds_nearest.
  - now apply fmul_rounds.
  - now apply fadd_rounds.
  - now apply fsub_rounds.
  - now apply fdiv_rounds.
  - now apply fsqrt_rounds.
Qed.
Print Assumptions C84_operations.

(** ** The entry of C78: 14700 keV on both rows; 440 mb with 5 percent, 460 mb *)

Definition q_energy : list (option R) := [Some 14700%R].
Definition q_rows : list (list (option R)) := [[Some 440; Some 5]; [Some 460; None]]%R.

Example C84_example : real_common main_text [("EN", "KEV")] q_energy /\ real_common data_text [] [] /\
  real_table data_lines [("DATA", "MB"); ("DATA-ERR", "PER-CENT")] q_rows /\ all_ordinary (q_energy :: [] :: q_rows).
Proof.
  split; [|split; [|split]].
  - right. exists common_lines. split; [apply has_sectionb; vm_compute; reflexivity|].
    apply (writtenb_as stands_for _ _ [[tx "1.4700E+04"]] 3); [vm_compute; reflexivity|].
    apply Forall2_cons; [|constructor]. apply Forall2_cons; [|constructor].
    replace 14700%R with (written_value SNone [1]%N (Some [4; 7; 0; 0]%N) (exp_value false [0; 4]%N))
      by (change (1 * 14700 * 1 = 14700)%R; lra).
    apply (denotes_E SNone [1]%N (Some [4; 7; 0; 0]%N) 0 false [0; 4]%N).
    + repeat split; try discriminate; repeat constructor.
    + repeat constructor.
    + discriminate.
  - left. split; [reflexivity|]. split; [reflexivity|]. apply no_sectionb. vm_compute. reflexivity.
  - apply (writtenb_as stands_for _ _ [[tx "440."; tx "5.0"]; [tx "4.6+02"; []]] 2); [vm_compute; reflexivity|].
    apply Forall2_cons; [|apply Forall2_cons; [|constructor]].
    + apply Forall2_cons; [|apply Forall2_cons; [|constructor]].
      * replace 440%R with (written_value SNone [4; 4; 0]%N (Some []) 0) by (change (1 * 440 * 1 = 440)%R; lra).
        apply (denotes_plain SNone [4; 4; 0]%N (Some [])). repeat split; try discriminate; repeat constructor.
      * replace 5%R with (written_value SNone [5]%N (Some [0]%N) 0) by (change (1 * 50 * / (10 * 1) = 5)%R; lra).
        apply (denotes_plain SNone [5]%N (Some [0]%N)). repeat split; try discriminate; repeat constructor.
    + apply Forall2_cons; [|apply Forall2_cons; [|constructor]]; [|reflexivity].
      replace 460%R with (written_value SNone [4]%N (Some [6]%N) (exp_value false [0; 2]%N)) by (change (1 * 46 * (10 * 1) = 460)%R; lra).
      apply (denotes_sign SNone [4]%N (Some [6]%N) 0 false [0; 2]%N).
      * repeat split; try discriminate; repeat constructor.
      * repeat constructor.
      * now right.
  - assert (P : forall k, (1 <= IZR k <= 100000)%R -> ordinary (IZR k)).
    { intros k H. right. rewrite Rabs_pos_eq by lra. split.
      - apply Rle_trans with (powerRZ 10 0); [apply DigitLemmas.p10_le; discriminate|cbn; lra].
      - apply Rle_trans with (powerRZ 10 5); [change (powerRZ 10 5) with (10 * (10 * (10 * (10 * (10 * 1)))))%R; lra|apply DigitLemmas.p10_le; discriminate]. }
    intros row r I J. cbn in I. repeat (destruct I as [<-|I]; [cbn in J; repeat (destruct J as [J|J]; [try discriminate; injection J as <-; apply P; lra|]); contradiction|]).
    contradiction.
Qed.
(** and what the cells are to be near: 14.7 MeV, 0.44 and 0.46 barns, 0.022 barns. *)
Example C84_reals : map (real_row (map (fun row => q_energy ++ [] ++ row) q_rows) 0 (1%N, (-3)%Z) 1 (1%N, (-3)%Z) (Percent 2))
    (map (fun row => q_energy ++ [] ++ row) q_rows)
  = [[Some 14.7; Some 0.44; Some 0.022]; [Some 14.7; Some 0.46; None]]%R.
Proof.
  unfold q_rows, q_energy, real_row, real_uncertainty, times, real_at, worth_of. cbn -[IZR Rmult Rdiv Rabs powerRZ].
  change (powerRZ 10 (-3)) with (/ (10 * (10 * (10 * 1))))%R. rewrite Rabs_pos_eq by lra. repeat f_equal; lra.
Qed.
