(** Properties C82 and C83: the printed tables of data sets and of DATA and COMMON sections can be
    read back, as far as the columns are wide enough. *)
From Coq Require Import String List Ascii NArith ZArith Bool Arith Reals Lra.
From Coq Require Import Floats.SpecFloat.
From Verif.Model Require Import Py PyFloat Utilities Dicts Particle Reaction Field Section Entry Columns Dataset Repr Print.
From Verif.Spec Require Import Text Exfor Doubles Printing.
From Verif.Proofs Require Import DigitLemmas PrintLemmas PrintCheck.
From Verif.Properties Require Import P15_Document.
Import ListNotations.
Local Open Scope string_scope.
Local Open Scope list_scope.
Local Open Scope nat_scope.

(** ** C82: str of a data set *)

(** The text consists of comment lines, one line per row and a blank line; the words of the line of a
    row are its cells: None for a missing one, and numbers that read as the cell up to the twelfth
    digit. *)
Theorem C82_reads_back : forall nm d text, dataset_str nm d = Ok text -> header_ok nm d -> table_ok (ds_table d) ->
  (forall row x, In row (t_data (ds_table d)) -> In (VFloat x) row -> double x /\ length (cell_str (VFloat x)) < 14) ->
  exists comments rows last, text_lines text (comments ++ rows ++ [last]) /\ Forall comment_line comments /\ blank last /\
    Forall2 (fun row line => exists ws, words line ws /\ Forall2 cell_read row ws) (t_data (ds_table d)) rows.
Proof. exact dataset_prints. Qed.
Print Assumptions C82_reads_back.

(** With numbers of at most seven digits, neither tiny nor large, there is room and nothing is lost. *)
Theorem C82_reads_back_exactly : forall nm d text, dataset_str nm d = Ok text -> header_ok nm d -> table_ok (ds_table d) ->
  (forall row x, In row (t_data (ds_table d)) -> In (VFloat x) row -> short_number 7 x) ->
  exists comments rows last, text_lines text (comments ++ rows ++ [last]) /\ Forall comment_line comments /\ blank last /\
    Forall2 (fun row line => exists ws, words line ws /\ Forall2 cell_read_exactly row ws) (t_data (ds_table d)) rows.
Proof. exact dataset_prints_short. Qed.
Print Assumptions C82_reads_back_exactly.

(** *** Examples *)

Definition nm82 : names := mkNames [] [(lit "SIG", [lit "Cross section"])] [].
Definition key82 : ds_key := (lit "10001", Some (lit "10001002"), " "%char).
Definition set_of (texts : list str) : option dataset :=
  match X4Entry e1 texts with
  | Ok n => match getSimplifiedDataSets nm82 (fun x => Some x) false n [] store0 with
            | Ok (ds, _, _, _) => dget key_eqb key82 ds
            | Raise _ => None
            end
  | Raise _ => None
  end.
(** The entry of C78 *)
Definition printed82 : str := text_of
  ["#  Authors:   A.Smith";
   "#  Title:     Cross Sections Of Iron";
   "#  Year:      None";
   "#  Institute: None";
   "#  Reference: None";
   "#  Subent:    10001002";
   "#  Reaction:  Cross section for 56Fe(n,2n)55Fe activation";
   "#        Energy        Data          d(Data)       ";
   "#        MeV           barns         barns         ";
   "        14.7          0.44          0.022         ";
   "        14.7          0.46          None          ";
   "        "].
Example C82_example : exists d, set_of [main_text; data_text] = Some d /\
  dataset_str nm82 d = Ok printed82 /\ header_ok nm82 d /\ table_ok (ds_table d) /\
  (forall row x, In row (t_data (ds_table d)) -> In (VFloat x) row -> double x /\ length (cell_str (VFloat x)) < 14).
Proof.
  assert (X : match set_of [main_text; data_text] with
              | Some d => dataset_str nm82 d = Ok printed82 /\ header_okb nm82 d && table_okb (ds_table d) && cellsb 14 (ds_table d) = true
              | None => False end) by (vm_compute; split; reflexivity).
  destruct (set_of [main_text; data_text]) as [d|] eqn:E; [|destruct X]. destruct X as [T X]. rewrite !andb_true_iff in X.
  destruct X as [[A B] C]. exists d. split; [reflexivity|]. split; [exact T|]. split; [apply header_okb_ok, A|].
  split; [apply table_okb_ok, B|apply cellsb_ok, C].
Qed.

(** 14.7 is short; 14700 keV, converted, is the next double, 14.700000000000001. *)
Example C82_short : short_number 7 (fl 147 (-1)) /\ short_number 4 (SFopp (fl 1234 (-8))) /\
  repr_float (fmul (fl 147 2) (fl 1 (-3))) = lit "14.700000000000001" /\
  cell_str (VFloat (fmul (fl 147 2) (fl 1 (-3)))) = lit "14.7".
Proof.
  split; [|split; [|split; vm_compute; reflexivity]]; right.
  - exists (mkDec false 147 (-1)). split; [vm_compute; reflexivity|]. split; [vm_compute; reflexivity|].
    replace (dec_value (mkDec false 147 (-1))) with (147 / 10)%R by (unfold dec_value; cbn [dneg dman dexp Z.of_N powerRZ]; change (Pos.to_nat 1) with 1; cbn [pow]; lra).
    rewrite Rabs_pos_eq by lra. split; [|replace (powerRZ 10 (7 + 3)) with 10000000000%R by (cbn -[pow IZR]; change (Pos.to_nat 10) with 10; cbn [pow]; lra); lra].
    apply Rle_trans with (powerRZ 10 0); [|cbn; lra]. apply DigitLemmas.p10_le. discriminate.
  - exists (mkDec true 1234 (-8)). split; [vm_compute; reflexivity|]. split; [vm_compute; reflexivity|].
    replace (dec_value (mkDec true 1234 (-8))) with (-(1234 / 100000000))%R by (unfold dec_value; cbn [dneg dman dexp Z.of_N powerRZ]; change (Pos.to_nat 8) with 8; cbn [pow]; lra).
    rewrite Rabs_Ropp, Rabs_pos_eq by lra. split; [|replace (powerRZ 10 (4 + 3)) with 10000000%R by (cbn -[pow IZR]; change (Pos.to_nat 7) with 7; cbn [pow]; lra); lra].
    apply Rle_trans with (powerRZ 10 (-5)); [|cbn -[pow IZR Rdiv Rinv]; change (Pos.to_nat 5) with 5; cbn [pow]; lra]. apply DigitLemmas.p10_le. discriminate.
Qed.

(** The columns run together: an energy of 12.3456789 eV and a cross section of 440 mb *)
Definition main_only : str := text_of
  ["SUBENT        10001001   20200101";
   "BIB                  1          1";
   "AUTHOR     (A.Smith)";
   "ENDBIB               1";
   "NOCOMMON             0          0";
   "ENDSUBENT            6"].
Definition narrow_text : str := text_of
  ["SUBENT        10001002   20200101";
   "BIB                  1          1";
   "REACTION   (26-FE-56(N,2N)26-FE-55,,SIG)";
   "ENDBIB               1";
   "NOCOMMON             0          0";
   "DATA                 2          1";
   "EN         DATA";
   "EV         MB";
   " 12.3456789 440.";
   "ENDDATA              3";
   "ENDSUBENT           10"].
Definition narrow_lines : list str := map lit
  ["#  Authors:   A.Smith";
   "#  Title:     None";
   "#  Year:      None";
   "#  Institute: None";
   "#  Reference: None";
   "#  Subent:    10001002";
   "#  Reaction:  Cross section for 56Fe(n,2n)55Fe ";
   "#        Energy        Data          ";
   "#        MeV           barns         ";
   "        1.23456789e-050.44          ";
   "        "].
Theorem C82_columns_run_together_refuted : exists d text ls row,
  set_of [main_only; narrow_text] = Some d /\ dataset_str nm82 d = Ok text /\ header_ok nm82 d /\ table_ok (ds_table d) /\
  text_lines text ls /\ In row (t_data (ds_table d)) /\
  Forall (fun line => comment_line line \/ (forall ws, words line ws -> length ws < length row)) ls.
Proof.
  assert (X : match set_of [main_only; narrow_text] with
              | Some d => dataset_str nm82 d = Ok (join [nl] narrow_lines) /\
                          header_okb nm82 d && table_okb (ds_table d) && linesb (join [nl] narrow_lines) narrow_lines
                          && forallb (gluedb 2) narrow_lines = true
                          /\ map (@length dcell) (t_data (ds_table d)) = [2]
              | None => False end) by (vm_compute; repeat split; reflexivity).
  destruct (set_of [main_only; narrow_text]) as [d|]; [|destruct X]. destruct X as (T & X & L). rewrite !andb_true_iff in X.
  destruct X as [[[A B] C] D]. destruct (t_data (ds_table d)) as [|row data] eqn:R; [discriminate|]. injection L as L _.
  exists d, (join [nl] narrow_lines), narrow_lines, row. rewrite R, L. split; [reflexivity|]. split; [exact T|].
  split; [apply header_okb_ok, A|]. split; [apply table_okb_ok, B|]. split; [apply linesb_ok, C|]. split; [now left|].
  rewrite forallb_forall in D. apply Forall_forall. intros l I. apply gluedb_ok, D, I.
Qed.
Print Assumptions C82_columns_run_together_refuted.

(** ** C83: str of a DATA or COMMON section *)

(** After the first line, the headings and the units comes one line per row, and the words of the line
    of a row are its cells: None for a missing one, and numbers that read as exactly the cell. *)
Theorem C83_reads_back : forall tag lines d, X4DataSection tag lines = Ok d -> one_line tag ->
  Forall one_line (d_labels d) -> Forall one_line (d_units d) ->
  (forall row x, In row (d_data d) -> In (Some x) row -> length (repr_float x) < 11) ->
  exists first labels units rows last,
    text_lines (data_str d) (first :: labels :: units :: rows ++ [last]) /\
    Forall2 (fun row line => exists ws, words line ws /\ Forall2 number_read row ws) (d_data d) rows.
Proof. exact section_prints. Qed.
Print Assumptions C83_reads_back.

(** Numbers of at most four digits have room. *)
Theorem C83_reads_back_short : forall tag lines d, X4DataSection tag lines = Ok d -> one_line tag ->
  Forall one_line (d_labels d) -> Forall one_line (d_units d) ->
  (forall row x, In row (d_data d) -> In (Some x) row -> short_number 4 x) ->
  exists first labels units rows last,
    text_lines (data_str d) (first :: labels :: units :: rows ++ [last]) /\
    Forall2 (fun row line => exists ws, words line ws /\ Forall2 number_read row ws) (d_data d) rows.
Proof. exact section_prints_short. Qed.
Print Assumptions C83_reads_back_short.

Definition lines83 (a b : string) : list str := map lit
  ["DATA                 2          2"; "EN         DATA       "; "MEV        MB         "; a; b; "ENDDATA              4"].
Example C83_example :
  match X4DataSection (lit "DATA") (lines83 " 1.0        1.234-5" " 2.5                  ") with
  | Ok d => data_str d = join [nl] (map lit
      ["DATA                 2          2"; "EN         DATA       "; "MEV        MB         ";
       "1.0        1.234e-05  "; "2.5        None       "; "ENDDATA              4"]) /\
      forallb one_lineb (d_labels d ++ d_units d) = true /\
      forallb (forallb (fun x => match x with Some x => length (repr_float x) <? 11 | None => true end)) (d_data d) = true
  | Raise _ => False
  end.
Proof. vm_compute. auto. Qed.

(** 1.23456-05 in the first column takes eleven characters, and the second column follows at once. *)
Definition glued83 : list str := map lit
  ["DATA                 2          2"; "EN         DATA       "; "MEV        MB         ";
   "1.23456e-0510.0       "; "2.5        20.0       "; "ENDDATA              4"].
Theorem C83_columns_run_together_refuted : exists d ls row line,
  X4DataSection (lit "DATA") (lines83 " 1.23456-05 10." " 2.5        20.") = Ok d /\
  text_lines (data_str d) ls /\ nth_error (d_data d) 0 = Some row /\ nth_error ls 3 = Some line /\
  (forall ws, words line ws -> length ws < length row).
Proof.
  destruct (X4DataSection (lit "DATA") (lines83 " 1.23456-05 10." " 2.5        20.")) as [d|] eqn:E; [|vm_compute in E; discriminate].
  assert (X : match X4DataSection (lit "DATA") (lines83 " 1.23456-05 10." " 2.5        20.") with
              | Ok d => linesb (data_str d) glued83 = true /\ option_map (@length (option float)) (nth_error (d_data d) 0) = Some 2
              | Raise _ => False end) by (vm_compute; split; reflexivity).
  rewrite E in X. destruct X as [A B]. destruct (nth_error (d_data d) 0) as [row|] eqn:R; [|discriminate].
  exists d, glued83, row, (nth 3 glued83 []). split; [reflexivity|]. split; [apply linesb_ok, A|]. split; [exact R|].
  split; [reflexivity|]. intros ws W. injection B as ->.
  assert (G : gluedb 2 (nth 3 glued83 []) = true) by (vm_compute; reflexivity). apply gluedb_ok in G. destruct G as [[r G]|G]; [discriminate|].
  apply G, W.
Qed.
Print Assumptions C83_columns_run_together_refuted.
