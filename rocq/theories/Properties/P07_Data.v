(** Properties C33-C37: DATA and COMMON sections. *)
From Coq Require Import String List Ascii NArith ZArith Bool Arith Sorted.
From Verif.Model Require Import Py PyFloat Utilities Section.
From Verif.Spec Require Import Text Exfor.
From Verif.Proofs Require Import StrLemmas DataLemmas.
Import ListNotations.
Local Open Scope string_scope.
Local Open Scope list_scope.
Local Open Scope nat_scope.

Definition table : list str := map lit
  ["DATA                 3          2";
   "EN         DATA      1DATA      2";
   "MEV        MB         MB         ";
   " 1.0        100.        2.5E+01  ";
   " 2.5        90.5                 ";
   "ENDDATA              4"].
(** Seven columns: two lines per row. *)
Definition wide : list str := map lit
  ["DATA                 7          1";
   "A          B          C          D          E          F          ";
   "G";
   "MEV        MEV        MEV        MEV        MEV        MEV        ";
   "MB";
   " 1.         2.         3.         4.         5.         6.        ";
   " 7.";
   "ENDDATA              6"].

(** C33.  Labels, units, rows and cells are as many as announced (a table announced with fewer
    than -1 rows is never accepted, one with -1 has no rows and no len()). *)
Theorem C33_data_shape : forall tag lines d, X4DataSection tag lines = Ok d ->
  (exists l0 rest w0 w1 w2 ws n0, lines = l0 :: rest /\ words (columns 0 33 l0) (w0 :: w1 :: w2 :: ws) /\
     int_of_str w1 = Some (d_numcols d) /\ int_of_str w2 = Some n0) /\
  length (d_labels d) = Z.to_nat (d_numcols d) /\ length (d_units d) = Z.to_nat (d_numcols d) /\
  length (d_data d) = Z.to_nat (d_numrows d) /\
  (forall row, In row (d_data d) -> length row = Z.to_nat (d_numcols d)) /\
  ((0 < d_numcols d)%Z -> (-1 <= d_numrows d)%Z) /\
  ((0 <= d_numrows d)%Z -> data_len d = Ok (d_numrows d)).
Proof. exact data_shape. Qed.
Print Assumptions C33_data_shape.

Example C33_example : exists d, X4DataSection (lit "DATA") table = Ok d /\
  d_numcols d = 3%Z /\ d_numrows d = 2%Z /\ map (@length _) (d_data d) = [3; 3] /\ d_labels d = map lit ["EN"; "DATA      1"; "DATA      2"].
Proof. eexists. split; [vm_compute; reflexivity|]. repeat split; vm_compute; reflexivity. Qed.

(** C34.  Every heading, unit and cell is what stands in its own eleven columns of its own line. *)
Theorem C34_data_cells : forall tag lines d nc, X4DataSection tag lines = Ok d -> d_numcols d = Z.of_nat nc ->
  Forall card lines -> forall j, j < nc ->
  let k := lines_per_row nc in
  (exists t, data_getitem d (inl (lit "LABELS")) (Z.of_nat j) = Ok (DText t) /\ table_cell lines 1 j t) /\
  (exists t, data_getitem d (inl (lit "UNITS")) (Z.of_nat j) = Ok (DText t) /\ table_cell lines (1 + k) j t) /\
  (forall i, i < Z.to_nat (d_numrows d) ->
     exists t v, table_cell lines (1 + (2 + i) * k) j t /\ parseFORTRANNumber t = Ok v /\
                 data_getitem d (inr (Z.of_nat i)) (Z.of_nat j) = Ok (DNum v)).
Proof. exact data_layout. Qed.
Print Assumptions C34_data_cells.

Example C34_example : Forall card wide /\ exists d,
  X4DataSection (lit "DATA") wide = Ok d /\ d_numcols d = Z.of_nat 7 /\ d_numrows d = 1%Z /\
  data_getitem d (inl (lit "LABELS")) 6 = Ok (DText (lit "G")) /\ d_raw d = [map lit ["1."; "2."; "3."; "4."; "5."; "6."; "7."]].
Proof.
  split.
  - apply Forall_forall. intros l I. cbn in I. unfold card.
    repeat (destruct I as [<-|I]; [split; [apply Nat.leb_le; vm_compute; reflexivity|
      cbn; intro J; repeat (destruct J as [J|J]; [discriminate|]); destruct J]|]). destruct I.
  - eexists. split; [vm_compute; reflexivity|]. repeat split; vm_compute; reflexivity.
Qed.

(** A 67th character on a line moves the columns of the next lines of the row. *)
Theorem C34_long_line_refuted : exists lines d line t,
  X4DataSection (lit "DATA") lines = Ok d /\ d_numcols d = 7%Z /\
  nth_error lines 2 = Some line /\ trimmed (columns 0 11 line) (lit "ABCDEFGHIJ1") /\
  data_getitem d (inl (lit "LABELS")) 6 = Ok (DText t) /\ t = lit "xABCDEFGHIJ".
Proof.
  exists (map lit
  ["DATA                 7          0";
   "A          B          C          D          E          F          x";
   "ABCDEFGHIJ1";
   "MEV        MEV        MEV        MEV        MEV        MEV        ";
   "MB"; "ENDDATA              6"]).
  do 3 eexists. split; [vm_compute; reflexivity|]. split; [reflexivity|]. split; [reflexivity|].
  split; [apply strip_iff; vm_compute; reflexivity|]. split; vm_compute; reflexivity.
Qed.
Print Assumptions C34_long_line_refuted.

(** C35.  The rows delivered account for every line, except under the third way of counting. *)
Theorem C35_rows_account_for_lines : forall tag lines d nc, X4DataSection tag lines = Ok d ->
  d_numcols d = Z.of_nat nc -> 0 < nc ->
  counts_rows (length lines) nc (d_numrows d) \/
  exists l0 rest w0 w1 w2 ws n0, lines = l0 :: rest /\ words (columns 0 33 l0) (w0 :: w1 :: w2 :: ws) /\
    int_of_str w2 = Some n0 /\
    ~ counts_rows (length lines) nc n0 /\ ~ counts_rows_and_headers (length lines) nc n0 /\ counts_lines (length lines) n0 /\
    Z.of_nat (length lines) = (1 + (d_numrows d + 3) * Z.of_nat (lines_per_row nc))%Z.
Proof. exact data_accounts. Qed.
Print Assumptions C35_rows_account_for_lines.

(** The number of rows is the one announced, under the first two. *)
Theorem C35_rows_announced : forall tag lines d nc l0 rest w0 w1 w2 ws n0, X4DataSection tag lines = Ok d ->
  d_numcols d = Z.of_nat nc -> 0 < nc -> lines = l0 :: rest -> words (columns 0 33 l0) (w0 :: w1 :: w2 :: ws) ->
  int_of_str w2 = Some n0 ->
  (counts_rows (length lines) nc n0 -> d_numrows d = n0) /\
  (~ counts_rows (length lines) nc n0 -> counts_rows_and_headers (length lines) nc n0 -> d_numrows d = n0 - 2)%Z.
Proof. exact data_announced. Qed.
Print Assumptions C35_rows_announced.

(** Any other number of lines is refused. *)
Theorem C35_other_counts_refused : forall tag l0 rest w0 w1 w2 ws nc n0,
  words (columns 0 33 l0) (w0 :: w1 :: w2 :: ws) -> int_of_str w1 = Some (Z.of_nat nc) -> 0 < nc ->
  int_of_str w2 = Some n0 ->
  let len := length (l0 :: rest) in
  ~ counts_rows len nc n0 -> ~ counts_rows_and_headers len nc n0 -> ~ counts_lines len n0 ->
  X4DataSection tag (l0 :: rest) = Raise IndexError.
Proof. exact data_refused. Qed.
Print Assumptions C35_other_counts_refused.

Example C35_example :
  counts_rows (length wide) 7 1 /\
  X4DataSection (lit "DATA") (firstn 5 table) = Raise IndexError /\
  words (columns 0 33 (lit "DATA                 3          2")) [lit "DATA"; lit "3"; lit "2"].
Proof. split; [reflexivity|]. split; [vm_compute; reflexivity|]. apply (split_words (lit "DATA                 3          2")). Qed.

(** Third way, two lines per row, an odd number of lines: the last line is dropped silently. *)
Theorem C35_dropped_line_refuted : exists lines d lost,
  X4DataSection (lit "DATA") lines = Ok d /\ d_numcols d = 7%Z /\ nth_error lines 7 = Some lost /\
  lost = lit " 9.99" /\ nth_error lines 8 = Some (lit "ENDDATA              6") /\ d_numrows d = 1%Z /\
  d_raw d = [map lit ["1."; "2."; "3."; "4."; "5."; "6."; "7."]].
Proof.
  exists (map lit ["DATA                 7          7";
   "A          B          C          D          E          F          ";
   "G";
   "MEV        MEV        MEV        MEV        MEV        MEV        ";
   "MB";
   " 1.         2.         3.         4.         5.         6.        ";
   " 7.";
   " 9.99";
   "ENDDATA              6"]).
  do 2 eexists. split; [vm_compute; reflexivity|]. repeat split.
Qed.
Print Assumptions C35_dropped_line_refuted.

(** C36.  When no two headings with a pointer are equal, pointers[p] is the increasing list of the
    columns whose heading carries p. *)
Theorem C36_pointer_columns : forall tag lines d, X4DataSection tag lines = Ok d ->
  (forall i j l p, nth_error (d_labels d) i = Some l -> nth_error (d_labels d) j = Some l -> heading_pointer l p -> i = j) ->
  forall p cols, dget Ascii.eqb p (d_pointers d) = Some cols <->
    cols <> [] /\ StronglySorted lt cols /\
    forall j, In j cols <-> exists l, nth_error (d_labels d) j = Some l /\ heading_pointer l p.
Proof. exact data_pointers. Qed.
Print Assumptions C36_pointer_columns.

Example C36_example : exists d, X4DataSection (lit "DATA") table = Ok d /\
  d_pointers d = [("1"%char, [1]); ("2"%char, [2])] /\
  (forall i j l p, nth_error (d_labels d) i = Some l -> nth_error (d_labels d) j = Some l -> heading_pointer l p -> i = j).
Proof.
  eexists. split; [vm_compute; reflexivity|]. split; [reflexivity|].
  intros i j l p H1 H2 _. revert H1 H2. cbn [d_labels].
  destruct i as [|[|[|[|i]]]]; destruct j as [|[|[|[|j]]]]; cbn; intros H1 H2; congruence.
Qed.

(** Two columns with the same heading and pointer: the first is listed twice. *)
Theorem C36_equal_headings_refuted : exists lines d, X4DataSection (lit "DATA") lines = Ok d /\
  (exists l, nth_error (d_labels d) 1 = Some l /\ heading_pointer l "1") /\
  dget Ascii.eqb "1"%char (d_pointers d) = Some [0; 0].
Proof.
  exists (map lit ["DATA                 2          0"; "DATA      1DATA      1"; "MB         MB"; "ENDDATA              2"]).
  eexists. split; [vm_compute; reflexivity|]. split; [|vm_compute; reflexivity].
  exists (lit "DATA      1"). repeat split.
Qed.
Print Assumptions C36_equal_headings_refuted.

(** C37.  Up to six columns, printing and reading back gives the same section. *)
Theorem C37_data_roundtrip : forall tag lines d nc nr, X4DataSection tag lines = Ok d ->
  d_numcols d = Z.of_nat nc -> 1 <= nc <= 6 -> d_numrows d = Z.of_nat nr -> (Z.of_nat nr < 10 ^ 10)%Z ->
  Forall (fun c => ~ white c) tag -> tag <> [] -> length tag <= 10 ->
  X4DataSection tag (split_char nl (data_repr d)) = Ok d.
Proof. exact data_roundtrip_white. Qed.
Print Assumptions C37_data_roundtrip.

Example C37_example : exists d, X4DataSection (lit "DATA") table = Ok d /\
  d_numcols d = Z.of_nat 3 /\ d_numrows d = Z.of_nat 2 /\
  split_char nl (data_repr d) <> table /\ X4DataSection (lit "DATA") (split_char nl (data_repr d)) = Ok d.
Proof.
  eexists. split; [vm_compute; reflexivity|]. split; [reflexivity|]. split; [reflexivity|].
  split; [vm_compute; discriminate|vm_compute; reflexivity].
Qed.

(** With seven columns repr writes rows of 77 characters, which are refused. *)
Theorem C37_wide_table_refuted : exists lines d, X4DataSection (lit "DATA") lines = Ok d /\ d_numcols d = 7%Z /\
  X4DataSection (lit "DATA") (split_char nl (data_repr d)) = Raise IndexError.
Proof. exists wide. eexists. split; [vm_compute; reflexivity|]. split; vm_compute; reflexivity. Qed.
Print Assumptions C37_wide_table_refuted.
