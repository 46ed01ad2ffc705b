(** Properties C38-C45, C47 and C63-C65: column parsers, units, uncertainties, simplification. *)
From Coq Require Import String List Ascii NArith ZArith Bool Arith.
From Coq Require Import Floats.SpecFloat.
From Verif.Model Require Import Py PyFloat Utilities Dicts Particle Reaction Field Section Entry Columns Dataset.
From Verif.Spec Require Import Text Tables DataSets.
From Verif.Proofs Require Import ColumnLemmas SimplifyLemmas UnitLemmas ValueLemmas TableLemmas SimpleLemmas ErrorLemmas HistoryLemmas ReadingLemmas.
Import ListNotations.
Local Open Scope string_scope.
Local Open Scope list_scope.
Local Open Scope nat_scope.

(** ** Tables for the examples *)

Definition headed (columns : list (string * string)) (rows : list (list dcell)) : table :=
  mkTable (map (fun c => lit (fst c)) columns) (map (fun c => Some (lit (snd c))) columns) rows.
Definition v (m : N) (e : Z) : dcell := VFloat (fl m e).
Definition cross_section (t : table) : dataset := mkDS CrossSection no_meta None None t false false None.
Definition no_acos : float -> option float := fun _ => None.

(** Two rows: 1.5 MeV, 250 mb +- 4 %, and 2 MeV, no value. *)
Definition ordinary : table :=
  headed [("EN", "KEV"); ("DATA", "MB"); ("DATA-ERR", "PER-CENT")] [[v 1500 0; v 250 0; v 4 0]; [v 2000 0; VNone; v 4 0]].
Lemma ordinary_ok : table_ok ordinary.
Proof. split; [reflexivity|]. split; repeat first [apply Forall_nil | apply Forall_cons; [first [discriminate | reflexivity]|]]. Qed.
Lemma ordinary_plain : plain_table ordinary.
Proof.
  split; [apply ordinary_ok|]. intros l I (a & b & E).
  assert (C : contains (lit "COS") l = true) by (rewrite E; apply mentions_contains). clear E.
  cbn in I. repeat (destruct I as [<-|I]; [vm_compute in C; discriminate C|]). contradiction.
Qed.

(** ** C38: parsers do not remember previous data sets *)

Theorem C38_value_no_memory : forall acos p d s1 s2, fst (run (getValue acos p d) s1) = fst (run (getValue acos p d) s2).
Proof. exact getValue_no_memory. Qed.
Print Assumptions C38_value_no_memory.
Theorem C38_error_no_memory : forall acos p d s1 s2, fst (run (getError acos p d) s1) = fst (run (getError acos p d) s2).
Proof. exact getError_no_memory. Qed.
Print Assumptions C38_error_no_memory.
Theorem C38_match_no_memory : forall p d s1 s2, fst (run (isMatch p d) s1) = fst (run (isMatch p d) s2).
Proof. exact isMatch_no_memory. Qed.
Print Assumptions C38_match_no_memory.
(** Whatever data sets were simplified before. *)
Theorem C38_simplified_no_memory : forall acos history mk fl d s,
  fst (run (getSimplified acos mk fl d) (fold_left (fun s c => snd (run (getSimplified acos (fst (fst c)) (snd (fst c)) (snd c)) s)) history s))
  = fst (run (getSimplified acos mk fl d) s).
Proof. exact getSimplified_history. Qed.
Print Assumptions C38_simplified_no_memory.

(** The attributes do change: there is something to remember. *)
Example C38_example : let s := snd (run (getSimplified no_acos false false (cross_section ordinary)) store0) in
  s 0 1 <> store0 0 1 /\ s 19 2 <> store0 19 2.
Proof. vm_compute. split; discriminate. Qed.

(** ** C39: but two threads disturb each other *)

(** Thread 1 reads EN from column 0, until thread 2, whose EN is in column 2, moves the shared
    attribute: thread 1 reports the values of EN-MEAN. *)
Definition thread1 : dataset :=
  cross_section (headed [("EN", "MEV"); ("DATA", "B"); ("EN-MEAN", "MEV")] [[v 1 0; v 10 0; v 2 0]]).
Definition thread2 : dataset :=
  cross_section (headed [("DATA", "B"); ("MISC", "NO-DIM"); ("EN", "MEV")] [[v 20 0; v 0 0; v 3 0]]).
Theorem C39_threads_refuted : exists schedule d1 d2 s r1 r2 s',
  interleave schedule (getSimplified no_acos false false d1) (getSimplified no_acos false false d2) s = (Ret r1, Ret r2, s') /\
  r1 <> fst (run (getSimplified no_acos false false d1) s) /\ exists d, r1 = Ok d.
Proof.
  exists (repeat true 25 ++ repeat false 300 ++ repeat true 300), thread1, thread2, store0.
  eexists. eexists. eexists. split; [vm_compute; reflexivity|]. split; [vm_compute; discriminate|eexists; reflexivity].
Qed.
Print Assumptions C39_threads_refuted.

(** It is safe if the two data sets have the same headings: for every schedule. *)
Theorem C39_threads_same_headings : forall acos mk1 fl1 mk2 fl2 d1 d2 schedule s r1 r2 s',
  t_labels (ds_table d1) = t_labels (ds_table d2) -> t_units (ds_table d1) = t_units (ds_table d2) ->
  interleave schedule (getSimplified acos mk1 fl1 d1) (getSimplified acos mk2 fl2 d2) s = (Ret r1, Ret r2, s') ->
  r1 = fst (run (getSimplified acos mk1 fl1 d1) s) /\ r2 = fst (run (getSimplified acos mk2 fl2 d2) s).
Proof. exact threads_alone. Qed.
Print Assumptions C39_threads_same_headings.
Example C39_example : exists r1 r2 s',
  interleave (repeat true 25 ++ repeat false 300 ++ repeat true 300) (getSimplified no_acos false false (cross_section ordinary))
    (getSimplified no_acos true false (cross_section ordinary)) store0 = (Ret (Ok r1), Ret (Ok r2), s').
Proof. do 3 eexists. vm_compute. reflexivity. Qed.

(** ** C40: units *)

Theorem C40_factor_listed : forall u c m x, In (u, c, (m, x)) unit_table -> getConversion (Some (lit u)) = Ok (fl m x, lit c).
Proof. exact conversion_listed. Qed.
Print Assumptions C40_factor_listed.
Theorem C40_factor_unlisted : forall u,
  (forall e, In e unit_table -> u <> lit (fst (fst e))) -> (forall o, In o odd_units -> u <> lit o) ->
  getConversion (Some u) = Ok (fl 1 0, u).
Proof. exact conversion_unlisted. Qed.
Print Assumptions C40_factor_unlisted.
(** Degrees per radian, also for steradians; and MeV per kelvin (not quite Boltzmann's constant,
    which is 8.617333e-11). *)
Theorem C40_factor_odd : getConversion (Some (lit "RAD")) = Ok (fdiv (fl 180 0) pi, lit "degrees") /\
  getConversion (Some (lit "SR")) = Ok (fdiv (fl 180 0) pi, lit "degrees") /\
  getConversion (Some (lit "K")) = Ok (fl 8621738 (-17), lit "MeV").
Proof. exact conversion_odd. Qed.
Print Assumptions C40_factor_odd.
Theorem C40_factor_canonical : forall c, In c canonical_units -> getConversion (Some (lit c)) = Ok (fl 1 0, lit c).
Proof. exact conversion_canonical. Qed.
Print Assumptions C40_factor_canonical.
Theorem C40_canonical_reached : forall u c m x, In (u, c, (m, x)) unit_table -> In c canonical_units.
Proof. exact canonical_listed. Qed.
Print Assumptions C40_canonical_reached.

(** A parser takes the first column with one of its labels and one of its units ... *)
Theorem C40_isMatch : forall c d j, table_ok d ->
  (cp_isMatch c (Z.of_nat j) d = Ok true <-> suits c d j) /\ (cp_isMatch c (Z.of_nat j) d = Ok false <-> ~ suits c d j).
Proof. exact matching_column. Qed.
Print Assumptions C40_isMatch.
Theorem C40_firstMatch : forall c d, table_ok d ->
  (forall j, firstMatch c d = Ok (Z.of_nat j) <-> first_such (suits c d) j) /\ (firstMatch c d = Ok (-1)%Z <-> forall j, ~ suits c d j).
Proof. exact first_matching_column. Qed.
Print Assumptions C40_firstMatch.
(** ... and converts it ... *)
Theorem C40_column : forall acos c d j, table_ok d -> suits c d j -> no_cosine c d j ->
  exists l u f canonical col,
    nth_error (t_labels d) j = Some l /\ nth_error (t_units d) j = Some (Some u) /\ getConversion (Some u) = Ok (f, canonical) /\
    getColumn acos c (Z.of_nat j) d = Ok col /\ c_label col = Some l /\ c_unit col = Some canonical /\
    length (c_cells col) = length (t_data d) /\
    forall i row x, nth_error (t_data d) i = Some row -> nth_error row j = Some x -> at_row i (c_cells col) = converted c f (number x).
Proof. exact column_converted. Qed.
Print Assumptions C40_column.
(** ... leaving numbers in a canonical unit as they are ... *)
Theorem C40_column_canonical : forall acos c d j u, table_ok d -> suits c d j -> no_cosine c d j ->
  In u canonical_units -> nth_error (t_units d) j = Some (Some (lit u)) -> cp_scale c = fl 1 0 -> cp_offset c = fzero ->
  exists col, getColumn acos c (Z.of_nat j) d = Ok col /\ c_unit col = Some (lit u) /\
    forall i row x, nth_error (t_data d) i = Some row -> nth_error row j = Some (VFloat x) -> is_double x -> x <> S754_zero true ->
      at_row i (c_cells col) = Some x.
Proof. exact column_canonical. Qed.
Print Assumptions C40_column_canonical.
(** ... and turning cosines into degrees, where they have an inverse cosine. *)
Theorem C40_column_cosine : forall acos c d j l, table_ok d -> suits c d j -> cp_angle c = true ->
  nth_error (t_labels d) j = Some l -> mentions_cos l -> (forall x, acos x <> None) ->
  exists col, getColumn acos c (Z.of_nat j) d = Ok col /\ c_label col = Some l /\ c_unit col = Some (lit "degrees") /\
    length (c_cells col) = length (t_data d) /\
    forall i row x, nth_error (t_data d) i = Some row -> nth_error row j = Some x ->
      at_row i (c_cells col) =
        match number x with
        | None => None
        | Some x => option_map (fun a => fmul a (fdiv (fl 180 0) pi)) (acos (fadd (fmul x (cp_scale c)) (cp_offset c)))
        end.
Proof. exact column_cosine. Qed.
Print Assumptions C40_column_cosine.

Definition energy_column : colparser := cp (with_suffixes "EN" variableSuffix) energyUnits.
Example C40_example : suits energy_column ordinary 0 /\ no_cosine energy_column ordinary 0 /\
  getColumn no_acos energy_column 0%Z ordinary =
    Ok (mkColumn (Some (lit "EN")) (Some (lit "MeV"))
          [Some (fadd (fmul (fmul (fl 1500 0) (fl 1 (-3))) (fl 1 0)) fzero); Some (fadd (fmul (fmul (fl 2000 0) (fl 1 (-3))) (fl 1 0)) fzero)]).
Proof.
  split; [|split].
  - split; [exists (lit "EN"); split; [reflexivity|]|].
    + intros ls E. injection E as <-. now left.
    + intros us E. injection E as <-. exists (lit "KEV"). split; [reflexivity|]. right. right. now left.
  - now left.
  - vm_compute. reflexivity.
Qed.

(** ** C41: uncertainties *)

Theorem C41_not_negative : forall acos mk fl d s d' j name row i cell, ds_simplified d = false ->
  fst (run (getSimplified acos mk fl d) s) = Ok d' -> wanted_columns (ds_class_of d) <> [] ->
  nth_error (t_labels (ds_table d')) j = Some (uncertainty_label name) ->
  nth_error (t_data (ds_table d')) i = Some row -> nth_error row j = Some cell ->
  cell = VNone \/ exists x, cell = VFloat x /\ not_negative x.
Proof. exact simplified_no_sign. Qed.
Print Assumptions C41_not_negative.
Theorem C41_parser_error_not_negative : forall acos p d s col i x,
  fst (run (getError acos p d) s) = Ok col -> at_row i (c_cells col) = Some x -> not_negative x.
Proof. exact negative_error. Qed.
Print Assumptions C41_parser_error_not_negative.
(** Even for a negative cross section. *)
Example C41_example : exists d' row,
  fst (run (getSimplified no_acos false false (cross_section
     (headed [("EN", "MEV"); ("DATA", "B"); ("DATA-ERR", "PER-CENT")] [[v 1 0; VFloat (SFopp (fl 4 0)); v 50 0]]))) store0) = Ok d' /\
  nth_error (t_labels (ds_table d')) 2 = Some (uncertainty_label (lit "Data")) /\
  nth_error (t_data (ds_table d')) 0 = Some row /\ nth_error row 1 = Some (VFloat (SFopp (fl 4 0))) /\ nth_error row 2 = Some (v 2 0).
Proof. do 2 eexists. split; [vm_compute; reflexivity|]. split; [vm_compute; reflexivity|]. split; [reflexivity|]. split; vm_compute; reflexivity. Qed.

(** ** C42: full columns *)

Theorem C42_full_column : forall acos p d s col,
  (fst (run (getValue acos p d) s) = Ok col \/ fst (run (getError acos p d) s) = Ok col) ->
  length (c_cells col) = length (t_data d) /\ forall i x, at_row i (c_cells col) = Some x -> c_unit col <> None.
Proof. exact full_columns. Qed.
Print Assumptions C42_full_column.
(** Every parser in the tables gives a column for every good table (C45 and cosines out of range apart). *)
Theorem C42_always_column : forall acos p d s, table_ok d -> cosines_defined acos d -> ~ barns_root_energy d -> (exists c e, In e (parser_map c) /\ In p (snd e)) ->
  (exists col, fst (run (getValue acos p d) s) = Ok col) /\ (exists col, fst (run (getError acos p d) s) = Ok col).
Proof. exact columns_read_total. Qed.
Print Assumptions C42_always_column.
Theorem C42_average : forall (x y : list (option float)), length x = length y ->
  exists c, averageColumns x y = Ok c /\ length c = length x /\
    forall i, i < length x -> at_row i c = match at_row i x, at_row i y with
                                         | Some u, Some v => Some (fmul (fl 5 (-1)) (fadd u v))
                                         | Some u, None => Some u
                                         | None, v => v
                                         end.
Proof. exact averaged. Qed.
Print Assumptions C42_average.
Example C42_example : table_ok ordinary /\ (forall acos, cosines_defined acos ordinary) /\ ~ barns_root_energy ordinary /\
  fst (run (getError no_acos (nth 0 csDataParserList (0, MissingError energy_column)) ordinary) store0)
    = Ok (mkColumn (Some (lit "DATA-ERR")) (Some (lit "barns")) [Some (fl 1 (-2)); None]).
Proof.
  split; [apply ordinary_plain|]. split; [intro; apply plain_cosines, ordinary_plain|]. split; [|vm_compute; reflexivity].
  intros (j & (l & El & Hl) & Hu). destruct (Hu _ eq_refl) as (u & Eu & Iu).
  destruct j as [|[|[|j]]]; cbn in Eu; [..|destruct j; discriminate]; injection Eu as <-; cbn in Iu; repeat (destruct Iu as [Iu|Iu]; [discriminate Iu|]); contradiction.
Qed.

(** ** C43: the first column with a value *)

Theorem C43_condense : forall n cols, cols <> [] -> Forall (fun c => length (c_cells c) = n) cols ->
  exists c, reduce_res condenseColumn cols = Ok c /\ length (c_cells c) = n /\
    c_label c = first_some (map c_label cols) /\ c_unit c = first_some (map c_unit cols) /\
    forall i, at_row i (c_cells c) = first_some (map (fun c => at_row i (c_cells c)) cols).
Proof. exact condensed. Qed.
Print Assumptions C43_condense.
(** Value columns of a simplified data set: the parsers of the table in turn. *)
Theorem C43_simplified_values : forall acos mk fl d s d' k name ps, ds_simplified d = false ->
  fst (run (getSimplified acos mk fl d) s) = Ok d' -> nth_error (parser_map (ds_class_of d)) k = Some (name, ps) ->
  exists vs, Forall2 (fun p c => forall s', fst (run (getValue acos p (ds_table d)) s') = Ok c) ps vs /\
    nth_error (t_labels (ds_table d')) k = Some name /\
    nth_error (t_units (ds_table d')) k = Some (first_some (map c_unit vs)) /\
    forall i row, nth_error (t_data (ds_table d')) i = Some row ->
      nth_error row k = Some (as_cell (first_some (map (fun c => at_row i (c_cells c)) vs))).
Proof. exact simplified_column. Qed.
Print Assumptions C43_simplified_values.
(** Uncertainty columns likewise; zeros if no parser finds any (and makeAllColumns asked for them). *)
Theorem C43_simplified_errors : forall acos mk fl d s d' j name row i, ds_simplified d = false -> wanted_columns (ds_class_of d) <> [] ->
  fst (run (getSimplified acos mk fl d) s) = Ok d' -> nth_error (t_labels (ds_table d')) j = Some (uncertainty_label name) ->
  nth_error (t_data (ds_table d')) i = Some row ->
  exists ps es, In (name, ps) (parser_map (ds_class_of d)) /\
    Forall2 (fun p c => forall s', fst (run (getError acos p (ds_table d)) s') = Ok c) ps es /\
    nth_error row j = Some (if forallb (fun c => forallb (fun x => match x with None => true | _ => false end) (c_cells c)) es
                            then VFloat fzero
                            else as_cell (first_some (map (fun c => at_row i (c_cells c)) es))).
Proof. exact simplified_errors. Qed.
Print Assumptions C43_simplified_errors.
Example C43_example :
  fst (run (getSimplified no_acos true false (cross_section
     (headed [("EN", "MEV"); ("DATA", "B"); ("DATA-ERR", "B"); ("DATA-MIN", "B"); ("DATA-MAX", "B")]
             [[v 1 0; v 4 0; v 1 0; v 1 0; v 3 0]; [v 2 0; VNone; VNone; v 1 0; v 3 0]]))) store0)
  = Ok (set_table (cross_section ordinary)
     (headed [("Energy", "MeV"); ("Data", "barns"); ("d(Energy)", "MeV"); ("d(Data)", "barns")]
             [[v 1 0; v 4 0; VFloat fzero; v 1 0]; [v 2 0; v 2 0; VFloat fzero; v 1 0]]) true).
Proof. vm_compute. reflexivity. Qed.

(** ** C44: percent errors *)

Theorem C44_percent : forall acos id c1 c2 d s s' j1 j2, table_ok d ->
  first_such (suits c1 d) j1 -> first_such (suits c2 d) j2 -> no_cosine c1 d j1 -> no_cosine c2 d j2 ->
  exists u f can val err, nth_error (t_units d) j2 = Some (Some u) /\ getConversion (Some u) = Ok (f, can) /\
    fst (run (getValue acos (id, Independent c1 c2) d) s) = Ok val /\ fst (run (getError acos (id, Independent c1 c2) d) s') = Ok err /\
    (u = PERCENT -> c_unit err = c_unit val /\
       forall i row x, nth_error (t_data d) i = Some row -> nth_error row j2 = Some x ->
         at_row i (c_cells err) = magnitude (percent (at_row i (c_cells val)) (converted c2 (fl 1 0) (number x)))) /\
    (u <> PERCENT -> c_unit err = Some can /\
       forall i row x, nth_error (t_data d) i = Some row -> nth_error row j2 = Some x ->
         at_row i (c_cells err) = magnitude (converted c2 f (number x))).
Proof. exact independent_errors. Qed.
Print Assumptions C44_percent.
Definition data_column : colparser := cp (each_with baseDataKeys (variableSuffix ++ frameSuffix)) (crossSectionUnits ++ noUnits).
Definition data_error_column : colparser := cp data_error_keys (crossSectionUnits ++ noUnits ++ percentUnits).
Ltac fitting := split; [eexists; split; [reflexivity|]; intros ls E; injection E as <-; cbn; tauto
                       | intros us E; injection E as <-; eexists; split; [reflexivity|]; cbn; tauto].
Example C44_example : nth_error csDataParserList 0 = Some (19, Independent data_column data_error_column) /\
  suits data_column ordinary 1 /\ suits data_error_column ordinary 2 /\ nth_error (t_units ordinary) 2 = Some (Some PERCENT).
Proof. split; [vm_compute; reflexivity|]. split; [fitting|]. split; [fitting|reflexivity]. Qed.

(** ** C45: B*RT-EV *)

(** The parser for B*RT-EV data fails on every table that has such a column, and with it the
    simplification of the data set. *)
Theorem C45_parser_fails : forall acos id c2 c3 d s j, table_ok d -> first_such (suits c2 d) j ->
  fst (run (getValue acos (id, BarnsSqrtE c2 c3) d) s) = Raise TypeError /\
  fst (run (getError acos (id, BarnsSqrtE c2 c3) d) s) = Raise TypeError.
Proof. exact barns_root. Qed.
Print Assumptions C45_parser_fails.
Theorem C45_never_simplified : forall acos mk fl d s, table_ok (ds_table d) -> barns_root_energy (ds_table d) -> ds_simplified d = false ->
  ds_class_of d = CrossSection \/ ds_class_of d = SpectrumAve ->
  fst (run (getSimplified acos mk fl d) s) = Raise TypeError \/ fst (run (getSimplified acos mk fl d) s) = Raise NoValuesGivenError.
Proof. exact barns_never. Qed.
Print Assumptions C45_never_simplified.
Definition root_table : table := headed [("EN", "MEV"); ("DATA", "B*RT-EV")] [[v 4 (-6); v 100 0]].
Theorem C45_conversion_refuted : exists d s, table_ok (ds_table d) /\ barns_root_energy (ds_table d) /\
  ds_class_of d = CrossSection /\ forall acos, fst (run (getSimplified acos false false d) s) = Raise TypeError.
Proof.
  exists (cross_section root_table), store0. split; [|split; [|split; [reflexivity|]]].
  - split; [reflexivity|]. split; repeat first [apply Forall_nil | apply Forall_cons; [first [discriminate | reflexivity]|]].
  - exists 1. fitting.
  - intros acos. vm_compute. reflexivity.
Qed.
Print Assumptions C45_conversion_refuted.

(** ** C47: what a simplified data set looks like *)

Theorem C47_shape : forall acos mk fl d s d', ds_simplified d = false -> wanted_columns (ds_class_of d) <> [] ->
  fst (run (getSimplified acos mk fl d) s) = Ok d' ->
  table_ok (ds_table d') /\ length (t_data (ds_table d')) = length (t_data (ds_table d)) /\
  (exists names, t_labels (ds_table d') = map lit (wanted_columns (ds_class_of d)) ++ map uncertainty_label names /\
     incl names (map lit (wanted_columns (ds_class_of d))) /\
     (mk = true -> names = map lit (wanted_columns (ds_class_of d)))) /\
  ds_simplified d' = true /\ ds_class_of d' = ds_class_of d /\ ds_meta d' = ds_meta d /\ ds_reaction d' = ds_reaction d /\
  ds_monitor d' = ds_monitor d /\ ds_coupled d' = ds_coupled d /\ ds_frame d' = ds_frame d.
Proof. exact simplified_shape. Qed.
Print Assumptions C47_shape.
Theorem C47_nothing_to_do : forall acos mk fl d s,
  (ds_simplified d = true -> forall d', fst (run (getSimplified acos mk fl d) s) = Ok d' -> d' = d) /\
  (wanted_columns (ds_class_of d) = [] -> forall d', fst (run (getSimplified acos mk fl d) s) = Ok d' -> d' = d).
Proof. exact simplified_others. Qed.
Print Assumptions C47_nothing_to_do.
Example C47_example : exists d', fst (run (getSimplified no_acos false false (cross_section ordinary)) store0) = Ok d' /\
  ds_table d' = headed [("Energy", "MeV"); ("Data", "barns"); ("d(Data)", "barns")]
    [[VFloat (fmul (fl 1500 0) (fl 1 (-3))); VFloat (fmul (fl 250 0) (fl 1 (-3))); v 1 (-2)]; [VFloat (fmul (fl 2000 0) (fl 1 (-3))); VNone; VNone]].
Proof. eexists. split; vm_compute; reflexivity. Qed.

(** ** C63: the ways to fail *)

Theorem C63_failures : forall acos mk fl d s, table_ok (ds_table d) -> cosines_defined acos (ds_table d) -> ~ barns_root_energy (ds_table d) ->
  wanted_columns (ds_class_of d) <> [] ->
  (exists d', fst (run (getSimplified acos mk fl d) s) = Ok d') \/
  fst (run (getSimplified acos mk fl d) s) = Raise NoValuesGivenError \/
  (fst (run (getSimplified acos mk fl d) s) = Raise NoUncertaintyGivenError /\ mk = false /\ fl = true).
Proof. exact failures_read. Qed.
Print Assumptions C63_failures.
(** Cosines a little out of range (1.1) escape as ValueError, and getSimplifiedDataSets does not
    catch that either. *)
Definition wide_cosine : dataset := mkDS AngularDist no_meta None None
  (headed [("EN", "MEV"); ("COS", "NO-DIM"); ("DATA", "B/SR")] [[v 1 0; v 11 (-1); v 1 0]]) false false None.
Theorem C63_cosine_refuted : exists d, table_ok (ds_table d) /\ ~ barns_root_energy (ds_table d) /\ forall acos, acos (fl 11 (-1)) = None ->
  fst (run (getSimplified acos false false d) store0) = Raise ValueError /\ simplify_caught ValueError = false.
Proof.
  exists wide_cosine. split; [|split].
  - split; [reflexivity|]. split; repeat first [apply Forall_nil | apply Forall_cons; [first [discriminate | reflexivity]|]].
  - intros (j & (l & El & Hl) & Hu). destruct (Hu _ eq_refl) as (u & Eu & Iu).
    destruct j as [|[|[|j]]]; cbn in Eu; [..|destruct j; discriminate]; injection Eu as <-; cbn in Iu; repeat (destruct Iu as [Iu|Iu]; [discriminate Iu|]); contradiction.
  - intros acos A. split; [|reflexivity]. exact (wide_cosine_fails acos A).
Qed.
Print Assumptions C63_cosine_refuted.
Example C63_example :
  fst (run (getSimplified no_acos false true (cross_section ordinary)) store0) = Raise NoUncertaintyGivenError /\
  fst (run (getSimplified no_acos false true (cross_section (headed [("EN", "MEV")] [[v 1 0]]))) store0) = Raise NoValuesGivenError.
Proof. split; vm_compute; reflexivity. Qed.

(** ** C64: two error bars *)

Theorem C64_bars : forall acos id c1 c2 c3 d s s' j1 j2 j3, table_ok d ->
  first_such (suits c1 d) j1 -> first_such (suits c2 d) j2 -> first_such (suits c3 d) j3 ->
  no_cosine c1 d j1 -> no_cosine c2 d j2 -> no_cosine c3 d j3 ->
  exists u2 u3 f2 f3 can2 can3 val err, nth_error (t_units d) j2 = Some (Some u2) /\ nth_error (t_units d) j3 = Some (Some u3) /\
    getConversion (Some u2) = Ok (f2, can2) /\ getConversion (Some u3) = Ok (f3, can3) /\
    fst (run (getValue acos (id, AddErrorBars c1 c2 c3) d) s) = Ok val /\
    fst (run (getError acos (id, AddErrorBars c1 c2 c3) d) s') = Ok err /\
    (u2 = PERCENT -> u3 = PERCENT -> c_unit err = c_unit val /\
       forall i row x y, nth_error (t_data d) i = Some row -> nth_error row j2 = Some x -> nth_error row j3 = Some y ->
         at_row i (c_cells err) =
           magnitude (quadrature (percent (at_row i (c_cells val)) (converted c2 (fl 1 0) (number x)))
                                 (percent (at_row i (c_cells val)) (converted c3 (fl 1 0) (number y))))) /\
    (u2 <> PERCENT -> u3 <> PERCENT -> c_unit err = Some can3 /\
       forall i row x y, nth_error (t_data d) i = Some row -> nth_error row j2 = Some x -> nth_error row j3 = Some y ->
         at_row i (c_cells err) = magnitude (quadrature (converted c2 f2 (number x)) (converted c3 f3 (number y)))).
Proof. exact bars. Qed.
Print Assumptions C64_bars.
Definition bars_parser : parser := nth 3 csDataParserList (0, MissingError energy_column).
Example C64_example :
  fst (run (getError no_acos bars_parser (headed [("DATA", "B"); ("ERR", "PER-CENT"); ("ERR-S", "PER-CENT")] [[v 50 0; v 6 0; v 8 0]])) store0)
  = Ok (mkColumn (Some (lit "ERR")) (Some (lit "barns")) [Some (fl 5 0)]).
Proof. vm_compute. reflexivity. Qed.
(** 10 b, 30 % (3 b) and 4 b: the total is 5 b, but the 4 b are taken for 4 %. *)
Theorem C64_mixed_refuted : exists d, table_ok d /\ exists err, fst (run (getError no_acos bars_parser d) store0) = Ok err /\
  at_row 0 (c_cells err) <> magnitude (quadrature (percent (Some (fl 10 0)) (Some (fl 30 0))) (Some (fl 4 0))) /\
  at_row 0 (c_cells err) = magnitude (quadrature (percent (Some (fl 10 0)) (Some (fl 30 0))) (percent (Some (fl 10 0)) (Some (fl 4 0)))).
Proof.
  exists (headed [("DATA", "B"); ("ERR", "PER-CENT"); ("ERR-S", "B")] [[v 10 0; v 30 0; v 4 0]]). split.
  - split; [reflexivity|]. split; repeat first [apply Forall_nil | apply Forall_cons; [first [discriminate | reflexivity]|]].
  - eexists. split; [vm_compute; reflexivity|]. split; [vm_compute; discriminate|vm_compute; reflexivity].
Qed.
Print Assumptions C64_mixed_refuted.

(** ** C65: one unit per column *)

Theorem C65_one_unit : forall acos mk fl d s d' k name ps u i row x, ds_simplified d = false ->
  fst (run (getSimplified acos mk fl d) s) = Ok d' -> nth_error (parser_map (ds_class_of d)) k = Some (name, ps) ->
  (forall p s' c v, In p ps -> fst (run (getValue acos p (ds_table d)) s') = Ok c -> c_unit c = Some v -> v = u) ->
  nth_error (t_data (ds_table d')) i = Some row -> nth_error row k = Some (VFloat x) ->
  nth_error (t_units (ds_table d')) k = Some (Some u) /\
  exists p c, In p ps /\ (forall s', fst (run (getValue acos p (ds_table d)) s') = Ok c) /\ at_row i (c_cells c) = Some x /\ c_unit c = Some u.
Proof. exact simplified_one_unit. Qed.
Print Assumptions C65_one_unit.
(** An energy of 1 MeV, then, where the energy range is not given, a momentum of 1 GeV/c: both
    end up as 1 MeV. *)
Definition energy_and_momentum : table :=
  headed [("EN-MIN", "MEV"); ("EN-MAX", "MEV"); ("MOM", "GEV/C"); ("DATA", "B")] [[v 1 0; v 1 0; VNone; v 1 0]; [VNone; VNone; v 1 0; v 1 0]].
Theorem C65_mixed_units_refuted : exists d d', fst (run (getSimplified no_acos false false d) store0) = Ok d' /\
  t_units (ds_table d') = map (fun u => Some (lit u)) ["MeV"; "barns"; "MeV"] /\
  t_units (ds_table d) = map (fun u => Some (lit u)) ["MEV"; "MEV"; "GEV/C"; "B"] /\
  (exists row, nth_error (t_data (ds_table d)) 1 = Some row /\ nth_error row 0 = Some VNone /\ nth_error row 1 = Some VNone /\ nth_error row 2 = Some (v 1 0)) /\
  (exists row, nth_error (t_data (ds_table d')) 1 = Some row /\ nth_error row 0 = Some (v 1 0)).
Proof.
  exists (cross_section energy_and_momentum). eexists. split; [vm_compute; reflexivity|]. split; [reflexivity|]. split; [reflexivity|].
  split; eexists; split; try reflexivity. split; [reflexivity|split; reflexivity].
Qed.
Print Assumptions C65_mixed_units_refuted.
