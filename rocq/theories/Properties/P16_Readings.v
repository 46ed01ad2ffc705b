(** Property C79: which columns a simplified data set is made of. *)
From Coq Require Import String List Ascii NArith ZArith Bool Arith.
From Coq Require Import Floats.SpecFloat.
From Verif.Model Require Import Py PyFloat Utilities Dicts Particle Reaction Field Section Entry Columns Dataset.
From Verif.Spec Require Import Text Tables DataSets Readings.
From Verif.Proofs Require Import ReadingLemmas.
Import ListNotations.
Local Open Scope string_scope.
Local Open Scope list_scope.
Local Open Scope nat_scope.

Theorem C79_simplified : forall acos mk fl d s, table_ok (ds_table d) -> cosines_defined acos (ds_table d) -> ~ barns_root_energy (ds_table d) ->
  ds_simplified d = false -> wanted_columns (ds_class_of d) <> [] ->
  fst (run (getSimplified acos mk fl d) s) =
    let t := ds_table d in
    let qs := quantities (ds_class_of d) in
    if negb (forallb (has_values acos t) qs) then Raise NoValuesGivenError
    else if fl && negb mk && negb (forallb (has_deviations acos t) qs) then Raise NoUncertaintyGivenError
    else Ok (mkDS (ds_class_of d) (ds_meta d) (ds_reaction d) (ds_monitor d) (read_table acos mk qs t) true (ds_coupled d) (ds_frame d)).
Proof. exact simplified_read. Qed.
Print Assumptions C79_simplified.

(** ** Examples *)

Definition headed (columns : list (string * string)) (rows : list (list dcell)) : table :=
  mkTable (map (fun c => lit (fst c)) columns) (map (fun c => Some (lit (snd c))) columns) rows.
Definition v (m : N) (e : Z) : dcell := VFloat (fl m e).
Definition data_set (c : ds_class) (t : table) : dataset := mkDS c no_meta None None t false false None.

(** Tables without cosines meet the second hypothesis. *)
Lemma no_cosines_defined : forall acos t, plain_table t -> cosines_defined acos t.
Proof. exact plain_cosines. Qed.
(** The hypotheses can be checked by computing. *)
Lemma plain_checked : forall t, (length (t_units t) =? length (t_labels t)) && forallb (fun u => match u with Some _ => true | None => false end) (t_units t) &&
  forallb (fun r => length r =? length (t_labels t)) (t_data t) && forallb (fun l => negb (contains (lit "COS") l)) (t_labels t) = true -> plain_table t.
Proof. exact plain_check. Qed.
Lemma table_checked : forall t, (length (t_units t) =? length (t_labels t)) && forallb (fun u => match u with Some _ => true | None => false end) (t_units t) &&
  forallb (fun r => length r =? length (t_labels t)) (t_data t) = true -> table_ok t.
Proof. exact table_check. Qed.
Lemma barns_checked : forall t, existsb (fun u => match u with Some u => named ["B*RT-EV"; "MB*RT-EV"] u | None => false end) (t_units t) = false ->
  ~ barns_root_energy t.
Proof. exact barns_check. Qed.

(** An angular distribution: energies between limits, angles with a full width at half maximum,
    values with absolute and relative uncertainties. *)
Definition angular : table :=
  headed [("EN-MIN", "KEV"); ("EN-MAX", "KEV"); ("ANG", "ADEG"); ("ANG-RSL-FW", "ADEG"); ("DATA-CM", "MB/SR"); ("ERR-T", "PER-CENT"); ("E", "MEV")]
         [[v 1000 0; v 2000 0; v 30 0; v 3 0; v 8 0; v 25 0; v 9 0];
          [VNone; v 2000 0; v 60 0; VNone; v 4 0; VNone; v 9 0];
          [v 1000 0; VNone; VNone; v 3 0; VNone; v 25 0; v 9 0]].
Example C79_angular : plain_table angular /\ ~ barns_root_energy angular /\
  forallb (has_values (fun _ => None) angular) (quantities AngularDist) = true /\ forallb (has_deviations (fun _ => None) angular) (quantities AngularDist) = true /\
  fst (run (getSimplified (fun _ => None) false true (data_set AngularDist angular)) store0) =
    Ok (mkDS AngularDist no_meta None None
          (headed [("Energy", "MeV"); ("Angle", "degrees"); ("Data", "barns/ster"); ("d(Energy)", "MeV"); ("d(Angle)", "degrees"); ("d(Data)", "barns/ster")]
             [[v 15 (-1); v 30 0; v 8 (-3); v 5 (-1); v 15 (-1); v 2 (-3)];
              [v 1 0; v 60 0; v 4 (-3); VNone; VNone; VNone];   (* half the upper limit *)
              [VNone; VNone; VNone; VNone; v 15 (-1); VNone]]) true false None).
Proof.
  split; [apply plain_checked; vm_compute; reflexivity|]. split; [apply barns_checked; vm_compute; reflexivity|].
  split; [vm_compute; reflexivity|]. split; [vm_compute; reflexivity|]. vm_compute; reflexivity.
Qed.
(** A cross section with statistical and systematic uncertainties, one of them in percent: both are
    taken as percentages. *)
Definition bars : table :=
  headed [("EN", "EV"); ("EN-RSL", "PER-CENT"); ("DATA", "B"); ("ERR", "PER-CENT"); ("ERR-S", "B")] [[v 2000000 0; v 10 0; v 100 0; v 3 0; v 4 0]].
Example C79_bars : plain_table bars /\ ~ barns_root_energy bars /\
  fst (run (getSimplified (fun _ => None) true false (data_set CrossSection bars)) store0) =
    Ok (mkDS CrossSection no_meta None None
          (headed [("Energy", "MeV"); ("Data", "barns"); ("d(Energy)", "MeV"); ("d(Data)", "barns")]
             [[v 2 0; v 100 0; v 1 (-1); v 5 0]]) true false None).
Proof. split; [apply plain_checked; vm_compute; reflexivity|]. split; [apply barns_checked; vm_compute; reflexivity|]. vm_compute; reflexivity. Qed.
(** Uncertainties down and up: the value moves to the middle of the interval. *)
Definition lopsided : table :=
  headed [("EN", "MEV"); ("DATA", "PRT/FIS"); ("-DATA-ERR", "PRT/FIS"); ("+DATA-ERR", "PRT/FIS")] [[v 1 0; v 25 (-1); v 5 (-1); v 15 (-1)]].
Example C79_lopsided : plain_table lopsided /\ ~ barns_root_energy lopsided /\
  fst (run (getSimplified (fun _ => None) false false (data_set Nubar lopsided)) store0) =
    Ok (mkDS Nubar no_meta None None
          (headed [("Energy", "MeV"); ("Data", "ptcls/fis"); ("d(Data)", "ptcls/fis")] [[v 1 0; v 3 0; v 1 0]]) true false None) /\
  fst (run (getSimplified (fun _ => None) false true (data_set Nubar lopsided)) store0) = Raise NoUncertaintyGivenError /\
  fst (run (getSimplified (fun _ => None) false true (data_set EnergyDist lopsided)) store0) = Raise NoValuesGivenError.
Proof.
  split; [apply plain_checked; vm_compute; reflexivity|]. split; [apply barns_checked; vm_compute; reflexivity|].
  split; [vm_compute; reflexivity|]. split; vm_compute; reflexivity.
Qed.
(** Cosines, one of them with an uncertainty: both are turned into angles.  [acos] is math.acos at these
    numbers. *)
Definition some_acos (x : float) : option float :=
  if feqb x (fl 5 (-1)) then Some (fl 10471975511965979 (-16)) else if feqb x fzero then Some (fl 15707963267948966 (-16)) else None.
Definition of_cosines : table :=
  headed [("EN", "MEV"); ("COS-CM", "NO-DIM"); ("COS-ERR", "NO-DIM"); ("DATA", "MB/SR")]
         [[v 2 0; v 5 (-1); VNone; v 8 0]; [v 2 0; v 0 0; v 5 (-1); v 4 0]; [v 2 0; VNone; VNone; v 4 0]].
Example C79_cosines : table_ok of_cosines /\ cosines_defined (fun x => or_else (some_acos x) (Some fzero)) of_cosines /\ ~ barns_root_energy of_cosines /\
  fst (run (getSimplified (fun x => or_else (some_acos x) (Some fzero)) false false (data_set AngularDist of_cosines)) store0) =
    Ok (mkDS AngularDist no_meta None None
          (headed [("Energy", "MeV"); ("Angle", "degrees"); ("Data", "barns/ster"); ("d(Angle)", "degrees")]
             [[v 2 0; v 6000000000000001 (-14); v 8 (-3); VNone];
              [v 2 0; v 90 0; v 4 (-3); v 6000000000000001 (-14)];
              [v 2 0; VNone; v 4 (-3); VNone]]) true false None).
Proof.
  split; [apply table_checked; vm_compute; reflexivity|]. split.
  { intros j l row c x _ _ _ _ _. split; [destruct (some_acos _)|destruct (some_acos _)]; discriminate. }
  split; [apply barns_checked; vm_compute; reflexivity|]. vm_compute; reflexivity.
Qed.
