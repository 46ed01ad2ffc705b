(** Property C94: the data set of every pointer has the reaction and the columns of its pointer. *)
From Coq Require Import String List Ascii NArith ZArith Bool Arith Floats.SpecFloat.
From Verif.Model Require Import Py PyFloat Dicts Particle Reaction Field Section Entry Columns Dataset Pyparsing Grammars Shipped.
From Verif.Spec Require Import Text Exfor Tables DataSets Merging Codes General Balance Known GeneralKnown IsomerMath Document WellWritten Pointed.
From Verif.Spec Require Readings.
From Verif.Proofs Require Import ShippedLemmas DocumentCheck KnownCheck GeneralCheck WellCheck Decide PointedLemmas PointedCheck FoundCheck.
From Verif.Properties Require P11_Grammars P12_Names P23_WellWritten.
From Verif.Conformance Require RealEntries.
From Verif.Properties Require Import P15_Document P26_General.
Import ListNotations.
Local Open Scope string_scope.
Local Open Scope list_scope.
Local Open Scope nat_scope.

(** The data set of pointer [p]: the reaction that is stated under [p] in the subentry or else in
    subentry 001; the columns of both COMMON sections, and of DATA those that carry [p] or no pointer. *)
Theorem C94_data_set : forall c e nm acc raw num text text1 data p code line x q k h1 h2 r1 r2 hd rows errs,
  well_dictionaries c e ->
  has_names (c_compounds c) (nm_compounds nm) -> rows_filled (nm_quantities nm) -> rows_filled (nm_modifiers nm) ->
  well_entry c acc raw ->
  last_such (numbered num) raw text -> last_such (numbered (acc ++ tx "001")) raw text1 -> num <> acc ++ tx "001" ->
  stated_for text text1 p code -> code_text c x line code -> code_quantity c x q -> kind (map PTok q) k ->
  pointed_common p text1 h1 r1 -> pointed_common p text h2 r2 -> has_section "DATA" text data -> pointed_table data hd rows ->
  exists n ds errs' n' d m, X4Entry e raw = Ok n /\ getDataSets nm n errs = Ok (ds, errs', n') /\
    dget key_eqb (acc, Some num, p) ds = Some d /\
    ds_reaction d = Some (m, PTok line) /\ code_means x m /\ ds_class_of d = k /\ (ds_coupled d = false <-> exists r, x = One r) /\
    ds_simplified d = false /\ ds_table d = pointed_set p h1 h2 r1 r2 hd rows.
Proof.
  intros c e nm acc raw num text text1 data p code line x q k h1 h2 r1 r2 hd rows errs D NC FQ FM W T T1 N S X Q K C1 C2 HD P.
  destruct (pointed_full c e D nm acc raw num text text1 data p code line x q k h1 h2 r1 r2 hd rows NC FQ FM W T T1 N S X Q K C1 C2 HD P errs)
    as (n & ds & errs' & n' & d & E & _ & G & L & (m & I1 & I2 & I3 & I4) & DS & DT).
  exists n, ds, errs', n', d, m. repeat (split; [assumption|]). assumption.
Qed.
Print Assumptions C94_data_set.

(** Simplified: the quantities of its kind, read from these columns as C79 says; if one of them has no
    values the data set is left as it is, and NoValuesGivenError is recorded. *)
Theorem C94_simplified : forall c e nm acos mk acc raw num text text1 data p code line x q k h1 h2 r1 r2 hd rows errs s,
  well_dictionaries c e ->
  has_names (c_compounds c) (nm_compounds nm) -> rows_filled (nm_quantities nm) -> rows_filled (nm_modifiers nm) ->
  well_entry c acc raw -> Forall (simple_subentry acos) raw ->
  last_such (numbered num) raw text -> last_such (numbered (acc ++ tx "001")) raw text1 -> num <> acc ++ tx "001" ->
  stated_for text text1 p code -> code_text c x line code -> code_quantity c x q -> kind (map PTok q) k ->
  pointed_common p text1 h1 r1 -> pointed_common p text h2 r2 -> has_section "DATA" text data -> pointed_table data hd rows ->
  exists n ds errs' n' s' d m, X4Entry e raw = Ok n /\ getSimplifiedDataSets nm acos mk n errs s = Ok (ds, errs', n', s') /\
    dget key_eqb (acc, Some num, p) ds = Some d /\
    ds_reaction d = Some (m, PTok line) /\ code_means x m /\ ds_class_of d = k /\ (ds_coupled d = false <-> exists r, x = One r) /\
    let t := pointed_set p h1 h2 r1 r2 hd rows in
    let qs := Readings.quantities k in
    (wanted_columns k = [] -> ds_simplified d = false /\ ds_table d = t) /\
    (wanted_columns k <> [] -> forallb (Readings.has_values acos t) qs = true ->
       ds_simplified d = true /\ ds_table d = Readings.read_table acos mk qs t) /\
    (wanted_columns k <> [] -> forallb (Readings.has_values acos t) qs = false ->
       ds_simplified d = false /\ ds_table d = t /\ dget key_eqb (acc, Some num, p) errs' = Some NoValuesGivenError).
Proof.
  intros c e nm acos mk acc raw num text text1 data p code line x q k h1 h2 r1 r2 hd rows errs s D NC FQ FM W SS T T1 N S X Q K C1 C2 HD P.
  destruct (pointed_simplified c e D nm acc raw num text text1 data p code line x q k h1 h2 r1 r2 hd rows NC FQ FM W T T1 N S X Q K C1 C2 HD P acos mk errs s SS)
    as (n & ds & errs' & n' & s' & d & E & _ & G & L & (m & I1 & I2 & I3 & I4) & H).
  exists n, ds, errs', n', s', d, m. repeat (split; [assumption|]). assumption.
Qed.
Print Assumptions C94_simplified.

(** Several reactions of different quantities: no data set, and NotImplementedError is recorded. *)
Theorem C94_unlike : forall c e nm acc raw num text text1 data p code line l piece piece' errs,
  well_dictionaries c e ->
  has_names (c_compounds c) (nm_compounds nm) -> rows_filled (nm_quantities nm) -> rows_filled (nm_modifiers nm) ->
  well_entry c acc raw ->
  last_such (numbered num) raw text -> last_such (numbered (acc ++ tx "001")) raw text1 ->
  stated text p code -> unstated text1 p \/ num = acc ++ tx "001" -> code_text c (Several l) line code ->
  (forall q, In (PGroup q) l -> exists r, good_general (c_particles c) (c_compounds c) r /\ known_general r /\ q = general_tree r) ->
  In (PGroup piece) l -> In (PGroup piece') l -> tl piece <> tl piece' -> has_section "DATA" text data ->
  exists n ds errs' n', X4Entry e raw = Ok n /\ getDataSets nm n errs = Ok (ds, errs', n') /\
    dget key_eqb (acc, Some num, p) ds = None /\ dget key_eqb (acc, Some num, p) errs' = Some NotImplementedError.
Proof.
  intros c e nm acc raw num text text1 data p code line l piece piece' errs D NC FQ FM W T T1 S U X K I J N HD.
  destruct (unlike_recorded c e D nm NC FQ FM acc raw num text text1 data p code line l piece piece' errs W T T1 S U X K I J N HD)
    as (n & ds & errs' & n' & E & _ & H). eauto 10.
Qed.
Print Assumptions C94_unlike.

(** ** An entry *)

(** Subentry 2 has three columns of data: a cross section, a ratio of two cross sections, and what
    subentry 1 says about pointer 3, an angular distribution (of which no values are given).  Pointer 4 is
    a cross section over an angular distribution. *)
Definition pointed_main : str := text_of
  ["SUBENT        10001001   20200101";
   "BIB                  2          2";
   "TITLE      Cross sections of iron";
   "REACTION  3(26-FE-56(N,EL)26-FE-56,,DA) scattering";
   "ENDBIB               2";
   "COMMON               1          3";
   "EN-RSL";
   "KEV";
   " 1.4700E+04";
   "ENDCOMMON            3";
   "ENDSUBENT           10"].
Definition pointed_text : str := text_of
  ["SUBENT        10001002   20200101";
   "BIB                  1          4";
   "REACTION  1(26-FE-56(N,2N)26-FE-55,,SIG)";
   "          2((26-FE-56(N,TOT),,SIG)/";
   "           (1-H-WTR(N,TOT),,SIG)) ratio";
   "          4((26-FE-56(N,TOT),,SIG)/(26-FE-56(N,EL)26-FE-56,,DA))";
   "ENDBIB               4";
   "NOCOMMON             0          0";
   "DATA                 7          2";
   "EN         DATA      1DATA-ERR  1DATA      2DATA      3DATA      4";
   "ANG       3";
   "MEV        MB         PER-CENT   NO-DIM     MB/SR      MB/SR";
   "ADEG";
   " 14.0       440.        5.0       2.5                    1.0";
   " 30.";
   " 14.5       4.6+02                               ";
   " 60.";
   "ENDDATA              4";
   "ENDSUBENT           13"].
Definition pointed_raw : list str := [pointed_main; pointed_text].
Definition pointed_names : names := mkNames (map (fun k => (k, [tx "compound"])) dict09_keys) [] [].
Definition pointed_data : list str := nth 1 (sections_in pointed_text) [].
Definition pointed_heads : list phead :=
  [mkPhead "EN" None "MEV"; mkPhead "DATA" (Some "1"%char) "MB"; mkPhead "DATA-ERR" (Some "1"%char) "PER-CENT"; mkPhead "DATA" (Some "2"%char) "NO-DIM";
   mkPhead "DATA" (Some "3"%char) "MB/SR"; mkPhead "DATA" (Some "4"%char) "MB/SR"; mkPhead "ANG" (Some "3"%char) "ADEG"].
Definition pointed_cells : list (list string) :=
  [["14.0"; "440."; "5.0"; "2.5"; ""; "1.0"; "30."]; ["14.5"; "4.6+02"; ""; ""; ""; ""; "60."]].
Definition pointed_rows : list (list (option float)) := map (map value_of) pointed_cells.
Definition resolution : list (option float) := [value_of "1.4700E+04"].

Example C94_entry : well_dictionaries shipped P12_Names.e1 /\ has_names (c_compounds shipped) (nm_compounds pointed_names) /\
  rows_filled (nm_quantities pointed_names) /\ rows_filled (nm_modifiers pointed_names) /\
  well_entry shipped (tx "10001") pointed_raw /\
  (forall acos, (forall x, cosine x -> acos x <> None) -> Forall (simple_subentry acos) pointed_raw) /\
  last_such (numbered (tx "10001002")) pointed_raw pointed_text /\ last_such (numbered (tx "10001" ++ tx "001")) pointed_raw pointed_main /\
  tx "10001002" <> tx "10001" ++ tx "001" /\
  (forall p, pointed_common p pointed_main [("EN-RSL", "KEV")] resolution /\ pointed_common p pointed_text [] []) /\
  has_section "DATA" pointed_text pointed_data /\ pointed_table pointed_data pointed_heads pointed_rows.
Proof.
  split; [apply P23_WellWritten.C87_hypotheses|]. split; [exact (all_named (tx "compound") [] dict09_keys)|].
  split; [intros k row H; discriminate H|]. split; [intros k row H; discriminate H|].
  split; [apply entry_okb_ok; vm_compute; reflexivity|].
  split; [intros acos A; repeat (apply Forall_cons; [apply simple_subentry_check; [exact A|vm_compute; reflexivity]|]); constructor|].
  split; [apply (lastb_ok _ _ (numberedb (tx "10001002"))); [intros y; apply numbered_iff|vm_compute; reflexivity]|].
  split; [apply (lastb_ok _ _ (numberedb (tx "10001001"))); [intros y; apply numbered_iff|vm_compute; reflexivity]|].
  split; [discriminate|].
  split; [intros p; split; apply common_pointed|].
  { right. exists (nth 1 (sections_in pointed_main) []). split; [apply has_sectionb; vm_compute; reflexivity|]. apply (writtenb_ok _ _ [[tx "1.4700E+04"]] 3); [vm_compute; reflexivity|].
    apply Forall2_cons; [|constructor]. apply Forall2_cons; [|constructor]. apply value_ok. vm_compute. reflexivity. }
  { left. split; [reflexivity|split; [reflexivity|apply no_sectionb; vm_compute; reflexivity]]. }
  split; [apply has_sectionb; vm_compute; reflexivity|]. apply (pointedb_ok _ _ _ 2). vm_compute. reflexivity.
Qed.

(** The reactions. *)
Definition iron_2n : gcode := gsig (Nucleus (P11_Grammars.plain "26" "FE" "56")) "N" [Out (CMany (tx "2") (tx "N"))] (Some (Nucleus (P11_Grammars.plain "26" "FE" "55"))) [[]; bareq "SIG"].
Definition iron_tot : gcode := gsig (Nucleus (P11_Grammars.plain "26" "FE" "56")) "N" [proc "TOT"] None [[]; bareq "SIG"].
Definition iron_scatter : gcode := gsig (Nucleus (P11_Grammars.plain "26" "FE" "56")) "N" [proc "EL"] (Some (Nucleus (P11_Grammars.plain "26" "FE" "56"))) [[]; bareq "DA"].
Definition over (a b : gcode) : list ptree := [PGroup (general_tree a); PTok (tx "/"); PGroup (general_tree b)].
Lemma over_text : forall a b, good_general (c_particles shipped) (c_compounds shipped) a -> good_general (c_particles shipped) (c_compounds shipped) b ->
  cexpr (written (c_particles shipped) (c_compounds shipped)) (general_tokens a ++ tx "/" :: general_tokens b) (over a b).
Proof.
  intros a b A B. apply ce_term. apply (ct_times _ (tx "/") _ [PGroup (general_tree a)] _ [PGroup (general_tree b)]); [vm_compute; auto| |].
  - apply ct_factor. apply cf_reaction. exists a. auto.
  - apply cf_reaction. exists b. auto.
Qed.
Lemma ratio_text : forall a b line s w, good_generalb (c_particles shipped) (c_compounds shipped) a && known_generalb a &&
  good_generalb (c_particles shipped) (c_compounds shipped) b && known_generalb b &&
  in_fieldb (tx "(" :: (general_tokens a ++ tx "/" :: general_tokens b) ++ [tx ")"]) s w line = true ->
  code_text shipped (Several (over a b)) line (s ++ w ++ line) /\
  forall q, In (PGroup q) (over a b) -> exists r, good_general (c_particles shipped) (c_compounds shipped) r /\ known_general r /\ q = general_tree r.
Proof.
  intros a b line s w H. rewrite !andb_true_iff in H. destruct H as [[[[A KA] B] KB] F].
  apply good_generalb_ok in A, B. apply known_generalb_ok in KA, KB.
  assert (G : forall q, In (PGroup q) (over a b) -> exists r, good_general (c_particles shipped) (c_compounds shipped) r /\ known_general r /\ q = general_tree r).
  { intros q [E|[E|[E|[]]]]; [injection E as <-; eauto|discriminate E|injection E as <-; eauto]. }
  split; [|exact G]. exists (general_tokens a ++ tx "/" :: general_tokens b). split; [now apply over_text|]. split; [now apply in_fieldb_ok|].
  intros q I. destruct (G q I) as (r & G1 & G2 & ->). now apply piece_known.
Qed.
Example C94_reactions :
  (exists code, stated_for pointed_text pointed_main "1" code /\ code_text shipped (One iron_2n) [] code) /\
  (exists code, stated_for pointed_text pointed_main "2" code /\ code_text shipped (Several (over iron_tot water)) (tx "ratio") code) /\
  (exists code, stated_for pointed_text pointed_main "3" code /\ code_text shipped (One iron_scatter) (tx "scattering") code) /\
  code_quantity shipped (One iron_2n) [tx "SIG"] /\ code_quantity shipped (Several (over iron_tot water)) [tx "SIG"] /\ code_quantity shipped (One iron_scatter) [tx "DA"] /\
  kind (map PTok [tx "SIG"]) CrossSection /\ kind (map PTok [tx "DA"]) AngularDist.
Proof.
  assert (O : forall r s w line, good_generalb (c_particles shipped) (c_compounds shipped) r && known_generalb r && in_fieldb (general_tokens r) s w line = true ->
    code_text shipped (One r) line (s ++ w ++ line)).
  { intros r s w line H. rewrite !andb_true_iff in H. destruct H as [[H1 H2] H3]. split; [now apply good_generalb_ok|]. split; [now apply known_generalb_ok|now apply in_fieldb_ok]. }
  split.
  { eexists. split; [left; apply stated_check; vm_compute; reflexivity|]. apply (O iron_2n (tx "(26-FE-56(N,2N)26-FE-55,,SIG)") []). vm_compute. reflexivity. }
  split.
  { eexists. split; [left; apply stated_check; vm_compute; reflexivity|].
    apply (ratio_text iron_tot water (tx "ratio") (tx "((26-FE-56(N,TOT),,SIG)/ (1-H-WTR(N,TOT),,SIG))") (tx " ")). vm_compute. reflexivity. }
  split.
  { eexists. split; [right; split; [apply unstated_check; vm_compute; reflexivity|apply stated_check; vm_compute; reflexivity]|].
    apply (O iron_scatter (tx "(26-FE-56(N,EL)26-FE-56,,DA)") (tx " ")). vm_compute. reflexivity. }
  split; [reflexivity|]. split.
  { split; [eexists; left; reflexivity|]. split; [|left; reflexivity]. intros piece [E|[E|[E|[]]]]; [injection E as <-; reflexivity|discriminate E|injection E as <-; reflexivity]. }
  split; [reflexivity|]. split; [apply kind_known; exists ["SIG"]; split; [vm_compute; auto|reflexivity]|].
  apply (kind_code _ [("RI", ResonanceInt); ("POL/DA", AnalyzingPower)] "DA" _ [("NU", Nubar); ("DE", EnergyDist)]).
  - intros c' (codes & I & E). vm_compute in I. repeat (destruct I as [I|I]; [injection I as <- <-; discriminate E|]). destruct I.
  - reflexivity.
  - left. reflexivity.
  - intros s' c' I. repeat (destruct I as [I|I]; [injection I as <- <-; intros [E|[]]; discriminate E|]). destruct I.
Qed.
Example C94_unlike_reactions : exists code, stated pointed_text "4" code /\ unstated pointed_main "4" /\
  code_text shipped (Several (over iron_tot iron_scatter)) [] code /\ tl (general_tree iron_tot) <> tl (general_tree iron_scatter).
Proof.
  eexists. split; [apply stated_check; vm_compute; reflexivity|]. split; [apply unstated_check; vm_compute; reflexivity|]. split; [|discriminate].
  apply (ratio_text iron_tot iron_scatter [] (tx "((26-FE-56(N,TOT),,SIG)/(26-FE-56(N,EL)26-FE-56,,DA))") []). vm_compute. reflexivity.
Qed.

(** What comes out: for every pointer its kind, headings and numbers, and the two errors. *)
Definition pointed_result :=
  match X4Entry P12_Names.e1 pointed_raw with
  | Ok n => match getSimplifiedDataSets pointed_names (fun x => Some x) false n [] store0 with
            | Ok (ds, errs, _, _) =>
                Some (map (fun kd => (snd (fst kd), (ds_class_of (snd kd), ds_coupled (snd kd), ds_simplified (snd kd)),
                                      map string_of_list_ascii (t_labels (ds_table (snd kd))), t_data (ds_table (snd kd)))) ds,
                      map (fun ke => (snd (fst ke), snd ke)) errs)
            | Raise _ => None
            end
  | Raise _ => None
  end.
(** A resolution counts as twice the uncertainty. *)
Definition half_width : dcell := VFloat (fmul (fl 5 (-1)) (fmul (fl 14700 0) (fl 1 (-3)))).
Example C94_example : pointed_result = Some (
  [("3"%char, (AngularDist, false, false), ["EN-RSL"; "EN"; "DATA"; "ANG"],
      [[VFloat (fl 14700 0); VFloat (fl 14 0); VNone; VFloat (fl 30 0)]; [VFloat (fl 14700 0); VFloat (fl 145 (-1)); VNone; VFloat (fl 60 0)]]);
   ("1"%char, (CrossSection, false, true), ["Energy"; "Data"; "d(Energy)"; "d(Data)"],
      [[VFloat (fl 14 0); VFloat (fmul (fl 440 0) (fl 1 (-3))); half_width; VFloat (fdiv (fmul (fmul (fl 440 0) (fl 1 (-3))) (fl 5 0)) (fl 100 0))];
       [VFloat (fl 145 (-1)); VFloat (fmul (fl 460 0) (fl 1 (-3))); half_width; VNone]]);
   ("2"%char, (CrossSection, true, true), ["Energy"; "Data"; "d(Energy)"],
      [[VFloat (fl 14 0); VFloat (fl 25 (-1)); half_width]; [VFloat (fl 145 (-1)); VNone; half_width]])],
  [("4"%char, NotImplementedError); ("3"%char, NoValuesGivenError)]).
Proof. vm_compute. reflexivity. Qed.

(** ** A column of another pointer in COMMON *)

(** Without the condition on the columns of COMMON the theorems would be false, of an entry of the
    library: COMMON of 13150001 has a column MONIT of pointer 2.  The data of pointer 1 of 13150002
    are 0.403 with the error 0.015, a ratio; the data set says 55.3, which is MONIT, and 15.51, which is the
    cross section of pointer 2. *)
Definition ratio_main : str := tx (nth 0 RealEntries.e13150 "").
Definition ratio_subentry : str := tx (nth 1 RealEntries.e13150 "").
Definition ratio_common : list phead := [mkPhead "EN" None "MEV"; mkPhead "ANG" None "ADEG"; mkPhead "MONIT" (Some "2"%char) "MB/SR"].
Definition ratio_heads : list phead :=
  [mkPhead "DATA" (Some "1"%char) "NO-DIM"; mkPhead "DATA-ERR" (Some "1"%char) "NO-DIM"; mkPhead "DATA-CM" (Some "2"%char) "MB/SR"; mkPhead "DATA-ERR" (Some "2"%char) "MB/SR"].
Definition ratio_result : option table :=
  match X4Entry P12_Names.e1 (map tx RealEntries.e13150) with
  | Ok n => match getDataSets pointed_names n [] with
            | Ok (ds, _, _) => option_map ds_table (dget key_eqb (tx "13150", Some (tx "13150002"), "1"%char) ds)
            | Raise _ => None
            end
  | Raise _ => None
  end.
Definition numbers (l : list string) : list (option float) := map value_of l.
Theorem C94_common_refuted : exists acc raw num text text1 p code common data t,
  well_entry shipped acc raw /\ last_such (numbered num) raw text /\ last_such (numbered (acc ++ tx "001")) raw text1 /\ num <> acc ++ tx "001" /\
  stated text p code /\
  has_section "COMMON" text1 common /\ pointed_table common ratio_common [numbers ["198."; "0."; "55.3"]] /\ no_section "COMMON" text /\
  has_section "DATA" text data /\ pointed_table data ratio_heads [numbers ["0.403"; "0.015"; "15.51"; "0.55"]] /\
  own_heads p ratio_common = [("EN", "MEV"); ("ANG", "ADEG")] /\ own_heads p ratio_heads = [("DATA", "NO-DIM"); ("DATA-ERR", "NO-DIM")] /\
  (exists n ds errs n' d, X4Entry P12_Names.e1 raw = Ok n /\ getDataSets pointed_names n [] = Ok (ds, errs, n') /\
     dget key_eqb (acc, Some num, p) ds = Some d /\ ds_table d = t) /\
  t = merged_table [("EN", "MEV"); ("ANG", "ADEG"); ("DATA", "NO-DIM"); ("DATA-ERR", "NO-DIM")] [numbers ["198."; "0."; "55.3"; "15.51"]].
Proof.
  exists (tx "13150"), (map tx RealEntries.e13150), (tx "13150002"), ratio_subentry, ratio_main, "1"%char.
  eexists. exists (nth 1 (sections_in ratio_main) []), (nth 1 (sections_in ratio_subentry) []). eexists.
  split; [apply entry_okb_ok; vm_compute; reflexivity|].
  split; [apply (lastb_ok _ _ (numberedb (tx "13150002"))); [intros y; apply numbered_iff|vm_compute; reflexivity]|].
  split; [apply (lastb_ok _ _ (numberedb (tx "13150001"))); [intros y; apply numbered_iff|vm_compute; reflexivity]|].
  split; [discriminate|]. split; [apply stated_check; vm_compute; reflexivity|].
  split; [apply has_sectionb; vm_compute; reflexivity|].
  split; [apply (pointedb_ok _ ratio_common [["198."; "0."; "55.3"]] 3); vm_compute; reflexivity|].
  split; [apply no_sectionb; vm_compute; reflexivity|].
  split; [apply has_sectionb; vm_compute; reflexivity|].
  split; [apply (pointedb_ok _ ratio_heads [["0.403"; "0.015"; "15.51"; "0.55"]] 1); vm_compute; reflexivity|].
  split; [reflexivity|]. split; [reflexivity|]. split; [|reflexivity].
  assert (H : ratio_result = Some (merged_table [("EN", "MEV"); ("ANG", "ADEG"); ("DATA", "NO-DIM"); ("DATA-ERR", "NO-DIM")] [numbers ["198."; "0."; "55.3"; "15.51"]])) by (vm_compute; reflexivity).
  unfold ratio_result in H. destruct (X4Entry P12_Names.e1 (map tx RealEntries.e13150)) as [n|]; [|discriminate].
  destruct (getDataSets pointed_names n []) as [[[ds errs] n']|] eqn:G; [|discriminate].
  destruct (dget key_eqb (tx "13150", Some (tx "13150002"), "1"%char) ds) as [d|] eqn:E; [|discriminate].
  exists n, ds, errs, n', d. cbn [option_map] in H. split; [reflexivity|]. split; [exact G|]. split; [exact E|congruence].
Qed.
Print Assumptions C94_common_refuted.
