(** Properties C23-C25, C46, C48-C50 and C66: data sets and the data sets of an entry. *)
From Coq Require Import String List Ascii NArith ZArith Bool Arith.
From Coq Require Import Floats.SpecFloat.
From Verif.Model Require Import Py PyFloat Utilities Dicts Particle Reaction Field Section Entry Columns Dataset.
From Verif.Spec Require Import Text Tables Exfor DataSets Merging.
From Verif.Proofs Require Import MergeLemmas DatasetLemmas EntryDataLemmas.
Import ListNotations.
Local Open Scope string_scope.
Local Open Scope list_scope.
Local Open Scope nat_scope.

Definition section_of (tag : string) (lines : list string) : res data_section := X4DataSection (lit tag) (map lit lines).
Definition get_section (r : res data_section) : data_section :=
  match r with Ok d => d | Raise _ => mkData [] 0 0 0 [] [] [] [] [] end.
Definition v (m : N) (e : Z) : dcell := VFloat (fl m e).

(** ** C46: a row is the COMMON values followed by the cells of the own columns *)

(** When the COMMON sections carry no pointers of others and are two different sections. *)
Theorem C46_setData : forall data c1 c2 pointer keep,
  section_ok data -> (forall i c, c1 = Some (i, c) -> section_ok c /\ all_own c pointer) ->
  (forall i c, c2 = Some (i, c) -> section_ok c /\ all_own c pointer) -> different c1 c2 ->
  (forall j, keep j = true <-> own_column data pointer j) ->
  exists t us, setData data [c1; c2] pointer = Ok t /\
    Forall2 shortened (common_labels (option_map snd c1) ++ common_labels (option_map snd c2) ++ select keep 0 (d_labels data)) (t_labels t) /\
    t_units t = map Some us /\
    Forall2 shortened (common_units (option_map snd c1) ++ common_units (option_map snd c2) ++ select keep 0 (d_units data)) us /\
    length (t_data t) = length (d_data data) /\
    forall i cells, nth_error (d_data data) i = Some cells ->
      nth_error (t_data t) i = Some (common_row (option_map snd c1) i ++ common_row (option_map snd c2) i ++ map as_cell (select keep 0 cells)).
Proof. exact set_data. Qed.
Print Assumptions C46_setData.

(** Parsed sections qualify, and [keep] always exists. *)
Theorem C46_parsed_sections : forall tag lines d, X4DataSection tag lines = Ok d -> section_ok d.
Proof. exact parsed_section_ok. Qed.
Print Assumptions C46_parsed_sections.
Theorem C46_own_columns : forall d pointer, exists keep : nat -> bool, forall j, keep j = true <-> own_column d pointer j.
Proof. exact own_decidable. Qed.
Print Assumptions C46_own_columns.

Definition plain_common : data_section :=
  get_section (section_of "COMMON" ["COMMON               1          3"; "EN-RSL"; "KEV"; "5."; "ENDCOMMON            3"]).
Definition two_columns : data_section :=
  get_section (section_of "DATA" ["DATA                 3          2"; "EN         DATA      1DATA      2"; "MEV        B          MB";
                                  "1.         10.        100."; "2.         20.        200."; "ENDDATA              4"]).
Example C46_example :
  section_ok plain_common /\ section_ok two_columns /\ all_own plain_common (Some "1"%char) /\
  setData two_columns [None; Some (1, plain_common)] (Some "2"%char) =
    Ok (mkTable (map lit ["EN-RSL"; "EN"; "DATA"]) (map (fun u => Some (lit u)) ["KEV"; "MEV"; "MB"])
                [[v 5 0; v 1 0; v 100 0]; [v 5 0; v 2 0; v 200 0]]).
Proof.
  split; [apply (parsed_section_ok (lit "COMMON") (map lit ["COMMON               1          3"; "EN-RSL"; "KEV"; "5."; "ENDCOMMON            3"])); vm_compute; reflexivity|].
  split; [apply (parsed_section_ok (lit "DATA") (map lit ["DATA                 3          2"; "EN         DATA      1DATA      2"; "MEV        B          MB";
                                  "1.         10.        100."; "2.         20.        200."; "ENDDATA              4"])); vm_compute; reflexivity|].
  split; [intros j p cols I; vm_compute in I; contradiction|]. vm_compute. reflexivity.
Qed.

(** With pointers in COMMON the measured value is lost: the data set of pointer 1 claims that DATA
    is what COMMON says about EN of pointer 2. *)
Definition pointed_common : data_section :=
  get_section (section_of "COMMON" ["COMMON               2          3"; "EN        1EN        2"; "MEV        MEV"; "1.         2."; "ENDCOMMON            3"]).
Definition pointed_data : data_section :=
  get_section (section_of "DATA" ["DATA                 2          1"; "DATA      1DATA      2"; "B          B"; "10.        20."; "ENDDATA              3"]).
Theorem C46_pointers_in_common_refuted : exists lines lines' c d t,
  X4DataSection (lit "COMMON") lines = Ok c /\ X4DataSection (lit "DATA") lines' = Ok d /\
  setData d [None; Some (1, c)] (Some "1"%char) = Ok t /\
  d_data d = [[Some (fl 10 0); Some (fl 20 0)]] /\ d_data c = [[Some (fl 1 0); Some (fl 2 0)]] /\
  own_column d (Some "1"%char) 0 /\ ~ own_column c (Some "1"%char) 1 /\
  t = mkTable (map lit ["EN"; "DATA"]) (map (fun u => Some (lit u)) ["MEV"; "B"]) [[v 1 0; v 2 0]].
Proof.
  exists (map lit ["COMMON               2          3"; "EN        1EN        2"; "MEV        MEV"; "1.         2."; "ENDCOMMON            3"]).
  exists (map lit ["DATA                 2          1"; "DATA      1DATA      2"; "B          B"; "10.        20."; "ENDDATA              3"]).
  exists pointed_common, pointed_data. eexists.
  split; [vm_compute; reflexivity|]. split; [vm_compute; reflexivity|]. split; [vm_compute; reflexivity|].
  split; [vm_compute; reflexivity|]. split; [vm_compute; reflexivity|].
  split.
  { intros p cols I N J. vm_compute in I. destruct I as [I|[I|[]]]; injection I as <- <-; [now apply N|]. destruct J as [J|[]]. discriminate. }
  split; [|reflexivity].
  intros H. apply (H "2"%char [1]); [vm_compute; auto|discriminate|now left].
Qed.
Print Assumptions C46_pointers_in_common_refuted.

(** A subentry 001 with COMMON and DATA: its COMMON section counts twice, and the second copy
    consists of zeros. *)
Theorem C46_same_common_refuted : exists lines c t, X4DataSection (lit "COMMON") lines = Ok c /\
  setData two_columns [Some (0, c); Some (0, c)] (Some "1"%char) = Ok t /\
  t_labels t = map lit ["EN-RSL"; "EN-RSL"; "EN"; "DATA"] /\
  t_data t = [[v 5 0; VZero; v 1 0; v 10 0]; [v 5 0; VZero; v 2 0; v 20 0]].
Proof.
  exists (map lit ["COMMON               1          3"; "EN-RSL"; "KEV"; "5."; "ENDCOMMON            3"]). exists plain_common. eexists.
  split; [vm_compute; reflexivity|]. split; [vm_compute; reflexivity|]. split; vm_compute; reflexivity.
Qed.
Print Assumptions C46_same_common_refuted.

(** ** C48: append *)

Theorem C48_append : forall nm same self other r, append nm same self other = Ok r ->
  (empty_set self -> ds_table r = ds_table other /\ ds_reaction r = ds_reaction other /\ ds_monitor r = ds_monitor other /\
     ds_simplified r = ds_simplified other /\ ds_class_of r = ds_class_of self /\ ds_meta r = ds_meta self) /\
  (~ empty_set self ->
     (t_labels (ds_table self) = t_labels (ds_table other) /\ t_units (ds_table self) = t_units (ds_table other) /\ texts_agree nm self other /\
      t_labels (ds_table r) = t_labels (ds_table self) /\ t_units (ds_table r) = t_units (ds_table self) /\
      t_data (ds_table r) = t_data (ds_table self) ++ t_data (ds_table other) /\
      r = set_table self (ds_table r) (ds_simplified self)) \/
     (~ (t_labels (ds_table self) = t_labels (ds_table other) /\ t_units (ds_table self) = t_units (ds_table other) /\ texts_agree nm self other) /\
      r = self)).
Proof. exact append_spec. Qed.
Print Assumptions C48_append.
(** It answers whenever both reactions can be printed. *)
Theorem C48_append_total : forall nm same self other t t', reaction_text nm self = Ok t -> reaction_text nm other = Ok t' ->
  exists r, append nm same self other = Ok r.
Proof. exact append_total. Qed.
Print Assumptions C48_append_total.


(** Reactions for the examples: what a grammar might make of 92-U-235(N,F),,SIG and 92-U-235(N,F),,DA. *)
Definition fission_tree (q : list string) : ptree :=
  PGroup (PGroup [PGroup [PTok (lit "92"); PTok (lit "U"); PTok (lit "235")]; PTok (lit "N"); PTok (lit "F")] :: map (fun s => PTok (lit s)) q).
Definition toy_field (s : str) : option (list ptree) :=
  Some [fission_tree (if contains (lit ",DA") s then ["DA"] else if contains (lit ",NU") s then ["NU"] else ["SIG"]); PTok []].
Definition toy : env :=
  mkEnv (mkGrammars (fun s => Some [PTok s]) (fun _ => None) (fun _ => None) (fun _ => None) (fun _ => None)
             (fun _ => None) toy_field (fun _ => None) (fun _ => None) (fun _ => None) (fun _ => None)) [] [] [] 10.
Definition few_names : names :=
  mkNames [] [(lit "SIG", [lit "Cross section"]); (lit "DA", [lit "Differential c/s with respect to angle"])] [].
Definition fission (q : list string) : reaction :=
  match X4Reaction (e_g toy) [] false (fission_tree q) with Ok r => r | Raise _ => mkReaction (mkProcess RNone RNone [] RNone []) [] end.
Definition measured (q : list string) (t : table) : dataset :=
  mkDS CrossSection no_meta (Some (MRxn (fission q), PTok [])) None t false false None.
Definition energies (rows : list (list dcell)) : table := mkTable (map lit ["EN"; "DATA"]) (map (fun u => Some (lit u)) ["MEV"; "B"]) rows.

Example C48_example :
  append few_names true (measured ["SIG"] (energies [[v 1 0; v 10 0]])) (measured ["SIG"] (energies [[v 2 0; v 20 0]]))
    = Ok (measured ["SIG"] (energies [[v 1 0; v 10 0]; [v 2 0; v 20 0]])) /\
  append few_names false (measured ["SIG"] (energies [[v 1 0; v 10 0]])) (measured ["DA"] (energies [[v 2 0; v 20 0]]))
    = Ok (measured ["SIG"] (energies [[v 1 0; v 10 0]])) /\
  append few_names false (measured ["SIG"] (mkTable [] [] [])) (measured ["DA"] (energies [[v 2 0; v 20 0]]))
    = Ok (measured ["DA"] (energies [[v 2 0; v 20 0]])).
Proof. vm_compute. auto. Qed.

(** ** C49: the quantity decides the kind of data set *)

Theorem C49_kind : forall nm m t meta common mon data pointer d,
  X4DataSetFactory nm (m_quantity m) meta common (Some (m, t)) mon data pointer = Ok d ->
  exists q, common_quantity m q /\ kind q (ds_class_of d).
Proof. exact factory_kind. Qed.
Print Assumptions C49_kind.
Theorem C49_one_kind : forall q c c', kind q c -> kind q c' -> c = c'.
Proof. exact kind_unique. Qed.
Print Assumptions C49_one_kind.
Theorem C49_some_kind : forall q, exists c, kind q c.
Proof. exact kind_total. Qed.
Print Assumptions C49_some_kind.
Theorem C49_data_do_not_matter : forall nm nm' m t t' meta meta' common common' mon mon' data data' pointer pointer' d d',
  X4DataSetFactory nm (m_quantity m) meta common (Some (m, t)) mon data pointer = Ok d ->
  X4DataSetFactory nm' (m_quantity m) meta' common' (Some (m, t')) mon' data' pointer' = Ok d' -> ds_class_of d = ds_class_of d'.
Proof. exact factory_same_kind. Qed.
Print Assumptions C49_data_do_not_matter.

Definition made (m : measurement) : res ds_class :=
  match X4DataSetFactory few_names (m_quantity m) [] [None; None] (Some (m, PTok [])) None two_columns None with
  | Ok d => Ok (ds_class_of d) | Raise e => Raise e end.
Example C49_example :
  made (MRxn (fission ["SIG"; "MXW"])) = Ok SpectrumAve /\ made (MRxn (fission ["CUM"; "SIG"])) = Ok DataSet /\
  made (MRxn (fission ["PAR"; "DA"; "DE"])) = Ok AngularDist /\ made (MRxn (fission ["PR"; "NU"; "DE"])) = Ok Nubar /\
  made (MComb [ERxn (fission ["DE"]); EOp (lit "/"); ERxn (fission ["DE"])]) = Ok EnergyDist /\
  made (MComb [ERxn (fission ["DE"]); EOp (lit "/"); ERxn (fission ["SIG"])]) = Raise NotImplementedError.
Proof. vm_compute. auto 10. Qed.

(** ** C50: metadata *)

Theorem C50_metadata : forall nm quant meta common reaction mon data pointer d,
  X4DataSetFactory nm quant meta common reaction mon data pointer = Ok d ->
  bm_author (ds_meta d) = or_default ANone (last_some (map author_slot meta)) /\
  bm_institute (ds_meta d) = last_some (map (slot bm_institute) meta) /\
  bm_title (ds_meta d) = or_default (lit "None") (last_some (map (text_slot bm_title) meta)) /\
  bm_reference (ds_meta d) = last_some (map (slot bm_reference) meta) /\
  bm_pubtype (ds_meta d) = or_default (lit "None") (last_some (map (text_slot bm_pubtype) meta)) /\
  bm_year (ds_meta d) = or_default (lit "None") (last_some (map (text_slot bm_year) meta)) /\
  bm_subent (ds_meta d) = or_default (lit "????????") (last_some (map (text_slot bm_subent) meta)).
Proof. exact factory_meta. Qed.
Print Assumptions C50_metadata.

(** What a BIB section gives: fields that are not there leave their slots empty. *)
Theorem C50_bib : forall b sub m b', X4BibMetaData b sub = Ok (m, b') ->
  author_slot (Some m) = match bib_field b "AUTHOR" with Some (Some (FAuthor a)) => Some (AList (a_authors a)) | _ => None end /\
  slot bm_institute (Some m) = match bib_field b "INSTITUTE" with Some (Some (FInstitute _ l)) => Some l | _ => None end /\
  (bib_field b "TITLE" = None -> text_slot bm_title (Some m) = None) /\
  (forall f, bib_field b "TITLE" = Some (Some (FTitle f)) -> bm_title m = title_str f) /\
  (bib_field b "REFERENCE" = None ->
     slot bm_reference (Some m) = None /\ text_slot bm_pubtype (Some m) = None /\ text_slot bm_year (Some m) = None) /\
  (forall f r, bib_field b "REFERENCE" = Some (Some (FReference f r)) ->
     bm_reference m = Some r /\ bm_pubtype m = ref_pubtype r /\ bm_year m = ref_pubyear r) /\
  bm_subent m = sub.
Proof. exact bib_metadata. Qed.
Print Assumptions C50_bib.

Definition meta_of (a : authors) (title year sub : string) : option bibmeta :=
  Some (mkMeta a None (lit title) None (lit "None") (lit year) (lit sub)).
Example C50_example : exists d,
  X4DataSetFactory few_names (m_quantity (MRxn (fission ["SIG"])))
    [meta_of (AList [lit "A.One"]) "Of the entry" "1970" "10001001"; None; meta_of ANone "Of the subentry" "None" "10001002"]
    [None; None] (Some (MRxn (fission ["SIG"]), PTok [])) None two_columns None = Ok d /\
  bm_author (ds_meta d) = AList [lit "A.One"] /\ bm_title (ds_meta d) = lit "Of the subentry" /\ bm_year (ds_meta d) = lit "1970" /\
  bm_subent (ds_meta d) = lit "10001002" /\ bm_pubtype (ds_meta d) = lit "None".
Proof. eexists. split; [vm_compute; reflexivity|]. vm_compute. auto 10. Qed.

(** ** C23 and C24: the data sets of an entry *)

Definition text (l : list string) : str := join [nl] (map lit l).
(** Subentry 2 has two pointers, of which the first makes no data set (its COMMON says something
    about pointer 2 only); subentry 3 uses the REACTION of subentry 1; subentry 4 has no data. *)
Definition entry_texts : list str :=
  [text ["SUBENT        10001001   19700101";
         "BIB                  2          2";
         "TITLE      Nothing";
         "REACTION   (92-U-235(N,F),,SIG)";
         "ENDBIB               2";
         "ENDSUBENT            4"];
   text ["SUBENT        10001002   19700101";
         "BIB                  1          2";
         "REACTION  1(92-U-235(N,F),,SIG)";
         "          2(92-U-235(N,F),,DA)";
         "ENDBIB               2";
         "COMMON               2          3";
         "EN        2EN-RSL    2";
         "MEV        KEV";
         "1.         5.";
         "ENDCOMMON            3";
         "DATA                 2          1";
         "DATA      1DATA      2";
         "B          B/SR";
         "10.        20.";
         "ENDDATA              3";
         "ENDSUBENT            4"];
   text ["SUBENT        10001003   19700101";
         "NOBIB                0          0";
         "DATA                 2          2";
         "EN         DATA";
         "MEV        B";
         "1.         10.";
         "2.         20.";
         "ENDDATA              4";
         "ENDSUBENT            6"];
   text ["SUBENT        10001004   19700101";
         "BIB                  1          2";
         "REACTION   (92-U-235(N,F),,SIG)";
         "ENDBIB               2";
         "NODATA               0          0";
         "ENDSUBENT            6"]].
Definition key (sub : string) (p : ascii) : ds_key := (lit "10001", Some (lit sub), p).

Theorem C23_keys : forall e raw nm n errs ds errs' n', X4Entry e raw = Ok n -> getDataSets nm n errs = Ok (ds, errs', n') ->
  exists s1, In (Some (n_accnum n ++ lit "001"), s1) (n_subs n) /\
  (forall acc sub p, In (acc, sub, p) (dkeys ds) -> acc = n_accnum n /\
     exists s, In (sub, s) (n_subs n) /\ sub_data s "DATA" <> None /\ (In p (dkeys (reactions_of s)) \/ In p (dkeys (reactions_of s1)))) /\
  (forall sub s p, In (sub, s) (n_subs n) -> sub_data s "DATA" <> None -> In p (dkeys (reactions_of s)) \/ In p (dkeys (reactions_of s1)) ->
     In (n_accnum n, sub, p) (dkeys ds) \/ In (n_accnum n, sub, p) (dkeys errs')).
Proof. exact dataSets_keys. Qed.
Print Assumptions C23_keys.

Example C23_example : exists n ds errs n', X4Entry toy entry_texts = Ok n /\ getDataSets few_names n [] = Ok (ds, errs, n') /\
  dkeys ds = [key "10001002" "2"; key "10001003" " "] /\
  errs = [(key "10001002" " ", IndexError); (key "10001002" "1", IndexError)].
Proof. do 4 eexists. split; [vm_compute; reflexivity|]. split; [vm_compute; reflexivity|]. split; vm_compute; reflexivity. Qed.

(** What is found under a key: the data set, and the error, tried last under that key - nothing
    that happened to other keys matters. *)
Theorem C24_values : forall e raw nm n errs ds errs' n', X4Entry e raw = Ok n -> getDataSets nm n errs = Ok (ds, errs', n') ->
  exists s1, In (Some (n_accnum n ++ lit "001"), s1) (n_subs n) /\
  (forall sub s p, In (sub, s) (n_subs n) ->
     dget key_eqb (n_accnum n, sub, p) ds = last_some [ok_of (tried nm n s1 s s1 p); ok_of (tried nm n s1 s s p)] /\
     dget key_eqb (n_accnum n, sub, p) errs' =
       last_some [dget key_eqb (n_accnum n, sub, p) errs; exn_of (tried nm n s1 s s1 p); exn_of (tried nm n s1 s s p)]) /\
  (forall acc sub p, (acc <> n_accnum n \/ ~ In sub (dkeys (n_subs n))) ->
     dget key_eqb (acc, sub, p) ds = None /\ dget key_eqb (acc, sub, p) errs' = dget key_eqb (acc, sub, p) errs).
Proof. exact dataSets_values. Qed.
Print Assumptions C24_values.
(** Other subentries may be what they want. *)
Theorem C24_independent : forall e raw raw' nm n n' errs errs0 ds errs1 n1 ds' errs1' n1', X4Entry e raw = Ok n -> X4Entry e raw' = Ok n' ->
  getDataSets nm n errs = Ok (ds, errs1, n1) -> getDataSets nm n' errs0 = Ok (ds', errs1', n1') ->
  n_accnum n = n_accnum n' ->
  dget tag_eqb (Some (n_accnum n ++ lit "001")) (n_subs n) = dget tag_eqb (Some (n_accnum n' ++ lit "001")) (n_subs n') ->
  forall sub s p, In (sub, s) (n_subs n) -> In (sub, s) (n_subs n') ->
    dget key_eqb (n_accnum n, sub, p) ds = dget key_eqb (n_accnum n, sub, p) ds'.
Proof. exact dataSets_independent. Qed.
Print Assumptions C24_independent.
(** NotImplementedError and IndexError stop nothing. *)
Theorem C24_total : forall e raw nm n errs s1, X4Entry e raw = Ok n -> In (Some (n_accnum n ++ lit "001"), s1) (n_subs n) ->
  (forall sub s p x, In (sub, s) (n_subs n) -> (tried nm n s1 s s1 p = Some (Raise x) \/ tried nm n s1 s s p = Some (Raise x)) -> recorded x) ->
  deleted n = Ok false -> (forall sub s, In (sub, s) (n_subs n) -> exists i s', sub_information s (s_accnum s) = Ok (i, s')) ->
  exists ds errs' n', getDataSets nm n errs = Ok (ds, errs', n').
Proof. exact dataSets_total. Qed.
Print Assumptions C24_total.

Example C24_example : exists n ds errs n' s1 s2 s3 d, X4Entry toy entry_texts = Ok n /\ getDataSets few_names n [] = Ok (ds, errs, n') /\
  In (Some (lit "10001001"), s1) (n_subs n) /\ In (Some (lit "10001002"), s2) (n_subs n) /\ In (Some (lit "10001003"), s3) (n_subs n) /\
  tried few_names n s1 s2 s2 "1" = Some (Raise IndexError) /\ tried few_names n s1 s3 s3 " " = None /\ tried few_names n s1 s3 s1 " " = Some (Ok d) /\
  dget key_eqb (key "10001003" " ") ds = Some d /\ ds_table d = energies [[v 1 0; v 10 0]; [v 2 0; v 20 0]].
Proof.
  do 8 eexists. split; [vm_compute; reflexivity|]. split; [vm_compute; reflexivity|]. split; [left; reflexivity|].
  split; [right; left; reflexivity|]. split; [right; right; left; reflexivity|].
  split; [vm_compute; reflexivity|]. split; [vm_compute; reflexivity|]. split; [vm_compute; reflexivity|]. split; vm_compute; reflexivity.
Qed.

(** ** C25: simplified data sets *)

Theorem C25_simplified : forall e raw nm acos mk n errs s ds' errs' n' s', X4Entry e raw = Ok n ->
  getSimplifiedDataSets nm acos mk n errs s = Ok (ds', errs', n', s') ->
  exists ds errs0, getDataSets nm n errs = Ok (ds, errs0, n') /\ dkeys ds' = dkeys ds /\
    (forall k d, dget key_eqb k ds = Some d ->
       (exists d', fst (run (getSimplified acos mk false d) store0) = Ok d' /\ dget key_eqb k ds' = Some d' /\
                   dget key_eqb k errs' = dget key_eqb k errs0) \/
       (exists x, fst (run (getSimplified acos mk false d) store0) = Raise x /\ recorded_simplifying x /\ dget key_eqb k ds' = Some d /\
                   dget key_eqb k errs' = Some x)) /\
    (forall k, ~ In k (dkeys ds) -> dget key_eqb k errs' = dget key_eqb k errs0).
Proof. exact simplifiedDataSets_spec. Qed.
Print Assumptions C25_simplified.

(** The angular distribution has no angles: it stays as it was. *)
Example C25_example : exists n ds errs n' s' d d', X4Entry toy entry_texts = Ok n /\
  getSimplifiedDataSets few_names (fun _ => None) false n [] store0 = Ok (ds, errs, n', s') /\
  dkeys ds = [key "10001002" "2"; key "10001003" " "] /\
  dget key_eqb (key "10001002" "2") ds = Some d /\ ds_simplified d = false /\
  dget key_eqb (key "10001002" "2") errs = Some NoValuesGivenError /\
  dget key_eqb (key "10001003" " ") ds = Some d' /\ ds_simplified d' = true.
Proof.
  do 7 eexists. split; [vm_compute; reflexivity|]. split; [vm_compute; reflexivity|]. split; [vm_compute; reflexivity|].
  split; [vm_compute; reflexivity|]. split; [vm_compute; reflexivity|]. split; [vm_compute; reflexivity|]. split; vm_compute; reflexivity.
Qed.

(** ** C66: asking again *)

Theorem C66_again : forall e raw nm n errs ds errs1 n1, X4Entry e raw = Ok n -> getDataSets nm n errs = Ok (ds, errs1, n1) ->
  forall errs2, exists errs3, getDataSets nm n1 errs2 = Ok (ds, errs3, n1) /\
    (errs2 = errs1 -> forall k, dget key_eqb k errs3 = dget key_eqb k errs1).
Proof. exact dataSets_again. Qed.
Print Assumptions C66_again.

(** Although the entry has changed: subentry 2 has a TITLE now. *)
Example C66_example : exists n ds errs n', X4Entry toy entry_texts = Ok n /\ getDataSets few_names n [] = Ok (ds, errs, n') /\
  n' <> n /\ getDataSets few_names n' errs = Ok (ds, errs, n').
Proof.
  do 4 eexists. split; [vm_compute; reflexivity|]. split; [vm_compute; reflexivity|]. split; [|vm_compute; reflexivity].
  intros H. apply (f_equal (fun n => map (fun ks => match bib_of (snd ks) with Some b => length (b_dict b) | None => 0 end) (n_subs n))) in H.
  vm_compute in H. discriminate H.
Qed.
