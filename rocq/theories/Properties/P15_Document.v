(** Property C78: from the text of an entry to energies and cross sections. *)
From Coq Require Import String List Ascii NArith ZArith Bool Arith.
From Verif.Model Require Import Py PyFloat Dicts Particle Reaction Field Section Entry Columns Dataset Pyparsing Grammars Shipped.
From Verif.Spec Require Import Text Exfor Tables Merging Codes Balance Document.
From Verif.Proofs Require Import ShippedLemmas DocumentLemmas DocumentCheck.
From Verif.Properties Require Import P11_Grammars.
Import ListNotations.
Local Open Scope string_scope.
Local Open Scope list_scope.
Local Open Scope nat_scope.

(** The data set of a subentry has the reaction that its BIB section states, and the columns of the
    COMMON sections of 001 and of its own and those of its DATA section, in this order. *)
Theorem C78_data_set : forall c e nm raw n num text text1 bib data r line h1 h2 hd r1 r2 rows k errs ds errs' n',
  Forall particle_key (c_particles c) -> Forall compound_key (c_compounds c) -> e_g e = x4grammars c ->
  X4Entry e raw = Ok n -> getDataSets nm n errs = Ok (ds, errs', n') ->
  last_such (numbered num) raw text -> last_such (numbered (n_accnum n ++ tx "001")) raw text1 -> num <> n_accnum n ++ tx "001" ->
  sections_named text -> sections_named text1 ->
  has_section "BIB" text bib -> states_reaction bib r line -> good_reaction (c_particles c) r -> balances r ->
  kind (map PTok (quantities r)) k ->
  common_table text1 h1 r1 -> common_table text h2 r2 -> has_section "DATA" text data -> written_table data hd rows ->
  exists d rx R, dget key_eqb (n_accnum n, Some num, " "%char) ds = Some d /\
    ds_reaction d = Some (MRxn rx, PTok line) /\ tells r rx R /\ ds_class_of d = k /\ ds_simplified d = false /\
    ds_table d = merged_table (h1 ++ h2 ++ hd) (map (fun row => r1 ++ r2 ++ row) rows).
Proof. intros. eapply doc_data_set; eassumption. Qed.
Print Assumptions C78_data_set.

(** The simplified data set of a cross section: for every row of DATA one row, with the energy in MeV,
    the cross section in barns and, if any is given, its uncertainty in barns. *)
Theorem C78_cross_section : forall c e nm acos raw n num text text1 bib data r line h1 h2 hd r1 r2 rows a f b g w errs s ds errs' n' s',
  Forall particle_key (c_particles c) -> Forall compound_key (c_compounds c) -> e_g e = x4grammars c ->
  X4Entry e raw = Ok n -> getSimplifiedDataSets nm acos false n errs s = Ok (ds, errs', n', s') ->
  last_such (numbered num) raw text -> last_such (numbered (n_accnum n ++ tx "001")) raw text1 -> num <> n_accnum n ++ tx "001" ->
  sections_named text -> sections_named text1 ->
  has_section "BIB" text bib -> states_reaction bib r line -> good_reaction (c_particles c) r -> balances r ->
  kind (map PTok (quantities r)) CrossSection ->
  common_table text1 h1 r1 -> common_table text h2 r2 -> has_section "DATA" text data -> written_table data hd rows ->
  cross_section_columns (h1 ++ h2 ++ hd) a f b g w ->
  (exists row, In row rows /\ at_column (r1 ++ r2 ++ row) a <> None) ->
  (exists row, In row rows /\ at_column (r1 ++ r2 ++ row) b <> None) ->
  exists d rx R, dget key_eqb (n_accnum n, Some num, " "%char) ds = Some d /\
    ds_reaction d = Some (MRxn rx, PTok line) /\ tells r rx R /\ ds_class_of d = CrossSection /\ ds_simplified d = true /\
    ds_table d = simplified_table (map (fun row => r1 ++ r2 ++ row) rows) a f b g w.
Proof. intros. eapply doc_cross; try eassumption; reflexivity. Qed.
Print Assumptions C78_cross_section.

(** ** An entry *)

Definition text_of (lines : list string) : str := join [nl] (map tx lines).
Definition main_text : str := text_of
  ["SUBENT        10001001   20200101";
   "BIB                  2          2";
   "TITLE      Cross sections of iron";
   "AUTHOR     (A.Smith)";
   "ENDBIB               2";
   "COMMON               1          3";
   "EN";
   "KEV";
   " 1.4700E+04";
   "ENDCOMMON            3";
   "ENDSUBENT           10"].
Definition data_text : str := text_of
  ["SUBENT        10001002   20200101";
   "BIB                  2          3";
   "REACTION   (26-FE-56(N,2N)";
   "           26-FE-55,,SIG) activation";
   "STATUS     (TABLE)";
   "ENDBIB               3";
   "NOCOMMON             0          0";
   "DATA                 2          2";
   "DATA       DATA-ERR";
   "MB         PER-CENT";
   " 440.        5.0";
   " 4.6+02";
   "ENDDATA              4";
   "ENDSUBENT           13"].
Definition e1 : env := mkEnv (x4grammars shipped) [] [] [] 20.
Definition nm1 : names := mkNames [] [] [].
Definition the_entry : res entry := X4Entry e1 [main_text; data_text].
Definition the_table : option table :=
  match the_entry with
  | Ok n => match getSimplifiedDataSets nm1 (fun x => Some x) false n [] store0 with
            | Ok (ds, _, _, _) => option_map ds_table (dget key_eqb (n_accnum n, Some (tx "10001002"), " "%char) ds)
            | Raise _ => None
            end
  | Raise _ => None
  end.
Definition bib_lines : list str := match lastb (keywordb (tx "BIB")) (sections_in data_text) with Some b => b | None => [] end.
Definition data_lines : list str := match lastb (keywordb (tx "DATA")) (sections_in data_text) with Some b => b | None => [] end.
Definition common_lines : list str := match lastb (keywordb (tx "COMMON")) (sections_in main_text) with Some b => b | None => [] end.
Definition dec (ip : list N) (fr : option (list N)) (e : Z) : float := decimal SNone ip fr e.
Definition row_energy : list (option float) := [Some (dec [1]%N (Some [4; 7; 0; 0]%N) 4)].
Definition two_rows : list (list (option float)) :=
  [[Some (dec [4; 4; 0]%N (Some []) 0); Some (dec [5]%N (Some [0]%N) 0)];
   [Some (dec [4]%N (Some [6]%N) 2); None]].

Example C78_common_lines : written_table common_lines [("EN", "KEV")] [row_energy].
Proof.
  apply (writtenb_ok _ _ [[tx "1.4700E+04"]] 3); [vm_compute; reflexivity|].
  apply Forall2_cons; [|constructor]. apply Forall2_cons; [|constructor].
  apply (number_E SNone [1]%N (Some [4; 7; 0; 0]%N) 0 false [0; 4]%N).
  - repeat split; try discriminate; repeat constructor.
  - repeat constructor.
  - discriminate.
Qed.
Example C78_data_lines : written_table data_lines [("DATA", "MB"); ("DATA-ERR", "PER-CENT")] two_rows.
Proof.
  apply (writtenb_ok _ _ [[tx "440."; tx "5.0"]; [tx "4.6+02"; []]] 2); [vm_compute; reflexivity|].
  apply Forall2_cons; [|apply Forall2_cons; [|constructor]].
  - apply Forall2_cons; [|apply Forall2_cons; [|constructor]].
    + apply (number_plain SNone [4; 4; 0]%N (Some [])). repeat split; try discriminate; repeat constructor.
    + apply (number_plain SNone [5]%N (Some [0]%N)). repeat split; try discriminate; repeat constructor.
  - apply Forall2_cons; [|apply Forall2_cons; [|constructor]].
    + apply (number_sign SNone [4]%N (Some [6]%N) 0 false [0; 2]%N).
      * repeat split; try discriminate; repeat constructor.
      * repeat constructor.
      * now right.
    + apply number_none.
Qed.
Example C78_reaction : states_reaction bib_lines n2n (tx "activation").
Proof.
  exists (bib_chunkify bib_lines), (nth 0 (bib_chunkify bib_lines) []),
    (blank_separated (map (fun l => strip (columns 11 66 l)) (nth 0 (bib_chunkify bib_lines) []))).
  split.
  { apply fields_ok; [vm_compute; reflexivity|]. exists (nth 1 bib_lines []). split; [vm_compute; auto|].
    intros H. apply BibLemmas.is_frame_iff in H. vm_compute in H. discriminate. }
  split.
  { apply (lastb_ok _ _ (keywordb (tx "REACTION"))); [intros y; apply keyword_iff|vm_compute; reflexivity]. }
  split.
  { vm_compute. repeat constructor. }
  split; [apply field_textb|].
  exists (tx "(26-FE-56(N,2N) 26-FE-55,,SIG)"), (tx " "), (tx "activation").
  split; [vm_compute; reflexivity|]. split; [apply spacedb_ok; vm_compute; reflexivity|].
  split; [constructor; [vm_compute; auto|constructor]|].
  split; [intros a t E; injection E as <- <-; vm_compute; intuition discriminate|].
  split.
  { intros w x t _ Q I. assert (J : In x (tx " " ++ tx "activation")) by (rewrite Q; apply in_or_app; right; now left).
    assert (F : forallb (fun c => negb (cmem c (tx "*/=+-"))) (tx " " ++ tx "activation") = true) by (vm_compute; reflexivity).
    rewrite forallb_forall in F. specialize (F x J). apply StrLemmas.cmem_In in I. rewrite I in F. discriminate. }
  split; [split; [repeat (apply Forall_cons; [vm_compute; discriminate|]); apply Forall_nil|now left]|].
  vm_compute. intuition discriminate.
Qed.

Example C78_example : exists n ds errs' n' s',
  X4Entry e1 [main_text; data_text] = Ok n /\ n_accnum n = tx "10001" /\
  getSimplifiedDataSets nm1 (fun x => Some x) false n [] store0 = Ok (ds, errs', n', s') /\
  last_such (numbered (tx "10001002")) [main_text; data_text] data_text /\
  last_such (numbered (n_accnum n ++ tx "001")) [main_text; data_text] main_text /\
  sections_named data_text /\ sections_named main_text /\
  has_section "BIB" data_text bib_lines /\ good_reaction (c_particles shipped) n2n /\ balances n2n /\
  kind (map PTok (quantities n2n)) CrossSection /\
  common_table main_text [("EN", "KEV")] row_energy /\ common_table data_text [] [] /\
  has_section "DATA" data_text data_lines /\
  cross_section_columns ([("EN", "KEV")] ++ [] ++ [("DATA", "MB"); ("DATA-ERR", "PER-CENT")]) 0 (1%N, -3)%Z 1 (1%N, -3)%Z (Percent 2) /\
  (exists row, In row two_rows /\ at_column (row_energy ++ [] ++ row) 0 <> None) /\
  (exists row, In row two_rows /\ at_column (row_energy ++ [] ++ row) 1 <> None).
Proof.
  assert (E : exists n, X4Entry e1 [main_text; data_text] = Ok n /\ n_accnum n = tx "10001").
  { destruct (X4Entry e1 [main_text; data_text]) as [n|x] eqn:E; [|vm_compute in E; discriminate]. exists n. split; [reflexivity|].
    vm_compute in E. injection E as <-. reflexivity. }
  destruct E as (n & E & A). exists n.
  assert (G : exists ds errs' n' s', getSimplifiedDataSets nm1 (fun x => Some x) false n [] store0 = Ok (ds, errs', n', s')).
  { assert (T : the_table <> None) by (vm_compute; discriminate). unfold the_table, the_entry in T. rewrite E in T.
    destruct (getSimplifiedDataSets nm1 (fun x => Some x) false n [] store0) as [[[[ds er] n'] s']|]; [eauto 10|congruence]. }
  destruct G as (ds & er & n' & s' & G). exists ds, er, n', s'. split; [exact E|]. split; [exact A|]. split; [exact G|].
  split; [apply (lastb_ok _ _ (numberedb (tx "10001002"))); [intros y; apply numbered_iff|vm_compute; reflexivity]|].
  rewrite A.
  split; [apply (lastb_ok _ _ (numberedb (tx "10001001"))); [intros y; apply numbered_iff|vm_compute; reflexivity]|].
  split; [apply sections_namedb; vm_compute; reflexivity|]. split; [apply sections_namedb; vm_compute; reflexivity|].
  split; [apply has_sectionb; vm_compute; reflexivity|]. split; [exact (proj1 C67_n2n)|].
  split; [exists 26%Z, 55%Z; split; [apply C68_leaves|]|].
  { change (nuclide_is (plain "26" "FE" "55") 26 55). split; [reflexivity|]. split; [|split; [|reflexivity]].
    - apply numberb_ok. reflexivity.
    - apply numberb_ok. reflexivity. }
  split; [apply kind_known; exists ["SIG"]; split; [vm_compute; auto|reflexivity]|].
  split; [right; exists common_lines; split; [apply has_sectionb; vm_compute; reflexivity|apply C78_common_lines]|].
  split; [left; split; [reflexivity|split; [reflexivity|apply no_sectionb; vm_compute; reflexivity]]|].
  split; [apply has_sectionb; vm_compute; reflexivity|].
  split.
  { constructor.
    - exists "KEV". split; [reflexivity|vm_compute; auto 10].
    - exists "MB". split; [reflexivity|vm_compute; auto 30].
    - reflexivity.
    - intros j l u N _. destruct j as [|[|[|j]]]; auto. destruct j; discriminate. }
  split; exists (nth 0 two_rows []); (split; [now left|discriminate]).
Qed.
(** What comes out: 14.7 MeV on both rows; 0.44 barns with 5 percent, and 0.46 barns without uncertainty. *)
Example C78_result : the_table = Some (mkTable (map tx ["Energy"; "Data"; "d(Data)"]) (map (fun u => Some (tx u)) ["MeV"; "barns"; "barns"])
  [[VFloat (fmul (fl 147 2) (fl 1 (-3))); VFloat (fmul (fl 440 0) (fl 1 (-3)));
    VFloat (fdiv (fmul (fmul (fl 440 0) (fl 1 (-3))) (fl 5 0)) (fl 100 0))];
   [VFloat (fmul (fl 147 2) (fl 1 (-3))); VFloat (fmul (fl 460 0) (fl 1 (-3))); VNone]]).
Proof. vm_compute. reflexivity. Qed.
