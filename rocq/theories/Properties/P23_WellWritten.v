(** Property C87: an entry that keeps to the format is read without an exception. *)
From Coq Require Import String List Ascii NArith ZArith Bool Arith Floats.SpecFloat.
From Verif.Model Require Import Py PyFloat Dicts Particle Reaction Field Section Entry Columns Dataset Pyparsing Grammars Shipped.
From Verif.Spec Require Import Text Exfor Tables DataSets Merging Codes Balance Known GeneralKnown Names References Document WellWritten.
From Verif.Proofs Require Import NamesExamples RefCheck FieldLemmas MonitorLemmas ShippedLemmas DocumentLemmas DocumentCheck KnownCheck GeneralCheck WellLemmas WellSimple WellCheck CosineLemmas Decide.
From Verif.Properties Require P12_Names.
From Verif.Properties Require Import P11_Grammars P15_Document.
Import ListNotations.
Local Open Scope string_scope.
Local Open Scope list_scope.
Local Open Scope nat_scope.

(** Reading the entry and collecting its data sets succeed. *)
Theorem C87_read : forall c e nm acc raw errs, well_dictionaries c e ->
  has_names (c_compounds c) (nm_compounds nm) -> rows_filled (nm_quantities nm) -> rows_filled (nm_modifiers nm) ->
  well_entry c acc raw ->
  exists n ds errs' n', X4Entry e raw = Ok n /\ n_accnum n = acc /\ getDataSets nm n errs = Ok (ds, errs', n').
Proof. intros c e nm acc raw errs D N Q M W. exact (data_sets_total c e D nm N Q M acc raw errs W). Qed.
Print Assumptions C87_read.

(** So does simplifying them, whatever the parsers have seen before: what cannot be simplified is
    left as it is and recorded. *)
Theorem C87_simplified : forall c e nm acos mk acc raw errs s, well_dictionaries c e ->
  has_names (c_compounds c) (nm_compounds nm) -> rows_filled (nm_quantities nm) -> rows_filled (nm_modifiers nm) -> well_entry c acc raw -> Forall (simple_subentry acos) raw ->
  exists n ds errs' n' s', X4Entry e raw = Ok n /\ n_accnum n = acc /\
    getSimplifiedDataSets nm acos mk n errs s = Ok (ds, errs', n', s').
Proof. intros c e nm acos mk acc raw errs s D N Q M W S. exact (simplified_total c e D acos nm N Q M acc raw mk errs s W S). Qed.
Print Assumptions C87_simplified.
(** For cosines it is enough that what is written is between -1 and 1, and that inverse cosines are
    defined there. *)
Theorem C87_cosines : forall acos text x, (forall y, cosine y -> acos y <> None) -> number_text text (Some x) -> cosine x -> has_angle acos x.
Proof. exact written_angle. Qed.
Print Assumptions C87_cosines.

(** Then C78 holds without supposing that the entry is read. *)
Theorem C87_cross_section : forall c e nm acos acc raw num text text1 bib data r line h1 h2 hd r1 r2 rows a f b g w errs s,
  well_dictionaries c e ->
  has_names (c_compounds c) (nm_compounds nm) -> rows_filled (nm_quantities nm) -> rows_filled (nm_modifiers nm) ->
  well_entry c acc raw -> Forall (simple_subentry acos) raw ->
  last_such (numbered num) raw text -> last_such (numbered (acc ++ tx "001")) raw text1 -> num <> acc ++ tx "001" ->
  has_section "BIB" text bib -> states_reaction bib r line -> good_reaction (c_particles c) r -> balances r ->
  kind (map PTok (quantities r)) CrossSection ->
  common_table text1 h1 r1 -> common_table text h2 r2 -> has_section "DATA" text data -> written_table data hd rows ->
  cross_section_columns (h1 ++ h2 ++ hd) a f b g w ->
  (exists row, In row rows /\ at_column (r1 ++ r2 ++ row) a <> None) ->
  (exists row, In row rows /\ at_column (r1 ++ r2 ++ row) b <> None) ->
  exists n ds errs' n' s' d rx R, X4Entry e raw = Ok n /\ getSimplifiedDataSets nm acos false n errs s = Ok (ds, errs', n', s') /\
    dget key_eqb (acc, Some num, " "%char) ds = Some d /\ ds_reaction d = Some (MRxn rx, PTok line) /\ tells r rx R /\ ds_class_of d = CrossSection /\ ds_simplified d = true /\
    ds_table d = simplified_table (map (fun row => r1 ++ r2 ++ row) rows) a f b g w.
Proof. exact well_cross. Qed.
Print Assumptions C87_cross_section.

(** ** An entry *)

Definition rich_main : str := text_of
  ["SUBENT        10001001   20200101";
   "BIB                  5          9";
   "TITLE      Cross sections of iron";
   "AUTHOR     (J.A.DOE,R. VAN DER BERG,";
   "           E.SMITH) Speaker is J.A.Doe";
   "INSTITUTE  (1USALRL) on leave from";
   "           Berkeley";
   "           (1USABNL)";
   "REFERENCE  (J,PR,12 , 345 (1) ,197503) Main";
   "            paper";
   "           (R,UCRL-123,7203)";
   "ENDBIB               9";
   "COMMON               1          3";
   "EN";
   "KEV";
   " 1.4700E+04";
   "ENDCOMMON            3";
   "ENDSUBENT           10"].
Definition rich_data : str := text_of
  ["SUBENT        10001002   20200101";
   "BIB                  3          7";
   "REACTION   (26-FE-56(N,2N)";
   "           26-FE-55,,SIG) activation";
   "MONITOR    Relative to uranium.";
   "           (92-U-235(N,F),,SIG) as given";
   "           in the literature";
   "           ((MONIT1)26-FE-56(N,TOT),,SIG)";
   "STATUS     (TABLE)";
   "ENDBIB               7";
   "NOCOMMON             0          0";
   "DATA                 2          2";
   "DATA       DATA-ERR";
   "MB         PER-CENT";
   " 440.        5.0";
   " 4.6+02";
   "ENDDATA              4";
   "ENDSUBENT           13"].

Lemma rich_reaction : reaction_code shipped (tx "(26-FE-56(N,2N) 26-FE-55,,SIG) activation").
Proof.
  left. apply (one_known _ n2n (tx "activation")); [apply C67_n2n|apply knownb_ok; vm_compute; reflexivity|].
  apply (in_fieldb_ok _ (tx "(26-FE-56(N,2N) 26-FE-55,,SIG)") (tx " ") (tx "activation")). vm_compute. reflexivity.
Qed.

Definition main_bib : list str := nth 0 (sections_in rich_main) [].
Definition rich_bib : list str := nth 0 (sections_in rich_data) [].
Lemma bib_check : forall b, keywordb (tx "BIB") b && match b with _ :: l :: _ => negb (BibLemmas.is_frame l) | _ => false end = true ->
  Forall (well_field shipped) (bib_chunkify b) -> well_section shipped b.
Proof.
  intros b H W. apply andb_true_iff in H. destruct H as [K F]. left. split; [now apply keyword_iff|].
  exists (bib_chunkify b). split; [|exact W]. destruct (bib_chunkify b) as [|f fs] eqn:E; [exfalso|].
  - destruct (BibLemmas.bib_chunkify_spec b) as (f & r & _ & Q & _). congruence.
  - apply fields_ok; [exact E|]. destruct b as [|x [|l r]]; try discriminate. exists l. split; [right; now left|].
    intro X. apply BibLemmas.is_frame_iff in X. rewrite X in F. discriminate.
Qed.

Example C87_main_fields : Forall (well_field shipped) (bib_chunkify main_bib).
Proof.
  apply Forall_cons; [apply other_field; vm_compute; reflexivity|].
  apply Forall_cons.
  { apply only_keyword. exists "AUTHOR". split; [vm_compute; auto|]. split; [apply keyword_iff; vm_compute; reflexivity|].
    right. intros p ls parts L F. apply pointer_lines_in in L. vm_compute in L. destruct L as [L|[]]. injection L as _ <-.
    exists P12_Names.author_names. left. apply (name_list_ok _ [0; 0; 0] (tx " Speaker is J.A.Doe")).
    - inversion F as [|? ? ? ? T1 F1]; subst. inversion F1 as [|? ? ? ? T2 F2]; subst. inversion F2; subst.
      apply StrLemmas.strip_iff in T1, T2. subst. vm_compute. reflexivity.
    - inversion F as [|? ? ? ? T1 F1]; subst. inversion F1 as [|? ? ? ? T2 F2]; subst. inversion F2; subst.
      apply StrLemmas.strip_iff in T1, T2. subst. vm_compute. reflexivity. }
  apply Forall_cons.
  { apply only_keyword. exists "INSTITUTE". split; [vm_compute; auto 10|]. split; [apply keyword_iff; vm_compute; reflexivity|].
    intros p ls text L T. apply pointer_lines_in in L. vm_compute in L. destruct L as [L|[]]. injection L as _ <-.
    apply pointer_text_is in T. exists P12_Names.institute_items. split; [discriminate|]. split.
    - apply (render_ok [mkPiece [] (tx "1USALRL") [] [(tx " ", tx "on"); (tx " ", tx "leave"); (tx " ", tx "from"); (tx " ", tx "Berkeley")];
                        mkPiece (tx " ") (tx "1USABNL") [] []] [] []); [vm_compute; reflexivity..|]. subst. vm_compute. reflexivity.
    - apply no_tabsb_ok. subst. vm_compute. reflexivity. }
  apply Forall_cons; [|constructor].
  apply only_keyword. exists "REFERENCE". split; [vm_compute; auto 10|]. split; [apply keyword_iff; vm_compute; reflexivity|].
  assert (R : forall p ls, pointer_lines (nth 3 (bib_chunkify main_bib) []) p ls ->
    reference_lines ls [mkRefText "J" (tx "PR") [tx "12"; tx "345(1)"] [1; 9; 7; 5; 0; 3]%N (tx " Main paper"); mkRefText "R" (tx "UCRL-123") [] [7; 2; 0; 3]%N []]).
  { intros p ls L. apply pointer_lines_in in L. vm_compute in L. destruct L as [L|[]]. injection L as _ <-.
    match goal with |- reference_lines ?ls ?rs => replace rs with (refs_guess ls) by (vm_compute; reflexivity) end. apply ref_linesb_ok. vm_compute. reflexivity. }
  split; [apply newlines_ok; vm_compute; reflexivity|]. split.
  - intros p ls L. eexists. exact (R p ls L).
  - intros p ps ls _ L. eexists _, _. split; [exact (R p ls L)|vm_compute; auto].
Qed.

Example C87_data_fields : Forall (well_field shipped) (bib_chunkify rich_bib).
Proof.
  apply Forall_cons.
  { apply only_keyword. exists "REACTION". split; [vm_compute; auto|]. split; [apply keyword_iff; vm_compute; reflexivity|].
    apply reactions_check. intros p ls I text T. vm_compute in I. destruct I as [I|[]]. injection I as _ <-.
    apply pointer_text_is in T. subst. exact rich_reaction. }
  apply Forall_cons; [|apply Forall_cons; [apply other_field; vm_compute; reflexivity|constructor]].
  apply only_keyword. exists "MONITOR". split; [vm_compute; auto|]. split; [apply keyword_iff; vm_compute; reflexivity|].
  intros p ls L. apply pointer_lines_in in L. vm_compute in L. destruct L as [L|[]].
  assert (E : ls = map tx ["Relative to uranium."; "(92-U-235(N,F),,SIG) as given"; "in the literature"; "((MONIT1)26-FE-56(N,TOT),,SIG)"])
    by (vm_compute; congruence).
  clear L. subst ls.
  exists [[tx "Relative to uranium."]], [tx "Relative to uranium." ++ []],
    [[tx "(92-U-235(N,F),,SIG) as given"; tx "in the literature"]; [tx "((MONIT1)26-FE-56(N,TOT),,SIG)"]],
    [tx "(92-U-235(N,F),,SIG) as given" ++ " "%char :: tx "in the literature" ++ []; tx "((MONIT1)26-FE-56(N,TOT),,SIG)" ++ []].
  assert (O : forall l, startswith (strip l) (lit "(") = false -> ~ opens l) by (intros l E X; apply opens_iff in X; congruence).
  assert (B : forall l, unbalanced l = false -> balanced l) by (intros l E; now apply unbalanced_iff).
  assert (T : forall l, strip l = l -> trimmed l l) by (intros l E; now apply StrLemmas.strip_iff).
  split; [reflexivity|]. split.
  { constructor; [|constructor]. constructor; [apply T; vm_compute; reflexivity|apply O; vm_compute; reflexivity|constructor]. }
  split; [apply le_n|]. split.
  { constructor; [|constructor; [|constructor]].
    - constructor; [apply opens_iff; vm_compute; reflexivity|apply B; vm_compute; reflexivity|].
      constructor; [apply T; vm_compute; reflexivity|apply O; vm_compute; reflexivity|constructor].
    - constructor; [apply opens_iff; vm_compute; reflexivity|apply B; vm_compute; reflexivity|constructor]. }
  assert (M : forall t w, contains w t = false -> ~ mentions t w) by (intros t w E X; apply MonitorLemmas.contains_intro in X; congruence).
  cbn [app]. apply Forall_cons; [|apply Forall_cons; [|apply Forall_cons; [|constructor]]].
  - apply mt_remark; [apply M; vm_compute; reflexivity|]. intros rest E. vm_compute in E. discriminate E.
  - apply mt_reaction; [apply M; vm_compute; reflexivity|]. left.
    apply (one_known _ (mkRcode (plain "92" "U" "235") (CWord (tx "N")) [CWord (tx "F")] None [None; Some (tx "SIG")]) (tx "as given in the literature"));
      [apply reactionb_ok; vm_compute; reflexivity|apply knownb_ok; vm_compute; reflexivity|].
    apply (in_fieldb_ok _ (tx "(92-U-235(N,F),,SIG)") (tx " ") (tx "as given in the literature")). vm_compute. reflexivity.
  - apply (mt_heading shipped (tx "1") (tx "26-FE-56(N,TOT),,SIG)")).
    + vm_compute. intuition discriminate.
    + apply M. vm_compute. reflexivity.
    + left. apply (one_known _ (mkRcode (plain "26" "FE" "56") (CWord (tx "N")) [CWord (tx "TOT")] None [None; Some (tx "SIG")]) []);
        [apply reactionb_ok; vm_compute; reflexivity|apply knownb_ok; vm_compute; reflexivity|].
      apply (in_fieldb_ok _ (tx "(26-FE-56(N,TOT),,SIG)") [] []). vm_compute. reflexivity.
Qed.

Example C87_hypotheses : well_dictionaries shipped P12_Names.e1 /\ well_entry shipped (tx "10001") [rich_main; rich_data] /\
  forall acos, (forall x, cosine x -> acos x <> None) -> Forall (simple_subentry acos) [rich_main; rich_data].
Proof.
  split; [|split].
  - constructor; [apply shipped_keys|apply shipped_keys|reflexivity|exact (all_named (tx "compound") [] dict09_keys)| |apply rowsb_ok; vm_compute; reflexivity|apply Nat.lt_0_succ].
    intros k row H. apply (StrLemmas.dget_In _ StrLemmas.str_eqb_eq) in H. vm_compute in H. intuition congruence.
  - constructor.
    + exists rich_main, [rich_data], (tx "SUBENT        10001001   20200101"), (tl (split_char nl rich_main)). split; [reflexivity|].
      split; [exact (split_lines rich_main)|]. split; [|split; reflexivity].
      exists [tx "10001001"; tx "20200101"].
      replace (list_ascii_of_string "SUBENT" :: [tx "10001001"; tx "20200101"]) with (split_ws (tx "SUBENT        10001001   20200101"))
        by (vm_compute; reflexivity). apply DataLemmas.split_words.
    + apply Forall_cons; [|apply Forall_cons; [|constructor]].
      * apply (well_subentry_check _ (tx "10001001")); [vm_compute; reflexivity|]. apply Forall_cons; [|apply Forall_cons; [|constructor]].
        -- apply bib_check; [vm_compute; reflexivity|exact C87_main_fields].
        -- right. split; [right; apply keyword_iff; vm_compute; reflexivity|]. exact (written_numeric _ _ _ C78_common_lines).
      * apply (well_subentry_check _ (tx "10001002")); [vm_compute; reflexivity|]. apply Forall_cons; [|apply Forall_cons; [|constructor]].
        -- apply bib_check; [vm_compute; reflexivity|exact C87_data_fields].
        -- right. split; [left; apply keyword_iff; vm_compute; reflexivity|]. exact (written_numeric _ _ _ C78_data_lines).
    + exists rich_main, main_bib. split; [|apply has_sectionb; vm_compute; reflexivity].
      apply (lastb_ok _ _ (numberedb (tx "10001001"))); [intros y; apply numbered_iff|vm_compute; reflexivity].
  - intros acos A. apply Forall_cons; [|apply Forall_cons; [|constructor]]; (apply simple_subentry_check; [exact A|vm_compute; reflexivity]).
Qed.
(** A table with cosines, and one with a cosine of 1.5. *)
Definition of_cosines (c : string) : list str := map tx
  ["DATA                 3          2";
   "EN         COS-CM     DATA-CM";
   "MEV        NO-DIM     MB/SR";
   "1.4        0.5        12.5";
   String.append "1.4        " c;
   "ENDDATA              4"].
Example C87_cosine_table :
  (forall acos, (forall x, cosine x -> acos x <> None) -> simple_headings acos (of_cosines "-1.        9.75")) /\
  ~ simple_headings (fun x => if SFleb x (fl 1 0) then Some x else None) (of_cosines "1.5        9.75").
Proof.
  split; [intros acos A; apply simple_check_ok; [exact A|vm_compute; reflexivity]|]. intros [_ H _ _].
  assert (HD : table_heading (of_cosines "1.5        9.75") 1 (tx "COS-CM") (tx "NO-DIM") /\ table_entry (of_cosines "1.5        9.75") 1 1 (tx "1.5")).
  { assert (W : words (columns 0 33 (tx "DATA                 3          2")) [tx "DATA"; tx "3"; tx "2"]).
    { replace [tx "DATA"; tx "3"; tx "2"] with (split_ws (columns 0 33 (tx "DATA                 3          2"))) by (vm_compute; reflexivity). apply DataLemmas.split_words. }
    assert (N : number_is (tx "3") 3) by (exists [3%N]; repeat split; [repeat constructor|discriminate]).
    assert (C : forall l, strip (columns 11 22 l) = strip (columns (11 * (1 mod 6)) (11 * (1 mod 6) + 11) l)) by reflexivity.
    split; exists 3, (tx "DATA                 3          2"), (tl (of_cosines "1.5        9.75")), (tx "DATA"), (tx "3"), [tx "2"];
      (split; [reflexivity|]); (split; [exact W|]); (split; [exact N|]).
    - split; [repeat constructor|]. split; eexists; (split; [reflexivity|]); apply StrLemmas.strip_iff; vm_compute; reflexivity.
    - split; [repeat constructor|]. split; [vm_compute; repeat constructor|]. eexists; (split; [reflexivity|]); apply StrLemmas.strip_iff; vm_compute; reflexivity. }
  destruct HD as [HD HE].
  assert (NT : number_text (tx "1.5") (Some (fl 15 (-1)))).
  { destruct (number_okb_ok (tx "1.5") ltac:(vm_compute; reflexivity)) as (x & X). pose proof (TextTableLemmas.number_parsed _ _ X) as E.
    vm_compute in E. injection E as <-. exact X. }
  destruct (H 1 1 _ _ _ _ HD ltac:(exists [], (tx "-CM"); reflexivity) HE NT) as [Q _]. apply Q. vm_compute. reflexivity.
Qed.
(** What comes out of it: one cross section. *)
Example C87_example :
  match X4Entry P12_Names.e1 [rich_main; rich_data] with
  | Ok n => match getSimplifiedDataSets nm1 (fun x => Some x) false n [] store0 with
            | Ok (ds, errs, _, _) => errs = [] /\ map (fun kd => (fst kd, ds_class_of (snd kd))) ds = [((tx "10001", Some (tx "10001002"), " "%char), CrossSection)] /\
                map (fun kd => option_map (@length _) (ds_monitor (snd kd))) ds = [Some 3]
            | Raise _ => False
            end
  | Raise _ => False
  end.
Proof. vm_compute. auto. Qed.

(** One fault, and nothing of the entry is read: an author without parentheses. *)
Example C87_fault : X4Entry P12_Names.e1 [main_text; text_of
  ["SUBENT        10001002   20200101";
   "BIB                  1          1";
   "AUTHOR     J.A.DOE";
   "ENDBIB               1";
   "ENDSUBENT            4"]] = Raise TypeError.
Proof. vm_compute. reflexivity. Qed.
