(** Property C97: headers, legends and citations. *)
From Coq Require Import String List Ascii NArith ZArith Bool Arith Sorted.
From Verif.Model Require Import Py PyFloat Dicts Particle Reaction Field Section Entry Columns Dataset Print Show Pyparsing Grammars Shipped Library ShippedDicts.
From Verif.Spec Require Import Text Exfor Merging Codes Known Query Document ReadBack WellWritten Printable Shown Headers.
From Verif.Proofs Require Import StrLemmas DocumentLemmas DocumentCheck WellCheck LibraryLemmas ShowLemmas HeaderLemmas.
From Verif.Properties Require P12_Names.
From Verif.Properties Require Import P15_Document P23_WellWritten P24_Printable P25_Library P32_Shown.
Import ListNotations.
Local Open Scope string_scope.
Local Open Scope list_scope.
Local Open Scope nat_scope.

(** X4EntryMetaData of an entry that keeps to the format, and what it shows.  The text ?????.??? in a
    citation would be replaced by the number of the entry. *)
Theorem C97_entry : forall c e acc raw, well_dictionaries c e -> well_entry c acc raw ->
  exists n nums m n' text b h, X4Entry e raw = Ok n /\ X4EntryMetaData n = Ok ((acc, false, map Some nums, m), n') /\
    StronglySorted str_lt nums /\ (forall num, In num nums <-> exists text, In text raw /\ numbered num text) /\
    last_such (numbered (acc ++ tx "001")) raw text /\ has_section "BIB" text b /\ told e [b] h /\
    entry_xmgraceHeader acc false m = tx "#Exfor Entry " ++ acc ++ ascii_of_N 10 :: header_text h (acc ++ tx "001") /\
    entry_legend acc false m = legend_text h /\
    (h_date h = None -> entry_citation acc false m = Raise AttributeError) /\
    (forall date, h_date h = Some date -> let t := citation_text h (acc ++ tx "001") date in
       ~ mentions t (tx "?????.???") -> entry_citation acc false m = Ok t).
Proof. intros c e acc raw D. exact (entry_told c e D acc raw). Qed.
Print Assumptions C97_entry.

(** Every data set. *)
Theorem C97_data_sets : forall c e nm acc raw errs, well_dictionaries c e -> naming c e nm -> well_entry c acc raw ->
  (forall num text, In text raw -> numbered num text -> length num = 8) ->
  exists n ds errs' n', X4Entry e raw = Ok n /\ getDataSets nm n errs = Ok (ds, errs', n') /\
    forall k d, dget key_eqb k ds = Some d -> told_set e nm acc raw k d.
Proof. intros c e nm acc raw errs D N. exact (data_sets_told c e D nm N acc raw errs). Qed.
Print Assumptions C97_data_sets.

(** Simplified data sets as well. *)
Theorem C97_simplified : forall c e nm acos mk acc raw n errs s ds errs' n' s' k d, well_dictionaries c e -> naming c e nm -> well_entry c acc raw ->
  (forall num text, In text raw -> numbered num text -> length num = 8) -> X4Entry e raw = Ok n ->
  getSimplifiedDataSets nm acos mk n errs s = Ok (ds, errs', n', s') -> dget key_eqb k ds = Some d -> told_set e nm acc raw k d.
Proof. intros c e nm acos mk acc raw n errs s ds errs' n' s' k d D N. exact (simplified_told c e D nm N acos mk acc raw n errs s ds errs' n' s' k d). Qed.
Print Assumptions C97_simplified.

(** With the dictionaries that are shipped. *)
Theorem C97_shipped : forall depth e nm acc raw errs, 0 < depth -> load shipped_dir depth = Ok (shipped, e, nm) -> well_entry shipped acc raw ->
  (forall num text, In text raw -> numbered num text -> length num = 8) ->
  exists n ds errs' n', X4Entry e raw = Ok n /\ getDataSets nm n errs = Ok (ds, errs', n') /\
    forall k d, dget key_eqb k ds = Some d -> told_set e nm acc raw k d.
Proof.
  intros depth e nm acc raw errs DP L. destruct (loaded_is _ _ _ DP L) as (D & N). exact (C97_data_sets shipped e nm acc raw errs D N).
Qed.
Print Assumptions C97_shipped.

(** ** Examples *)

(** The entry of C87 (its hypotheses: C96_rich), and its data set. *)
Example C97_rich :
  match X4Entry P12_Names.e1 [rich_main; rich_data] with
  | Ok n =>
      match X4EntryMetaData n with
      | Ok ((acc, del, ks, m), _) =>
          acc = tx "10001" /\ del = false /\ ks = [Some (tx "10001001"); Some (tx "10001002")] /\
          entry_xmgraceHeader acc del m = join [nl] (map lit
            ["#Exfor Entry 10001";
             "#  Authors:   J.A.Doe, R. Van Der Berg, E.Smith";
             "#  Title:     Cross Sections Of Iron";
             "#  Year:      1975";
             "#  Institute: Lawrence Livermore (On Leave From Berkeley); Brookhaven";
             "#  Reference: Phys. Rev. 12, 345(1) (1975); Report: UCRL-123  (1972)";
             "#  Subent:    10001001"]) /\
          entry_legend acc del m = lit "(1975) J.A.Doe, R. Van Der Berg, et al." /\
          entry_citation acc del m = Ok (lit (String.append "J.A.Doe, R. Van Der Berg, et al., Phys. Rev. 12, 345(1) (1975); Report: UCRL-123  (1972);  Data taken from the EXFOR database, file EXFOR "
            "10001001 dated 197503, retrieved from the IAEA Nuclear Data Services website."))
      | Raise _ => False
      end /\
      match getDataSets named n [] with
      | Ok ([(k, d)], _, _) => k = (tx "10001", Some (tx "10001002"), " "%char) /\
          strHeader named d = Ok (join [nl] (map lit
            ["#  Authors:   J.A.Doe, R. Van Der Berg, E.Smith";
             "#  Title:     Cross Sections Of Iron";
             "#  Year:      1975";
             "#  Institute: Lawrence Livermore (On Leave From Berkeley); Brookhaven";
             "#  Reference: Phys. Rev. 12, 345(1) (1975); Report: UCRL-123  (1972)";
             "#  Subent:    10001002";
             "#  Reaction:  Cross section for 56Fe(n,2n)55Fe activation";
             "#  Monitor(s): (None, 'Relative to uranium.', None) ((92-U-235(N,F),SIG), 'as given in the literature', None) ((26-FE-56(N,TOT),SIG), '', 'MONIT1')"]))
      | _ => False
      end
  | Raise _ => False
  end.
Proof. vm_compute. repeat split. Qed.

(** Nothing but a title: the letters of None are the authors, and there is no citation.  Subentry 003
    has no BIB section, so that the reaction of subentry 001 holds for it. *)
Definition bare_main : str := join [nl] (map lit
  ["SUBENT        10001001   20200101";
   "BIB                  1          1";
   "TITLE      Iron";
   "ENDBIB               1";
   "ENDSUBENT            4"]).
Definition bare_reaction : str := join [nl] (map lit
  ["SUBENT        10001001   20200101";
   "BIB                  2          2";
   "TITLE      Iron";
   "REACTION   (26-FE-56(N,2N)26-FE-55,,SIG)";
   "ENDBIB               2";
   "ENDSUBENT            5"]).
Definition bare_data : str := join [nl] (map lit
  ["SUBENT        10001003   20200101";
   "DATA                 2          1";
   "EN         DATA";
   "MEV        MB";
   " 1.4700E+01 4.4000E+02";
   "ENDDATA              3";
   "ENDSUBENT            6"]).
Example C97_bare_well : well_entry shipped (tx "10001") [bare_main].
Proof.
  constructor.
  - exists bare_main, [], (tx "SUBENT        10001001   20200101"), (tl (split_char nl bare_main)). split; [reflexivity|].
    split; [exact (split_lines bare_main)|]. split; [|split; reflexivity]. exists [tx "10001001"; tx "20200101"].
    replace (list_ascii_of_string "SUBENT" :: [tx "10001001"; tx "20200101"]) with (split_ws (tx "SUBENT        10001001   20200101"))
      by (vm_compute; reflexivity). apply DataLemmas.split_words.
  - apply Forall_cons; [|constructor]. apply (well_subentry_check _ (tx "10001001")); [vm_compute; reflexivity|]. apply Forall_cons; [|constructor].
    apply bib_check; [vm_compute; reflexivity|]. apply Forall_cons; [|constructor]. apply other_field. vm_compute. reflexivity.
  - eexists bare_main, _. split; [|apply has_sectionb; vm_compute; reflexivity].
    apply (lastb_ok _ _ (numberedb (tx "10001001"))); [intros y; apply numbered_iff|vm_compute; reflexivity].
Qed.
Definition bare_lines : list string :=
  ["#  Authors:   N, o, n, e"; "#  Title:     Iron"; "#  Year:      None"; "#  Institute: None"; "#  Reference: None"; "#  Subent:    10001001"].
Example C97_bare :
  match X4Entry P12_Names.e1 [bare_main] with
  | Ok n =>
      match X4EntryMetaData n with
      | Ok ((acc, del, ks, m), _) =>
          entry_xmgraceHeader acc del m = join [nl] (map lit ("#Exfor Entry 10001" :: bare_lines)) /\
          entry_legend acc del m = lit "(None) N, o, et al." /\ entry_citation acc del m = Raise AttributeError
      | Raise _ => False
      end
  | Raise _ => False
  end /\
  match X4Entry P12_Names.e1 [bare_reaction; bare_data] with
  | Ok n =>
      match getDataSets named n [] with
      | Ok ([(k, d)], _, _) => k = (tx "10001", Some (tx "10001003"), " "%char) /\
          strHeader named d = Ok (join [nl] (map lit (bare_lines ++ ["#  Reaction:  Cross section for 56Fe(n,2n)55Fe "])))
      | _ => False
      end
  | Raise _ => False
  end.
Proof. vm_compute. repeat split. Qed.

(** A citation says of the file that it is "dated" so and so: not the date that stands in the file, but
    that of the first reference. *)
Theorem C97_dated_refuted : exists rest n acc del ks m n' t, rich_main = tx "SUBENT        10001001   20200101" ++ ascii_of_N 10 :: rest /\
  X4Entry P12_Names.e1 [rich_main; rich_data] = Ok n /\ X4EntryMetaData n = Ok ((acc, del, ks, m), n') /\ entry_citation acc del m = Ok t /\
  mentions t (tx "file EXFOR 10001001 dated 197503,") /\ ~ mentions t (tx "20200101").
Proof.
  eexists. eexists. eexists. eexists. eexists. eexists. eexists. eexists. split; [vm_compute; reflexivity|].
  split; [vm_compute; reflexivity|]. split; [vm_compute; reflexivity|]. split; [vm_compute; reflexivity|]. split.
  - apply BibLemmas.contains_mentions. vm_compute. reflexivity.
  - intro M. apply MonitorLemmas.contains_intro in M. vm_compute in M. discriminate M.
Qed.
Print Assumptions C97_dated_refuted.
