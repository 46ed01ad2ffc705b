(** Property C96: what is shown when an entry is printed. *)
From Coq Require Import String List Ascii NArith ZArith Bool Arith Sorted.
From Verif.Model Require Import Py PyFloat Dicts Particle Reaction Field Section Entry Columns Dataset Print Show Pyparsing Grammars Shipped Library ShippedDicts.
From Verif.Spec Require Import Text Exfor Merging Codes Known Query Document ReadBack WellWritten Printable Shown.
From Verif.Proofs Require Import StrLemmas DocumentCheck WellCheck LibraryLemmas ShowLemmas.
From Verif.Properties Require P12_Names.
From Verif.Properties Require Import P15_Document P23_WellWritten P24_Printable P25_Library.
Import ListNotations.
Local Open Scope string_scope.
Local Open Scope list_scope.
Local Open Scope nat_scope.

(** str(entry) of an entry that keeps to the format. *)
Theorem C96_str : forall c e nm acc raw, well_dictionaries c e -> naming c e nm -> well_entry c acc raw ->
  (forall num text, In text raw -> numbered num text -> length num = 8) ->
  exists n t, X4Entry e raw = Ok n /\ entry_str nm n = Ok t /\ entry_shown e nm acc raw t.
Proof. intros c e nm acc raw D N. exact (entry_is_shown c e D nm N acc raw). Qed.
Print Assumptions C96_str.

(** With the dictionaries that are shipped. *)
Theorem C96_shipped : forall depth e nm acc raw, 0 < depth -> load shipped_dir depth = Ok (shipped, e, nm) -> well_entry shipped acc raw ->
  (forall num text, In text raw -> numbered num text -> length num = 8) ->
  exists n t, X4Entry e raw = Ok n /\ entry_str nm n = Ok t /\ entry_shown e nm acc raw t.
Proof.
  intros depth e nm acc raw DP L. destruct (loaded_is _ _ _ DP L) as (D & N). exact (C96_str shipped e nm acc raw D N).
Qed.
Print Assumptions C96_shipped.

(** repr(entry) raises AttributeError exactly if the authors of some subentry are "not given". *)
Theorem C96_repr : forall c e acc raw, well_dictionaries c e -> well_entry c acc raw ->
  (forall num text, In text raw -> numbered num text -> length num = 8) ->
  exists n, X4Entry e raw = Ok n /\
    let missing := exists num text, last_such (numbered num) raw text /\ without_authors text in
    (~ missing -> exists t, entry_repr n = Ok t) /\ (missing -> entry_repr n = Raise AttributeError).
Proof. intros c e acc raw D. exact (entry_at_most c e D acc raw). Qed.
Print Assumptions C96_repr.

(** ** Examples *)

(** The entry of C87: title, authors, institutes, references, COMMON, a reaction with a remark,
    monitors, and a table.  The remark is not shown. *)
Example C96_rich :
  (well_dictionaries shipped P12_Names.e1 /\ naming shipped P12_Names.e1 named /\ well_entry shipped (tx "10001") [rich_main; rich_data]) /\
  (forall num text, In text [rich_main; rich_data] -> numbered num text -> length num = 8) /\
  match X4Entry P12_Names.e1 [rich_main; rich_data] with
  | Ok n => entry_str named n = Ok (join [nl] (map lit
      ["ENTRY      10001      ";
       "SUBENT     10001001   ";
       "BIB                  4          9";
       "Cross Sections Of Iron";
       "J.A.Doe, R. Van Der Berg, E.Smith";
       "Lawrence Livermore (On Leave From Berkeley); Brookhaven";
       "Phys. Rev. 12, 345(1) (1975); Report: UCRL-123  (1972)";
       "ENDBIB               9";
       "COMMON               1          1";
       "EN         ";
       "KEV        ";
       "14700.0    ";
       "ENDCOMMON            3";
       "ENDSUBENT  ";
       "SUBENT     10001002   ";
       "BIB                  3          7";
       "Cross section for 56Fe(n,2n)55Fe";
       "[(None, 'Relative to uranium.', None), ((92-U-235(N,F),SIG), 'as given in the literature', None), ((26-FE-56(N,TOT),SIG), '', 'MONIT1')]";
       "(TABLE)";
       "ENDBIB               7";
       "DATA                 2          2";
       "DATA       DATA-ERR   ";
       "MB         PER-CENT   ";
       "440.0      5.0        ";
       "460.0      None       ";
       "ENDDATA              4";
       "ENDSUBENT  ";
       "ENDENTRY   "])) /\ exists t, entry_repr n = Ok t
  | Raise _ => False
  end.
Proof.
  split; [split; [apply C87_hypotheses|split; [exact C88_naming|apply C87_hypotheses]]|]. split.
  - intros num text I NU. cbn [In] in I. destruct I as [<-|[<-|[]]].
    + assert (numbered (tx "10001001") rich_main) as NU' by (apply numbered_iff; vm_compute; reflexivity). rewrite (RetrieveLemmas.numbered_one _ _ _ NU NU'). reflexivity.
    + assert (numbered (tx "10001002") rich_data) as NU' by (apply numbered_iff; vm_compute; reflexivity). rewrite (RetrieveLemmas.numbered_one _ _ _ NU NU'). reflexivity.
  - vm_compute. split; [reflexivity|eauto].
Qed.

(** With a pointer the remark of a reaction is shown, without it is not; a keyword that stands twice is
    shown twice as it stands last; entries without authors. *)
Definition remarked (pointer : string) : str := join [nl] (map lit
  ["SUBENT        10001002   20200101";
   "BIB                  2          2";
   String.append "REACTION  " (String.append pointer "(26-FE-56(N,2N)26-FE-55,,SIG) by activation");
   "ENDBIB               2";
   "ENDSUBENT            5"]).
Definition twice : str := join [nl] (map lit
  ["SUBENT        10001002   20200101";
   "BIB                  2          2";
   "STATUS     First";
   "COMMENT    Between";
   "STATUS     Last";
   "ENDBIB               2";
   "ENDSUBENT            5"]).
Definition nobody : str := join [nl] (map lit
  ["SUBENT        10001001   20200101";
   "BIB                  2          2";
   "TITLE      Iron";
   "AUTHOR     (No author given)";
   "ENDBIB               2";
   "ENDSUBENT            5"]).
Definition shows (text : str) (lines : list string) : Prop :=
  match X4SubEntry P12_Names.e1 text with Ok s => subentry_str named s = Ok (join [nl] (map lit lines)) | Raise _ => False end.
Example C96_remarks : shows (remarked " ")
  ["SUBENT     10001002   "; "BIB                  1          1"; "Cross section for 56Fe(n,2n)55Fe"; "ENDBIB               1"; "ENDSUBENT  "] /\
  shows (remarked "1")
  ["SUBENT     10001002   "; "BIB                  1          1"; "[1] Cross section for 56Fe(n,2n)55Fe, by activation"; "ENDBIB               1"; "ENDSUBENT  "] /\
  shows twice
  ["SUBENT     10001002   "; "BIB                  2          2"; "Last"; "Between"; "Last"; "ENDBIB               2"; "ENDSUBENT  "].
Proof. vm_compute. auto. Qed.
Example C96_nobody : without_authors nobody /\ shows nobody
  ["SUBENT     10001001   "; "BIB                  2          1"; "Iron"; "No author given"; "ENDBIB               1"; "ENDSUBENT  "] /\
  match X4Entry P12_Names.e1 [nobody] with Ok n => entry_repr n = Raise AttributeError | Raise _ => False end.
Proof.
  split; [|vm_compute; auto]. exists (map tx ["BIB                  2          2"; "TITLE      Iron"; "AUTHOR     (No author given)"; "ENDBIB               2"]).
  exists [[tx "TITLE      Iron"]; [tx "AUTHOR     (No author given)"]], [tx "AUTHOR     (No author given)"]. split; [apply has_sectionb; vm_compute; reflexivity|]. split; [|split].
  - apply fields_ok; [vm_compute; reflexivity|]. eexists. split; [right; left; reflexivity|]. intro X. apply BibLemmas.is_frame_iff in X. vm_compute in X. discriminate X.
  - apply (lastb_ok _ _ (keywordb (tx "AUTHOR"))); [intro y; apply keyword_iff|vm_compute; reflexivity].
  - exists (tx "AUTHOR     (No author given)"). split; [now left|]. left. exists (tx "AUTHOR     ("), (tx ")"). vm_compute. reflexivity.
Qed.

(** The docstring has the text "suitable for parsing with x4i".  It is not: keywords are missing, so
    that the line of a reaction is taken for a field with the keyword "Cross sect", and a value that is
    not given is shown as None, which is not a number. *)
Theorem C96_parsed_refuted :
  (exists s t s', X4SubEntry P12_Names.e1 (remarked " ") = Ok s /\ subentry_str named s = Ok t /\ X4SubEntry P12_Names.e1 t = Ok s' /\
    (exists b, bib_of s = Some b /\ dkeys (b_dict b) = [Some (tx "REACTION")]) /\
    exists b, bib_of s' = Some b /\ dkeys (b_dict b) = [Some (tx "Cross sect")]) /\
  exists s t, X4SubEntry P12_Names.e1 rich_data = Ok s /\ subentry_str named s = Ok t /\ X4SubEntry P12_Names.e1 t = Raise BrokenNumberError.
Proof.
  split.
  - destruct (X4SubEntry P12_Names.e1 (remarked " ")) as [s|] eqn:E1; [|vm_compute in E1; discriminate].
    destruct (subentry_str named s) as [t|] eqn:E2; [|vm_compute in E1; injection E1 as <-; vm_compute in E2; discriminate].
    exists s, t. vm_compute in E1. injection E1 as <-. vm_compute in E2. injection E2 as <-.
    eexists. split; [reflexivity|]. split; [reflexivity|]. split; [vm_compute; reflexivity|]. split; eexists; (split; [vm_compute; reflexivity|vm_compute; auto]).
  - destruct (X4SubEntry P12_Names.e1 rich_data) as [s|] eqn:E1; [|vm_compute in E1; discriminate].
    destruct (subentry_str named s) as [t|] eqn:E2; [|vm_compute in E1; injection E1 as <-; vm_compute in E2; discriminate].
    exists s, t. vm_compute in E1. injection E1 as <-. vm_compute in E2. injection E2 as <-.
    split; [reflexivity|]. split; [reflexivity|]. vm_compute. reflexivity.
Qed.
Print Assumptions C96_parsed_refuted.
