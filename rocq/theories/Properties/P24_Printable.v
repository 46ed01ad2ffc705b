(** Property C88: what has been read can be printed, unless it is of one of two forms. *)
From Coq Require Import String List Ascii NArith ZArith Bool Arith.
From Verif.Model Require Import Py PyFloat Dicts Particle Reaction Field Section Entry Columns Dataset Pyparsing Grammars Shipped Print.
From Verif.Spec Require Import Text Exfor Tables Merging Codes Balance Known Names References Document WellWritten Printable.
From Verif.Proofs Require Import StrLemmas GeneralCheck PrintableLemmas PrintableWell.
From Verif.Properties Require P12_Names.
From Verif.Properties Require Import P15_Document P23_WellWritten.
Import ListNotations.
Local Open Scope string_scope.
Local Open Scope list_scope.
Local Open Scope nat_scope.

(** Whatever text a reaction is read from, the measurement can be printed by str exactly if its
    reactions are proper; and then by repr too. *)
Theorem C88_reactions : forall c e nm text m line, naming c e nm -> reaction_of_text e text = Ok (m, line) ->
  ((exists t, m_str nm m = Ok t) <-> forall r, In r (reactions_in m) -> proper r) /\
  ((forall r, In r (reactions_in m) -> proper r) -> exists t, m_repr nm m = Ok t).
Proof.
  intros c e nm text m line N R. split; [split|].
  - intros (t & T). exact (measurement_proper nm m t T).
  - intros P. exact (proj1 (read_measurement c e nm N text m line R P)).
  - intros P. exact (proj2 (read_measurement c e nm N text m line R P)).
Qed.
Print Assumptions C88_reactions.

(** Every data set of every entry that is read, if its reactions and those of its monitors are
    proper. *)
Theorem C88_data_sets : forall c e nm raw n errs ds errs' n' k d, naming c e nm -> X4Entry e raw = Ok n ->
  getDataSets nm n errs = Ok (ds, errs', n') -> dget key_eqb k ds = Some d ->
  (forall m r, In m (measurements d) -> In r (reactions_in m) -> proper r) ->
  (exists t, dataset_str nm d = Ok t) /\ exists t, dataset_repr nm d = Ok t.
Proof.
  intros c e nm raw n errs ds errs' n' k d N X H D P.
  exact (dataset_printed c e nm N d (entry_sourced c e (naming_grammars _ _ _ N) raw n nm errs ds errs' n' X H k d D) P).
Qed.
Print Assumptions C88_data_sets.

(** Simplified data sets as well. *)
Theorem C88_simplified : forall c e nm acos mk raw n errs s ds errs' n' s' k d, naming c e nm -> X4Entry e raw = Ok n ->
  getSimplifiedDataSets nm acos mk n errs s = Ok (ds, errs', n', s') -> dget key_eqb k ds = Some d ->
  (forall m r, In m (measurements d) -> In r (reactions_in m) -> proper r) ->
  (exists t, dataset_str nm d = Ok t) /\ exists t, dataset_repr nm d = Ok t.
Proof.
  intros c e nm acos mk raw n errs s ds errs' n' s' k d N X H D P.
  exact (dataset_printed c e nm N d (simplified_sets_sourced c e (naming_grammars _ _ _ N) raw n nm acos mk errs s ds errs' n' s' X H k d D) P).
Qed.
Print Assumptions C88_simplified.

(** In an entry that keeps to the format of C87 nothing is improper: it is read, and every data set
    of it is printed. *)
Theorem C88_well_written : forall c e nm acc raw errs, well_dictionaries c e -> naming c e nm -> well_entry c acc raw ->
  exists n ds errs' n', X4Entry e raw = Ok n /\ n_accnum n = acc /\ getDataSets nm n errs = Ok (ds, errs', n') /\
    forall k d, dget key_eqb k ds = Some d -> (exists t, dataset_str nm d = Ok t) /\ exists t, dataset_repr nm d = Ok t.
Proof. intros c e nm acc raw errs D N W. exact (well_printed c e D nm N acc raw errs W). Qed.
Print Assumptions C88_well_written.

Theorem C88_well_simplified : forall c e nm acos mk acc raw errs s, well_dictionaries c e -> naming c e nm ->
  well_entry c acc raw -> Forall (simple_subentry acos) raw ->
  exists n ds errs' n' s', X4Entry e raw = Ok n /\ getSimplifiedDataSets nm acos mk n errs s = Ok (ds, errs', n', s') /\
    forall k d, dget key_eqb k ds = Some d -> (exists t, dataset_str nm d = Ok t) /\ exists t, dataset_repr nm d = Ok t.
Proof.
  intros c e nm acos mk acc raw errs s D N W S.
  destruct (C87_simplified c e nm acos mk acc raw errs s D (naming_compounds _ _ _ N) (naming_quantities _ _ _ N) (naming_modifiers _ _ _ N) W S) as (n & ds & errs' & n' & s' & E & _ & H).
  exists n, ds, errs', n', s'. split; [exact E|]. split; [exact H|]. intros k d.
  exact (well_simplified_printed c e D nm N acc raw n acos mk errs s ds errs' n' s' k d W E H).
Qed.
Print Assumptions C88_well_simplified.

(** ** Examples *)

(** Names for the compounds, a quantity and a modifier. *)
Definition named : names :=
  mkNames (map (fun k => (k, [tx "compound"])) dict09_keys) [(tx "SIG", [tx "Cross section"]); (tx "SIG,RAT", [tx "Cross section ratio"])] [(tx "RAT", [tx "Ratio"])].
Example C88_naming : naming shipped P12_Names.e1 named.
Proof.
  constructor; [reflexivity| | |].
  - exact (all_named (tx "compound") [] dict09_keys).
  - intros k row H. apply (StrLemmas.dget_In _ str_eqb_eq) in H. cbn [nm_quantities named In] in H. intuition congruence.
  - intros k row H. apply (StrLemmas.dget_In _ str_eqb_eq) in H. cbn [nm_modifiers named In] in H. intuition congruence.
Qed.
(** The entry of C87 satisfies the hypotheses (C87_hypotheses), and this is printed of it. *)
Example C88_entry :
  match X4Entry P12_Names.e1 [rich_main; rich_data] with
  | Ok n => match getDataSets named n [] with
            | Ok (ds, _, _) => map (fun kd => (dataset_str named (snd kd), dataset_repr named (snd kd))) ds =
                [(Ok (join [nl] (map tx
                   ["#  Authors:   J.A.Doe, R. Van Der Berg, E.Smith"; "#  Title:     Cross Sections Of Iron"; "#  Year:      1975";
                    "#  Institute: Lawrence Livermore (On Leave From Berkeley); Brookhaven";
                    "#  Reference: Phys. Rev. 12, 345(1) (1975); Report: UCRL-123  (1972)";
                    "#  Subent:    10001002"; "#  Reaction:  Cross section for 56Fe(n,2n)55Fe activation";
                    "#  Monitor(s): (None, 'Relative to uranium.', None) ((92-U-235(N,F),SIG), 'as given in the literature', None) ((26-FE-56(N,TOT),SIG), '', 'MONIT1')";
                    "#        EN            DATA          DATA-ERR      "; "#        KEV           MB            PER-CENT      ";
                    "        14700.0       440.0         5.0           "; "        14700.0       460.0         None          "; "        "])),
                  Ok (join [nl] (map tx
                   ["Authors:   J.A.Doe, R. Van Der Berg, E.Smith"; "Title:     Cross Sections Of Iron"; "Year:      1975";
                    "Institute: Lawrence Livermore (On Leave From Berkeley); Brookhaven";
                    "Reference: Phys. Rev. 12, 345(1) (1975); Report: UCRL-123  (1972)"; "Subent:    10001002 ";
                    "Reaction:  (26-FE-56(N,2N)26-FE-55,SIG) "; "Monitor(s):[None, (92-U-235(N,F),SIG), (26-FE-56(N,TOT),SIG)]";
                    "[['EN','DATA','DATA-ERR'],"; "['KEV','MB','PER-CENT'],"; "[14700.0,440.0,5.0],"; "[14700.0,460.0,None]]"])))]
            | Raise _ => False
            end
  | Raise _ => False
  end.
Proof. vm_compute. reflexivity. Qed.
Definition printed (text : string) : res str := ml <- reaction_of_text P12_Names.e1 (tx text) ;; m_str named (fst ml).
(** A ratio of reactions, on a compound and with neutrons of unknown number. *)
Example C88_ratio : printed "((26-FE-CMP(N,XN+P),,SIG,,RAT)/(26-FE-56(N,G)26-FE-57,,SIG))" =
  Ok (tx "(( Cross section ratio for compound(n,Unspecified+n+p) )/( Cross section for 56Fe(n,gamma)57Fe ))").
Proof. vm_compute. reflexivity. Qed.

(** ** Without being proper *)

(** Both conditions are needed: these are read, and printing them raises TypeError.  A second
    process among the quantities is not a word. *)
Theorem C88_quantity_refuted : exists text m line, reaction_of_text P12_Names.e1 (tx text) = Ok (m, line) /\ m_str named m = Raise TypeError /\ m_repr named m = Raise TypeError.
Proof.
  exists "(26-FE-56(N,G),26-FE-56(N,G),SIG)". eexists. eexists. split; [vm_compute; reflexivity|]. split; vm_compute; reflexivity.
Qed.
Print Assumptions C88_quantity_refuted.
(** A projectile of unknown number has no name. *)
Theorem C88_multiplicity_refuted : exists text m line, reaction_of_text P12_Names.e1 (tx text) = Ok (m, line) /\ m_str named m = Raise TypeError /\ m_repr named m = Raise TypeError.
Proof.
  exists "(26-FE-56(XN,INL)26-FE-56,,SIG)". eexists. eexists. split; [vm_compute; reflexivity|]. split; vm_compute; reflexivity.
Qed.
Print Assumptions C88_multiplicity_refuted.
