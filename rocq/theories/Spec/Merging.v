(** Putting a data set together: COMMON and DATA sections, metadata, kinds of data sets.  Refers to
    the types of the model, not to its functions. *)
From Coq Require Import String List Ascii NArith ZArith Bool.
From Coq Require Import Floats.SpecFloat.
From Verif.Model Require Import Py PyFloat Utilities Dicts Particle Reaction Field Section Entry Columns Dataset.
From Verif.Spec Require Import Text Tables DataSets.
Import ListNotations.
Local Open Scope string_scope.
Local Open Scope list_scope.

(** ** Sections *)

(** Labels, units and rows as many as the section says (C33: true of every parsed section). *)
Definition section_ok (d : data_section) : Prop :=
  length (d_labels d) = Z.to_nat (d_numcols d) /\ length (d_units d) = Z.to_nat (d_numcols d) /\
  length (d_data d) = Z.to_nat (d_numrows d) /\
  (forall row, In row (d_data d) -> length row = Z.to_nat (d_numcols d)).

(** Column [j] carries no pointer, or the given one. *)
Definition own_column (d : data_section) (pointer : option ascii) (j : nat) : Prop :=
  forall p cols, In (p, cols) (d_pointers d) -> pointer <> Some p -> ~ In j cols.
(** All columns do. *)
Definition all_own (d : data_section) (pointer : option ascii) : Prop := forall j, own_column d pointer j.

(** The elements at the positions satisfying [keep], counting from [k]. *)
Fixpoint select {A} (keep : nat -> bool) (k : nat) (l : list A) : list A :=
  match l with
  | [] => []
  | x :: l' => if keep k then x :: select keep (S k) l' else select keep (S k) l'
  end.

(** Columns 1-10 of a heading, without blanks around. *)
Definition shortened (h s : list ascii) : Prop := trimmed (firstn 10 h) s.

(** What a COMMON section contributes to row [i]: its only row; of several, the one with the same
    number, and zeros when they run out. *)
Definition common_row (c : option data_section) (i : nat) : list dcell :=
  match c with
  | None => []
  | Some c =>
      if (d_numrows c =? 1)%Z then match d_data c with r :: _ => map as_cell r | [] => [] end
      else match nth_error (d_data c) i with
           | Some r => map as_cell r
           | None => repeat VZero (Z.to_nat (d_numcols c))
           end
  end.
Definition common_labels (c : option data_section) : list (list ascii) := match c with Some c => d_labels c | None => [] end.
Definition common_units (c : option data_section) : list (list ascii) := match c with Some c => d_units c | None => [] end.
(** Two sections, if both are there, are different objects. *)
Definition different (a b : option (nat * data_section)) : Prop :=
  forall i c j d, a = Some (i, c) -> b = Some (j, d) -> i <> j.

(** ** Metadata *)

(** A text slot: the text "None" counts as missing. *)
Definition text_slot (f : bibmeta -> list ascii) (m : option bibmeta) : option (list ascii) :=
  match m with
  | Some m => if list_eq_dec ascii_dec (f m) (list_ascii_of_string "None") then None else Some (f m)
  | None => None
  end.
Definition slot {A} (f : bibmeta -> option A) (m : option bibmeta) : option A :=
  match m with Some m => f m | None => None end.
Definition author_slot (m : option bibmeta) : option authors :=
  match m with Some m => match bm_author m with ANone => None | a => Some a end | None => None end.
Definition or_default {A} (x : A) (o : option A) : A := match o with Some y => y | None => x end.

(** ** Kinds of data sets *)

(** Quantities, as the codes between the commas of a reaction, that are known exactly. *)
Definition exact_quantities : list (list string * ds_class) :=
  [(["SIG"], CrossSection); (["CN"; "SIG"], CrossSection); (["SIG"; "DERIV"], CrossSection); (["SIG"; "FCT"], CrossSection);
   (["DI"; "SIG"], CrossSection); (["SIG"; "EVAL"], CrossSection); (["SIG"; "EXP"], CrossSection); (["SIG"; "AV"], CrossSection);
   (["SIG"; "MXW"], SpectrumAve); (["SIG"; "SPA"], SpectrumAve); (["SIG"; "SFC"], SpectrumAve); (["SIG"; "SFC"; "EVAL"], SpectrumAve);
   (["SIG"; "SFC"; "EXP"], SpectrumAve); (["SIG"; "FST"], SpectrumAve); (["SIG"; "RTE"], SpectrumAve); (["SIG"; "FIS"], SpectrumAve);
   (["SIG"; "FIS"; "EVAL"], SpectrumAve)].
Definition code (s : string) : ptree := PTok (list_ascii_of_string s).
Definition known_quantity (q : list ptree) (c : ds_class) : Prop :=
  exists codes, In (codes, c) exact_quantities /\ q = map code codes.
(** The others are decided by the first of these codes they contain. *)
Definition deciding_codes : list (string * ds_class) :=
  [("RI", ResonanceInt); ("POL/DA", AnalyzingPower); ("DA", AngularDist); ("NU", Nubar); ("DE", EnergyDist)].
Inductive kind (q : list ptree) : ds_class -> Prop :=
| kind_known : forall c, known_quantity q c -> kind q c
| kind_code : forall before s c after, (forall c', ~ known_quantity q c') ->
    deciding_codes = before ++ (s, c) :: after -> In (code s) q -> (forall s' c', In (s', c') before -> ~ In (code s') q) -> kind q c
| kind_other : (forall c', ~ known_quantity q c') -> (forall s' c', In (s', c') deciding_codes -> ~ In (code s') q) -> kind q DataSet.

(** The reactions a measurement consists of. *)
Inductive inside (r : reaction) : element -> Prop :=
| inside_here : inside r (ERxn r)
| inside_iso : forall data x, In x data -> inside r x -> inside r (EIso data).
Definition part_of (r : reaction) (m : measurement) : Prop :=
  match m with MRxn r' => r = r' | MComb data | MIso data => exists x, In x data /\ inside r x end.
(** The quantity of a measurement: of all its reactions alike. *)
Definition common_quantity (m : measurement) (q : list ptree) : Prop :=
  (exists r, part_of r m) /\ forall r, part_of r m -> r_quant r = q.

(** ** append *)
Definition empty_set (d : dataset) : Prop := ds_table d = mkTable [] [] [].
(** str() of both reactions gives the same text. *)
Definition texts_agree (nm : names) (a b : dataset) : Prop := exists t, reaction_text nm a = Ok t /\ reaction_text nm b = Ok t.

(** ** The data sets of an entry *)

Definition bib_of (s : subentry) : option bib :=
  match dget str_eqb (list_ascii_of_string "BIB") (s_dict s) with Some (SBib b) => Some b | _ => None end.
Definition reactions_of (s : subentry) : reactions_dict :=
  match bib_of s with
  | Some b => match bib_field b "REACTION" with Some (Some (FReaction _ rs)) => rs | _ => [] end
  | None => []
  end.
Definition monitors_of (s : subentry) : monitors_dict :=
  match bib_of s with
  | Some b => match bib_field b "MONITOR" with Some (Some (FMonitor _ ms)) => ms | _ => [] end
  | None => []
  end.
Definition metadata_of (s : subentry) : option bibmeta :=
  match bib_of s, s_accnum s with
  | Some b, Some a => match X4BibMetaData b a with Ok (m, _) => Some m | Raise _ => None end
  | _, _ => None
  end.
(** The object number of the COMMON section of a subentry: subentry 001 shares its own. *)
Definition common_of (id : nat) (s : subentry) : option (nat * data_section) := option_map (fun c => (id, c)) (sub_data s "COMMON").
Definition common_id (n : entry) (s : subentry) : nat :=
  if tag_eqb (s_accnum s) (Some (n_accnum n ++ list_ascii_of_string "001")) then 0 else 1.

(** What is tried for subentry [s] and pointer [p] with the REACTION and MONITOR of subentry
    [from], when [main] is subentry 001; None if there is no DATA or no such reaction. *)
Definition tried (nm : names) (n : entry) (main s from : subentry) (p : ascii) : option (res dataset) :=
  match sub_data s "DATA", dget Ascii.eqb p (reactions_of from) with
  | Some data, Some r =>
      Some (X4DataSetFactory nm (m_quantity (fst r)) [metadata_of main; metadata_of s]
              [common_of 0 main; common_of (common_id n s) s] (Some r) (dget Ascii.eqb p (monitors_of from)) data (Some p))
  | _, _ => None
  end.
(** The data set, or the failure: the subentry's own reaction comes after that of 001. *)
Definition ok_of {A} (x : option (res A)) : option A := match x with Some (Ok a) => Some a | _ => None end.
Definition exn_of {A} (x : option (res A)) : option exn := match x with Some (Raise e) => Some e | _ => None end.
Definition recorded (e : exn) : Prop := e = NotImplementedError \/ e = IndexError.
Definition recorded_simplifying (e : exn) : Prop :=
  In e [NotImplementedError; NoValuesGivenError; NoUncertaintyGivenError; BrokenNumberError; TypeError; IndexError].
