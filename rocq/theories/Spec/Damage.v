(** Which exceptions reading can end with, by what is being read. *)
From Coq Require Import String List Ascii NArith ZArith Bool Arith.
From Verif.Model Require Import Py PyFloat Utilities Dicts Particle Reaction Field Section Entry.
Import ListNotations.
Local Open Scope string_scope.
Local Open Scope list_scope.

(** The call gives a value, or raises one of these exceptions. *)
Definition ends_with {A} (allowed : list exn) (r : res A) : Prop :=
  (exists x, r = Ok x) \/ exists x, r = Raise x /\ In x allowed.

(** ** Fields *)

Definition reaction_errors : list exn :=
  [ReactionParsingError; ResidualNucleusError; IndexError; KeyError; TypeError; RecursionError].
Definition monitor_errors : list exn := ValueError :: reaction_errors.
Definition reference_errors : list exn :=
  [ParseException; IndexError; KeyError; TypeError; AttributeError].
Definition author_errors : list exn := [TypeError].
Definition institute_errors : list exn := [InstituteParsingError].

(** What the field with this keyword can raise; a field with any other keyword is always read. *)
Definition field_errors (keyword : list ascii) : list exn :=
  match string_of_list_ascii keyword with
  | "REACTION" => reaction_errors
  | "MONITOR" => monitor_errors
  | "REFERENCE" => reference_errors
  | "AUTHOR" => author_errors
  | "INSTITUTE" => institute_errors
  | _ => []
  end.

(** ** Sections and entries *)

Definition bib_errors : list exn :=
  monitor_errors ++ reference_errors ++ author_errors ++ institute_errors.
Definition data_errors : list exn := [IndexError; ValueError; ZeroDivisionError; BrokenNumberError].

Definition entry_errors : list exn :=
  [KeyError; IndexError; ValueError; TypeError; AttributeError; ZeroDivisionError; ParseException;
   BrokenNumberError; ReactionParsingError; ResidualNucleusError; InstituteParsingError; RecursionError].

(** ** Data sets *)

(** The exceptions getDataSets and getSimplifiedDataSets raise, and those they record instead. *)
Definition set_errors : list exn := [KeyError; TypeError].
Definition simple_errors : list exn := [KeyError; TypeError; ValueError].
Definition set_recorded : list exn := [IndexError; NotImplementedError].
Definition simple_recorded : list exn := [IndexError; NotImplementedError; TypeError; NoValuesGivenError].

(** The reaction stands in the REACTION field of a subentry. *)
Definition stands_in (n : entry) (m : measurement) : Prop :=
  exists k s b f rs p t,
    In (k, s) (n_subs n) /\ In (list_ascii_of_string "BIB", SBib b) (s_dict s) /\
    In (Some (list_ascii_of_string "REACTION"), Some (FReaction f rs)) (b_dict b) /\ In (p, (m, t)) rs.
(** entry[1]['BIB'] is there. *)
Definition has_heading (n : entry) : Prop := exists s b, entry_getitem n (EInt 1) = Ok s /\ sub_bib s = Ok b.
(** Every text has a line SUBENT. *)
Definition numbered (n : entry) : Prop := forall s, ~ In (None, s) (n_subs n).
(** What is in the new record of errors was there before, or is one of these exceptions. *)
Definition kept {K} (old : list (K * exn)) (allowed : list exn) (new : list (K * exn)) : Prop :=
  forall k x, In (k, x) new -> In (k, x) old \/ In x allowed.
