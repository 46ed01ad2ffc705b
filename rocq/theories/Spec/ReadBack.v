(** What a section must be like for its printed form to be read as the same section.  Refers to
    the record of tables of the model. *)
From Coq Require Import String List Ascii NArith ZArith Bool Arith Sorted.
From Verif.Model Require Import Py Section.
From Verif.Spec Require Import Text Exfor Codes Document.
Import ListNotations.
Local Open Scope string_scope.
Local Open Scope list_scope.
Local Open Scope nat_scope.

(** The items of a list, each where it appears first. *)
Fixpoint appearing (ps : list ascii) : list ascii :=
  match ps with
  | [] => []
  | p :: ps' => p :: filter (fun q => negb (Ascii.eqb p q)) (appearing ps')
  end.

(** The pointers of a field come in the order of their codes. *)
Definition pointers_ascending (field : list (list ascii)) : Prop :=
  StronglySorted (fun p q => (N_of_ascii p < N_of_ascii q)%N) (appearing (marks " " field)).

Definition starts_with_END (s : list ascii) : Prop := exists rest, s = tx "END" ++ rest.

(** A BIB section: no keyword twice, none beginning with END, pointers in order, authors given,
    and not absurdly long. *)
Definition plain_bib (section : list (list ascii)) : Prop :=
  exists fs kws, fields section fs /\ Forall2 field_keyword kws fs /\ NoDup kws /\
    Forall (fun kw => ~ starts_with_END kw) kws /\ Forall pointers_ascending fs /\
    (forall f, In f fs -> field_keyword (tx "AUTHOR") f -> ~ author_missing f) /\
    (N.of_nat (length section) < 10 ^ 11)%N.

(** A DATA or COMMON section: one to six columns, whose first heading and unit do not begin with
    END, and not absurdly long. *)
Definition plain_table (d : data_section) : Prop :=
  (1 <= d_numcols d <= 6)%Z /\ (0 <= d_numrows d < 10 ^ 10)%Z /\
  ~ starts_with_END (hd [] (d_labels d)) /\ ~ starts_with_END (hd [] (d_units d)).
