(** What is read of references. *)
From Coq Require Import String List Ascii NArith ZArith Bool Arith.
From Verif.Model Require Import Py Particle Dicts Field.
From Verif.Spec Require Import Text Names.
Import ListNotations.
Local Open Scope string_scope.
Local Open Scope list_scope.
Local Open Scope nat_scope.

(** A column of a row of a dictionary. *)
Definition table_of (dicts : list (str * x4dict)) (dictionary : string) (key : str) (column : nat) : option str :=
  match dget str_eqb (lit dictionary) dicts with
  | Some d => match dget str_eqb key d with Some row => nth_error row column | None => None end
  | None => None
  end.
(** All rows have so many columns. *)
Definition wide_rows (dicts : list (str * x4dict)) (dictionary : string) (n : nat) : Prop :=
  forall d key row, dget str_eqb (lit dictionary) dicts = Some d -> dget str_eqb key d = Some row -> n <= length row.
Definition rows_ok (dicts : list (str * x4dict)) : Prop :=
  wide_rows dicts "ConferencesAndBooks" 1 /\ wide_rows dicts "Journals" 1 /\ wide_rows dicts "ReferenceTypes" 2.

(** What is read of one reference. *)
Definition ref_read (dicts : list (str * x4dict)) (r : ref) (x : refcode * ptree) : Prop :=
  rf_type (fst x) = [rt_type r] /\ rf_name (fst x) = rt_name r /\ rf_details (fst x) = rt_details r /\
  rf_date (fst x) = digits_text (rt_date r) /\ parseX4Year (digits_text (rt_date r)) = Ok (rf_pubyear (fst x)) /\
  pretty_name capitalize (table_of dicts) (rt_type r) (rt_name r) (rf_pretty (fst x)) /\ snd x = PTok (rt_comment r).

(** The references under one pointer.  If one of them has several codes, the others are without
    an equals sign. *)
Definition refs_text (rs : list ref) (text : list ascii) : Prop :=
  (exists r, rs = [r] /\ ref_text r text) \/ codes_text rs text.
Definition pointer_refs (rs : list ref) (lines : list str) : Prop :=
  exists texts groups, one_by_one lines texts /\ Forall2 refs_text groups texts /\ rs = concat groups /\
    (Exists twice texts -> Forall (fun text => twice text \/ ~ In "="%char text) texts).

(** What the types of publications are called. *)
Definition publication_kinds : list (ascii * string) :=
  [("A"%char, "Abstract"); ("B"%char, "Book"); ("C"%char, "Conf. Proc."); ("J"%char, "Journal"); ("K"%char, "Abstract of Journal");
   ("P"%char, "Prog. Report"); ("R"%char, "Lab Report"); ("S"%char, "Conf. Proc."); ("T"%char, "Thesis"); ("W"%char, "Private Comm.");
   ("X"%char, "Preprint")].
Definition publication_kind (t : ascii) : option (list ascii) :=
  match find (fun p => Ascii.eqb (fst p) t) publication_kinds with
  | Some (_, k) => Some (list_ascii_of_string k)
  | None => None
  end.
