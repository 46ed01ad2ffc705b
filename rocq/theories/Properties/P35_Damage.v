(** Property C99: which exceptions reading can end with. *)
From Coq Require Import String List Ascii NArith ZArith Bool Arith.
From Verif.Model Require Import Py PyFloat Utilities Dicts Particle Reaction Field Section Entry Pyparsing Grammars Shipped.
From Verif.Spec Require Import Text Codes WellWritten Damage.
From Verif.Proofs Require Import DamageLemmas.
From Verif.Properties Require P12_Names.
From Verif.Properties Require Import P23_WellWritten.
Import ListNotations.
Local Open Scope string_scope.
Local Open Scope list_scope.
Local Open Scope nat_scope.

(** Whatever the lines of a field are, reading it gives the field or raises one of the exceptions
    that belong to its keyword. *)
Theorem C99_field : forall c e keyword lines, well_dictionaries c e -> lines <> [] ->
  ends_with (field_errors keyword) (make_field e (Some keyword) lines).
Proof. intros c e keyword lines D N. exact (okp_ends _ _ _ _ (field_raises c e D keyword lines N)). Qed.
Print Assumptions C99_field.

(** Whatever the lines of DATA or COMMON are. *)
Theorem C99_data : forall tag lines, ends_with data_errors (X4DataSection tag lines).
Proof. intros tag lines. exact (okp_ends _ _ _ _ (data_raises tag lines)). Qed.
Print Assumptions C99_data.

(** Whatever the texts of the subentries are. *)
Theorem C99_entry : forall c e texts, well_dictionaries c e -> ends_with entry_errors (X4Entry e texts).
Proof. intros c e texts D. exact (okp_ends _ _ _ _ (entry_raises c e D texts)). Qed.
Print Assumptions C99_entry.

(** ** Each of them occurs *)

Definition a_field (keyword : string) (text : list string) : list str :=
  match text with
  | [] => []
  | t :: rest => (ljust 11 (lit keyword) ++ lit t) :: map (fun l => repeat sp 11 ++ lit l) rest
  end.
Definition an_entry (section : list str) : list str :=
  [join [nl] ([lit "SUBENT        10001001   20000101"] ++ section ++ [lit "ENDSUBENT"])].
Definition with_field (keyword : string) (text : list string) : list str :=
  an_entry ([lit "BIB                  1          1"] ++ a_field keyword text ++ [lit "ENDBIB"]).

Definition reaction_damage (x : exn) : list string :=
  match x with
  | IndexError => ["()"]
  | KeyError => ["(92-U-235(N,FF),,SIG)"]
  | TypeError => ["(72-HF-177-M1+M2(N,G)ELEM/MASS,,SIG)"]
  | ResidualNucleusError => ["(1-H-1(N,A),,SIG)"]
  | RecursionError => ["(72-HF-177-M1+M2(N,G)72-HF-178-M,,SIG)"]
  | _ => ["(garbage"; ")"]
  end.
Definition reference_damage (x : exn) : list string :=
  match x with
  | ParseException => ["(J,PR"]
  | IndexError => ["J,PR"]
  | TypeError => ["(J,((X)),1)"]
  | AttributeError => ["((J,PR,1,2,1999))"]
  | _ => ["(3,PR,1,2,1999)"]
  end.
Definition damage (keyword : string) (x : exn) : list string :=
  match keyword, x with
  | "REACTION", _ => reaction_damage x
  | "MONITOR", ValueError => ["((MONIT"; "text"]
  | "MONITOR", _ => reaction_damage x
  | "REFERENCE", _ => reference_damage x
  | _, _ => ["text"]
  end.
Definition raises {A} (x : exn) (r : res A) : bool := match r with Raise y => exn_eqb x y | Ok _ => false end.
Lemma raises_is : forall A x (r : res A), raises x r = true -> r = Raise x.
Proof. intros A x [a|y] H; [discriminate|]. destruct x, y; first [reflexivity|discriminate H]. Qed.

Lemma damage_checked : forallb (fun k => forallb (fun x => raises x (make_field P12_Names.e1 (Some (lit k)) (a_field k (damage k x)))) (field_errors (lit k)))
  ["REACTION"; "MONITOR"; "REFERENCE"; "AUTHOR"; "INSTITUTE"] = true.
Proof. vm_compute. reflexivity. Qed.
Lemma shipped_well : well_dictionaries shipped P12_Names.e1.
Proof. exact (proj1 C87_hypotheses). Qed.

(** The exceptions of the tables are exactly those that occur. *)
Theorem C99_field_exact : forall keyword x, In x (field_errors keyword) <->
  exists c e lines, well_dictionaries c e /\ lines <> [] /\ make_field e (Some keyword) lines = Raise x.
Proof.
  intros keyword x. split.
  - intros I. destruct (field_cases _ _ I) as (k & K & ->). exists shipped, P12_Names.e1, (a_field k (damage k x)).
    split; [exact shipped_well|]. split.
    + clear. unfold a_field. destruct (damage k x) eqn:D; [|discriminate]. exfalso. revert D. clear.
      assert (R : reaction_damage x <> []) by (destruct x; discriminate). assert (F : reference_damage x <> []) by (destruct x; discriminate).
      unfold damage. intros D.
      repeat match type of D with context [match ?y with EmptyString => _ | String _ _ => _ end] => destruct y; try discriminate end;
      repeat match type of D with context [match ?y with Ascii _ _ _ _ _ _ _ _ => _ end] => destruct y; try discriminate end;
      repeat match type of D with context [if ?y then _ else _] => destruct y; try discriminate end;
      try contradiction; destruct x; discriminate.
    + pose proof damage_checked as H. rewrite forallb_forall in H. specialize (H _ K). rewrite forallb_forall in H. exact (raises_is _ _ _ (H _ I)).
  - intros (c & e & lines & D & N & E). destruct (C99_field c e keyword lines D N) as [(f & Z)|(y & Z & I)]; congruence.
Qed.
Print Assumptions C99_field_exact.

Definition data_damage (x : exn) : list str :=
  map lit match x with
          | IndexError => ["DATA                1          1"; "EN"; "ENDDATA"]
          | ValueError => ["DATA                x          1"; "ENDDATA"]
          | ZeroDivisionError => ["DATA                0          1"; "EN"; "ENDDATA"]
          | _ => ["DATA                1          1"; "EN"; "MEV"; "x"; "ENDDATA"]
          end.
Theorem C99_data_exact : forall x, In x data_errors <-> exists tag lines, X4DataSection tag lines = Raise x.
Proof.
  intros x. split.
  - intros I. exists (lit "DATA"), (data_damage x).
    assert (H : forallb (fun x => raises x (X4DataSection (lit "DATA") (data_damage x))) data_errors = true) by (vm_compute; reflexivity).
    rewrite forallb_forall in H. exact (raises_is _ _ _ (H _ I)).
  - intros (tag & lines & E). destruct (C99_data tag lines) as [(f & Z)|(y & Z & I)]; congruence.
Qed.
Print Assumptions C99_data_exact.

Definition entry_damage (x : exn) : list str :=
  match x with
  | ValueError | ZeroDivisionError | BrokenNumberError => an_entry (data_damage x)
  | AttributeError | ParseException => with_field "REFERENCE" (reference_damage x)
  | InstituteParsingError => with_field "INSTITUTE" ["text"]
  | _ => with_field "REACTION" (reaction_damage x)
  end.
Theorem C99_entry_exact : forall x, In x entry_errors <-> exists c e texts, well_dictionaries c e /\ X4Entry e texts = Raise x.
Proof.
  intros x. split.
  - intros I. exists shipped, P12_Names.e1, (entry_damage x). split; [exact shipped_well|].
    assert (H : forallb (fun x => raises x (X4Entry P12_Names.e1 (entry_damage x))) entry_errors = true) by (vm_compute; reflexivity).
    rewrite forallb_forall in H. exact (raises_is _ _ _ (H _ I)).
  - intros (c & e & texts & D & E). destruct (C99_entry c e texts D) as [(f & Z)|(y & Z & I)]; congruence.
Qed.
Print Assumptions C99_entry_exact.

(** Isomer math in the target is taken apart again and again, however often the interpreter allows it. *)
Theorem C99_endless : forall compounds institutes dicts depth,
  make_field (mkEnv (x4grammars shipped) compounds institutes dicts depth) (Some (lit "REACTION"))
    [lit "REACTION   (72-HF-177-M1+M2(N,G)72-HF-178-M,,SIG)"] = Raise RecursionError.
Proof. exact endless_reaction. Qed.
Print Assumptions C99_endless.

(** One letter too many in an entry that is otherwise in order; the same text as a comment is no harm. *)
Lemma read_is : forall A (r : res A), match r with Ok _ => true | Raise _ => false end = true -> exists a, r = Ok a.
Proof. intros A [a|x] H; [eauto|discriminate]. Qed.
Example C99_example :
  (exists n, X4Entry P12_Names.e1 (with_field "REACTION" ["(92-U-235(N,F),,SIG)"]) = Ok n) /\
  X4Entry P12_Names.e1 (with_field "REACTION" ["(92-U-235(N,FF),,SIG)"]) = Raise KeyError /\
  (exists n, X4Entry P12_Names.e1 (with_field "COMMENT" ["(92-U-235(N,FF),,SIG)"]) = Ok n).
Proof. split; [|split]; [apply read_is| |apply read_is]; vm_compute; reflexivity. Qed.
