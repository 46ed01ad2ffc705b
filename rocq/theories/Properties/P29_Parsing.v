(** Property C93: the grammars read what their rules say, and come to an answer for every text. *)
From Coq Require Import String List Ascii NArith ZArith Bool Arith.
From Verif.Model Require Import Py Particle Pyparsing Grammars Shipped.
From Verif.Spec Require Import Peg Grammar.
From Verif.Proofs Require Import GrammarRules.
Import ListNotations.
Local Open Scope string_scope.
Local Open Scope list_scope.
Local Open Scope nat_scope.

(** ** C93 *)

(** The rules of Spec/Peg.v know no bound on the length of the text, the number of repetitions or the
    depth of the recursion; so none of the bounds with which the model of the parser is written cuts
    anything off.  (Python's own limit on the depth of recursion is not modelled.) *)
Theorem C93_parsing : forall c s t, untabbed 0 s t ->
  let def := names (c_particles c) (c_compounds c) in
  (forall o, g_particle (x4grammars c) s = o <-> reads_text def strip particle t o) /\
  (forall o, g_nucleus (x4grammars c) s = o <-> reads_text def strip nucleus t o) /\
  (forall o, g_chemical (x4grammars c) s = o <-> reads_text def strip (compound (c_compounds c)) t o) /\
  (forall o, g_process (x4grammars c) s = o <-> reads_text def strip (process (c_particles c) (c_compounds c)) t o) /\
  (forall o, g_reaction (x4grammars c) s = o <-> reads_text def strip (reaction (c_particles c) (c_compounds c)) t o) /\
  (forall o, g_compound (x4grammars c) s = o <-> reads_text def strip (GRef 1) t o) /\
  (forall o, g_reactionfield (x4grammars c) s = o <-> reads_text def strip reaction_field t o) /\
  (forall o, g_textfield (x4grammars c) s = o <-> reads_text def strip text_field t o) /\
  (forall o, g_refcode (x4grammars c) s = o <-> reads_text def strip reference t o) /\
  (forall o, g_refcodetautology (x4grammars c) s = o <-> reads_text def strip reference_same t o) /\
  (forall o, option_map (map PTok) (g_comma (x4grammars c) s) = o <-> reads_text def strip commas t o).
Proof. exact all_rules_untabbed. Qed.
Print Assumptions C93_parsing.

(** Every text has just one text without tabs that stands for it. *)
Theorem C93_tabs : forall s, exists t, untabbed 0 s t /\ forall t', untabbed 0 s t' -> t' = t.
Proof. exact untabbed_one. Qed.
Print Assumptions C93_tabs.

(** Every text is read in one way or refused: no text makes a parser run for ever. *)
Theorem C93_always_answers : forall c g s,
  In g [particle; nucleus; compound (c_compounds c); process (c_particles c) (c_compounds c);
        reaction (c_particles c) (c_compounds c); GRef 1; reaction_field; text_field; reference; reference_same; commas] ->
  exists o, reads_text (names (c_particles c) (c_compounds c)) strip g s o /\
    forall o', reads_text (names (c_particles c) (c_compounds c)) strip g s o' -> o' = o.
Proof. exact always_answers. Qed.
Print Assumptions C93_always_answers.

(** What is read of a nested text, by the rules. *)
Example C93_example : reads_text (names (c_particles shipped) (c_compounds shipped)) strip reference
  (list_ascii_of_string "( (J,PR,1) = (R, ((X))) ) see (1)")
  (Some [PGroup [PGroup [PTok (lit "J,PR,1")]; PTok (lit "="); PGroup [PTok (lit "R,"); PGroup [PGroup [PTok (lit "X")]]]];
         PTok (lit " see (1)")]).
Proof.
  destruct (C93_parsing shipped (lit "( (J,PR,1) = (R, ((X))) ) see (1)") _ (untabbed_plain _ _ eq_refl)) as (_ & _ & _ & _ & _ & _ & _ & _ & H & _).
  apply (proj1 (H _)). vm_compute. reflexivity.
Qed.
Example C93_refused : reads_text (names (c_particles shipped) (c_compounds shipped)) strip reference
  (list_ascii_of_string "((J,PR,1)") None.
Proof.
  destruct (C93_parsing shipped (lit "((J,PR,1)") _ (untabbed_plain _ _ eq_refl)) as (_ & _ & _ & _ & _ & _ & _ & _ & H & _).
  apply (proj1 (H _)). vm_compute. reflexivity.
Qed.
(** A tab: the text after the reference begins in column 4, and the tab stands for the four blanks up to column 8. *)
Example C93_tabbed : forall c, g_refcode (x4grammars c) (lit "(A)a" ++ [ascii_of_N 9; "b"%char]) =
  Some [PGroup [PTok (lit "A")]; PTok (lit "a    b")].
Proof. intros c. vm_compute. reflexivity. Qed.
Example C93_tab : untabbed 0 (lit "(A)a" ++ [ascii_of_N 9; "b"%char]) (lit "(A)a    b").
Proof.
  do 4 (apply untabbed_char; [discriminate|discriminate|discriminate|]).
  apply (untabbed_tab 4 4 _ (lit "b")); [repeat constructor|now exists 1|].
  apply untabbed_char; [discriminate|discriminate|discriminate|]. constructor.
Qed.
(** Grammars for which it is false: the repetition of something empty, and a name that begins with
    itself, come to no answer whatever the text. *)
Example C93_not_always :
  (forall def trim ws s o, ~ does def trim (GAny (GOpt (GTok (TLit [])) [])) ws s o) /\
  (forall trim ws s o, ~ does (fun n => GAnd (GRef n) []) trim (GRef 0) ws s o).
Proof. split; [exact no_outcome_repeat|exact no_outcome_left]. Qed.
