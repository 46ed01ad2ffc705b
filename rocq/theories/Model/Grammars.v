(** x4i3/exfor_grammers.py: the grammars.  No proofs here. *)
From Coq Require Import String List Ascii NArith ZArith Bool Arith.
From Verif.Model Require Import Py Particle Pyparsing.
Import ListNotations.
Local Open Scope string_scope.
Local Open Scope list_scope.
Local Open Scope nat_scope.

(** exfor_grammers.py:48-60, 74.  Sets of characters are predicates. *)
Definition is_cap (c : ascii) : bool := ((65 <=? code c) && (code c <=? 90))%N.
Definition is_low (c : ascii) : bool := ((97 <=? code c) && (code c <=? 122))%N.
Definition is_alpha (c : ascii) : bool := is_cap c || is_low c.
Definition is_alphanum (c : ascii) : bool := is_alpha c || is_dig c.
Definition alphanum_or (more : string) (c : ascii) : bool := is_alphanum c || cmem c (lit more).
Definition capsStar (c : ascii) : bool := is_cap c || Ascii.eqb c "*"%char.

Definition lpar : pe := Suppress (Literal (lit "(")).
Definition rpar : pe := Suppress (Literal (lit ")")).
Definition comma : pe := Suppress (Literal (lit ",")).
Definition dash : pe := Suppress (Literal (lit "-")).
Definition equals : pe := Literal (lit "=").

(** 62-72 *)
Definition addop : pe := MatchFirst [Literal (lit "+"); Literal (lit "-")].
Definition mathop : pe :=
  MatchFirst [Literal (lit "+"); Literal (lit "-"); Literal (lit "*"); Literal (lit "/")].
Definition altmultop : pe :=
  MatchFirst [Literal (lit "*"); Literal (lit "//"); Literal (lit "/"); Literal (lit "=")].

Definition nums : pe := Word is_dig.

(** 77: Word('mMgGTL', max=1) + Optional(Word(nums)), as a list of elements *)
Definition isomer_letter (c : ascii) : bool := cmem c (lit "mMgGTL").
Definition isomer_modifier : list pe :=
  [WordMax isomer_letter isomer_letter 1; Optional nums].

(** 81 *)
Definition x4particle : pe := Combine (And (Word is_alpha) [Optional nums]).
(** 82-83 *)
Definition x4element : pe :=
  Or (WordMax capsStar is_alpha 2 :: map (fun s => Literal (lit s)) ["PI"; "K0"; "PIM"; "PIP"; "P0"]).
(** 84-85 *)
Definition x4nucleus : pe :=
  And nums [dash; x4element; dash; nums; ZeroOrMore (And mathop isomer_modifier)].

(** The grammars read the keys of the dictionaries "Particles" (79-80) and "Compounds" (86-87). *)
Record codes := mkCodes { c_particles : list str; c_compounds : list str }.

Definition one_of (keys : list str) : pe := Or (map Literal keys).
(** 79-80, 86-87 *)
Definition x4basicparticle (c : codes) : pe :=
  And (Optional (Literal (lit "X"))) [one_of (c_particles c)].
Definition x4chemical_compound (c : codes) : pe := one_of (c_compounds c).

(** 89-95 *)
Definition x4projectile : pe := Or [Group x4nucleus; x4particle; Literal (lit "0")].
Definition x4target (c : codes) : pe :=
  Or [Group (MatchFirst [x4chemical_compound c; x4nucleus]);
      Literal (lit "ELEM/MASS"); Literal (lit "MASS"); Literal (lit "ELEM")].
Definition x4residual (c : codes) : pe :=
  Or [Group (MatchFirst [x4chemical_compound c; x4nucleus]);
      Literal (lit "ELEM/MASS"); Literal (lit "MASS"); Literal (lit "ELEM"); Literal (lit "NPART")].
Definition x4product (c : codes) : pe :=
  Or [Group x4nucleus; x4basicparticle c; x4particle;
      Group (And (Optional nums) [x4particle]); Literal (lit "0")].

(** 97-100: delimitedList is an And, merged with the one around it *)
Definition x4process (c : codes) : pe :=
  And (x4target c) ([lpar; x4projectile; comma] ++ delimited (x4product c) (lit "+")
                    ++ [rpar; Optional (x4residual c)]).
(** 101-104 *)
Definition descr_word : pe := Word (alphanum_or "/*+-").
Definition x4reaction_descriptor : pe := Or [descr_word; And lpar [descr_word; rpar]].
Definition reaction_part (c : codes) : pe :=
  Or [Group (x4process c); ZeroOrMore x4reaction_descriptor].
Definition x4reaction (c : codes) : pe :=
  And lpar (delimited (reaction_part c) (lit ",") ++ [rpar]).

(** 106-109.  A Forward: each level of the recursion consumes a parenthesis; [depth] levels are
    unrolled. *)
Definition compound_tail (factor : pe) : list pe :=
  [ZeroOrMore (And altmultop [factor])].
Fixpoint x4compound_factor (c : codes) (depth : nat) : pe :=
  MatchFirst [Group (x4reaction c);
              And (Literal (lit "("))
                  [match depth with
                   | O => NoMatch
                   | S depth =>
                       let factor := x4compound_factor c depth in
                       Forward (And factor (compound_tail factor ++
                                  [ZeroOrMore (And addop (factor :: compound_tail factor))]))
                   end;
                   Literal (lit ")")]].
Definition x4compound_expression (c : codes) (depth : nat) : pe :=
  let factor := x4compound_factor c depth in
  Forward (And factor (compound_tail factor ++ [ZeroOrMore (And addop (factor :: compound_tail factor))])).

(** 111 *)
Definition x4reactionfield (c : codes) (depth : nat) : pe :=
  And (x4compound_expression c depth) [restOfLine].

(** 131-148 *)
Definition x4word : pe := Word (alphanum_or ",.;+-*/'").
Definition x4minicode : pe := And lpar [Word (alphanum_or "-/"); rpar].
Definition x4phrase : pe := OneOrMore (MatchFirst [x4word; x4minicode]).
Definition x4code : pe :=
  Or [And lpar [x4phrase; rpar];
      And lpar [lpar; x4phrase; rpar; equals; lpar; x4phrase; rpar; rpar]].
Definition x4codefield : pe := And (Group x4code) [ZeroOrMore x4word].
Definition x4textfield : pe := OneOrMore (Group x4codefield).
(** 153-155 *)
Definition x4refcode (depth : nat) : pe := And (nestedExpr depth) [restOfLine].
Definition x4refcodetautology (depth : nat) : pe :=
  And lpar [nestedExpr depth; OneOrMore (And equals [nestedExpr depth]); rpar; restOfLine].

(** The strings of a list of tokens; commaSeparatedList returns nothing else. *)
Definition toks (l : list ptree) : list str :=
  flat_map (fun t => match t with PTok s => [s] | PGroup _ => [] end) l.

(** The parseString of every grammar the rest of the code uses.  Texts are unrolled as deep as
    they are long. *)
Definition x4grammars (c : codes) : grammars :=
  let depth (s : str) := S (length (expandtabs s)) in
  mkGrammars
    (parseString x4particle)
    (parseString x4nucleus)
    (parseString (x4chemical_compound c))
    (parseString (x4process c))
    (parseString (x4reaction c))
    (fun s => parseString (x4compound_expression c (depth s)) s)
    (fun s => parseString (x4reactionfield c (depth s)) s)
    (parseString x4textfield)
    (fun s => parseString (x4refcode (depth s)) s)
    (fun s => parseString (x4refcodetautology (depth s)) s)
    (fun s => option_map toks (parseString commaSeparatedList s)).
