(** The grammars of the package, as written down in exfor_grammers.py and in pyparsing3.py
    (quotedString, nestedExpr, commaSeparatedList), in the notation of Spec/Peg.v. *)
From Coq Require Import String List Ascii NArith Bool Arith.
From Verif.Model Require Import Particle.
From Verif.Spec Require Import Peg.
Import ListNotations.
Local Open Scope string_scope.
Local Open Scope list_scope.

Definition text (s : string) : gx := GTok (TLit (list_ascii_of_string s)).
Definition among (s : string) (c : ascii) : bool := existsb (Ascii.eqb c) (list_ascii_of_string s).
Definition from_to (a b c : ascii) : bool := ((N_of_ascii a <=? N_of_ascii c) && (N_of_ascii c <=? N_of_ascii b))%N.
Definition upper : ascii -> bool := from_to "A" "Z".
Definition letter : ascii -> bool := fun c => upper c || from_to "a" "z" c.
Definition figure : ascii -> bool := from_to "0" "9".
Definition alnum : ascii -> bool := fun c => letter c || figure c.

Definition opening := GDrop (text "(").
Definition closing := GDrop (text ")").
Definition number := GTok (TWord figure figure).
(** a list with separators *)
Definition listed (e : gx) (sep : string) : list gx := [e; GAny (GAnd (GDrop (text sep)) [e])].

Definition isomer : list gx := [GTok (TShort (among "mMgGTL") (among "mMgGTL") 1); GOpt number []].
Definition particle := GJoin (GAnd (GTok (TWord letter letter)) [GOpt number []]).
Definition element :=
  GOr [GTok (TShort (fun c => upper c || Ascii.eqb c "*") letter 2); text "PI"; text "K0"; text "PIM"; text "PIP"; text "P0"].
Definition nucleus :=
  GAnd number [GDrop (text "-"); element; GDrop (text "-"); number;
    GAny (GAnd (GFirst [text "+"; text "-"; text "*"; text "/"]) isomer)].
Definition one_of (l : list (list ascii)) : gx := GOr (map (fun m => GTok (TLit m)) l).

Section Codes.
Variables particles compounds : list (list ascii).  (** the codes in the dictionaries *)

Definition projectile := GOr [GGroup nucleus; particle; text "0"].
Definition compound := one_of compounds.
Definition target := GOr [GGroup (GFirst [compound; nucleus]); text "ELEM/MASS"; text "MASS"; text "ELEM"].
Definition residual := GOr [GGroup (GFirst [compound; nucleus]); text "ELEM/MASS"; text "MASS"; text "ELEM"; text "NPART"].
Definition product :=
  GOr [GGroup nucleus; GAnd (GOpt (text "X") []) [one_of particles]; particle; GGroup (GAnd (GOpt number []) [particle]); text "0"].
Definition process :=
  GAnd target ([opening; projectile; GDrop (text ",")] ++ listed product "+" ++ [closing; GOpt residual []]).
Definition quantity_word := GTok (TWord (fun c => alnum c || among "/*+-" c) (fun c => alnum c || among "/*+-" c)).
Definition reaction :=
  GAnd opening (listed (GOr [GGroup process; GAny (GOr [quantity_word; GAnd opening [quantity_word; closing]])]) "," ++ [closing]).

(** The names: 0 is a nested expression, 1 (and above) a combination of reactions. *)
Definition quotation :=
  GJoin (GFirst [GAnd (GTok (TQuote (ascii_of_N 34))) [GTok (TLit [ascii_of_N 34])];
                 GAnd (GTok (TQuote (ascii_of_N 39))) [GTok (TLit [ascii_of_N 39])]]).
Definition nested_word :=
  GStrip (GJoin (GSome (GAnd (GNot quotation) [GTok (TOne (fun c => Ascii.eqb c "(" || Ascii.eqb c ")" || blank c))]))).
Definition nested := GGroup (GAnd opening [GAny (GFirst [quotation; GRef 0; nested_word]); closing]).

Definition factor := GFirst [GGroup reaction; GAnd (text "(") [GRef 1; text ")"]].
Definition times := GAny (GAnd (GFirst [text "*"; text "//"; text "/"; text "="]) [factor]).
Definition combination := GAnd factor [times; GAny (GAnd (GFirst [text "+"; text "-"]) [factor; times])].

Definition names (n : nat) : gx := match n with O => nested | S _ => combination end.

Definition reaction_field := GAnd (GRef 1) [GTok TLine].
Definition reference := GAnd (GRef 0) [GTok TLine].
Definition reference_same := GAnd opening [GRef 0; GSome (GAnd (text "=") [GRef 0]); closing; GTok TLine].

Definition plain_word := GTok (TWord (fun c => alnum c || among ",.;+-*/'" c) (fun c => alnum c || among ",.;+-*/'" c)).
Definition phrase :=
  GSome (GFirst [plain_word;
                 GAnd opening [GTok (TWord (fun c => alnum c || among "-/" c) (fun c => alnum c || among "-/" c)); closing]]).
Definition plain_code :=
  GOr [GAnd opening [phrase; closing];
       GAnd opening [opening; phrase; closing; text "="; opening; phrase; closing; closing]].
Definition text_field := GSome (GGroup (GAnd (GGroup plain_code) [GAny plain_word])).

Definition visible (c : ascii) : bool := ((33 <=? N_of_ascii c) && (N_of_ascii c <=? 126))%N.
Definition gap (c : ascii) : bool := existsb (Ascii.eqb c) [" "%char; ascii_of_N 9].
Definition comma_item :=
  GJoin (GSome (GAnd (GTok (TWord (fun c => visible c && negb (Ascii.eqb c ",")) (fun c => visible c && negb (Ascii.eqb c ","))))
    [GOpt (GAnd (GTok (TWord gap gap))
             [GNot (text ","); GNot (GTok TEnd)]) []])).
Definition commas := GAnd (GOpt (GFirst [quotation; comma_item]) [PTok []])
  [GAny (GAnd (GDrop (text ",")) [GOpt (GFirst [quotation; comma_item]) [PTok []]])].
End Codes.
