(** How the modules of x4i3 fill the tables that the parsers and printers look things up in.  No
    proofs here. *)
From Coq Require Import String List Ascii NArith ZArith Bool Arith.
From Verif.Model Require Import Py Dicts Particle Reaction Pyparsing Grammars Field Dataset.
Import ListNotations.
Local Open Scope string_scope.
Local Open Scope list_scope.
Local Open Scope nat_scope.

(** exfor_dicts.py:120-124; a dictionary that cannot be opened is None, which has no keys(). *)
Definition opened (dir : str -> option str) (name : string) : res x4dict :=
  d <- server_getDictionary dir (DName (lit name)) ;; of_option AttributeError d.

(** exfor_grammers.py:79-80 and 86-87: the alternatives of a grammar are the keys, put between
    double quotes and evaluated.  Not modelled: no key at all (a SyntaxError), and keys with a
    quote, a backslash or an end of line, which would be read as something else. *)
Definition alternatives (d : x4dict) : res (list str) :=
  match dkeys d with
  | [] => Raise OutsideModel
  | keys => if existsb (fun k => existsb (fun ch => smem [ch] (map lit [""""; "\"]) || Ascii.eqb ch nl) k) keys
            then Raise OutsideModel else Ok keys
  end.

(** exfor_utilities.py:38, exfor_grammers.py:79-87, exfor_reactions.py:71-72 (at import),
    exfor_field.py:486 and exfor_particle.py:408 (at each use; the files do not change).  The
    dictionary of institutes is opened when the first institute is read, here when the others are. *)
Definition load (dir : str -> option str) (depth : nat) : res (codes * env * names) :=
  x4Dictionaries <- getAllDictionaries dir ;;
  particles <- opened dir "Particles" ;;
  compounds <- opened dir "Compounds" ;;
  ps <- alternatives particles ;;
  cs <- alternatives compounds ;;
  x4QuantityMap <- of_option KeyError (dget str_eqb (lit "Quantities") x4Dictionaries) ;;
  x4ModifierMap <- of_option KeyError (dget str_eqb (lit "Modifiers") x4Dictionaries) ;;
  institutes <- opened dir "Institutes" ;;
  Ok (mkCodes ps cs, mkEnv (x4grammars (mkCodes ps cs)) compounds institutes x4Dictionaries depth,
      mkNames compounds x4QuantityMap x4ModifierMap).
