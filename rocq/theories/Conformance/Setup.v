(** Running the model on the inputs of the project's own unit tests, with the dictionaries as
    shipped.  These are tests of the model and not theorems about it: each file of this directory
    ends in a [Check] that the build refuses when the model and an expected value of
    x4i3/tests/*.py differ. *)
From Coq Require Import String List Ascii NArith ZArith SpecFloat Bool Arith.
From Verif.Model Require Import Py PyFloat Dicts Particle Pyparsing Grammars Shipped ShippedDicts Reaction Field Section Columns Entry Dataset Csv Repr Print.
Import ListNotations.
Local Open Scope string_scope.
Local Open Scope list_scope.
Local Open Scope nat_scope.

Definition text (l : list string) : str := join [nl] (map lit l).

(** X4DictionaryServer over the shipped files *)
Definition or_nothing {A} (r : res (list A)) : list A := match r with Ok l => l | Raise _ => [] end.
Definition dicts (_ : unit) : list (str * x4dict) := or_nothing (getAllDictionaries shipped_dir).
Definition dict_named (ds : list (str * x4dict)) (n : string) : x4dict :=
  match dget str_eqb (lit n) ds with Some d => d | None => [] end.
Definition the_env (ds : list (str * x4dict)) : env :=
  mkEnv (x4grammars shipped) (dict_named ds "Compounds") (dict_named ds "Institutes") ds 50.
Definition the_names (ds : list (str * x4dict)) : names :=
  mkNames (dict_named ds "Compounds") (dict_named ds "Quantities") (dict_named ds "Modifiers").

(** An attribute, method or builtin applied to an object built from lines; lists are joined
    with bars. *)
Definition ask := String.eqb.
Definition field_value (e : env) (nm : names) (cls what : string) (lines : list str) : res str :=
  let tag (f : plain) := match f_tag f with Some t => Ok t | None => Raise AttributeError end in
  let common (f : plain) (other : res str) :=
    if ask what "repr" then plain_repr f else if ask what "tag" then tag f
    else if ask what "sorted_keys" then Ok (join (lit "|") (map (fun c => [c]) (plain_keys f))) else other in
  if ask cls "X4PlainField" then f <- X4PlainField lines ;; common f (Ok (plain_str f))
  else if ask cls "X4TitleField" then f <- X4PlainField lines ;; common f (Ok (title_str f))
  else if ask cls "X4ReactionField" then '(f, rs) <- X4ReactionField e lines ;; common f (reaction_field_str nm rs)
  else if ask cls "X4MonitorField" then
    '(f, ms) <- X4MonitorField e lines ;;
    common f (if ask what "str reactions" then
                ls <- map_res (fun pl : ascii * monitor =>
                                 xs <- map_res (monitor_str nm) (snd pl) ;;
                                 Ok (repr_str [fst pl] ++ lit ": [" ++ join (lit ", ") xs ++ lit "]")) ms ;;
                Ok (lit "{" ++ join (lit ", ") ls ++ lit "}")
              else monitor_field_str nm ms)
  else if ask cls "X4AuthorField" then
    a <- X4AuthorField e lines ;;
    common (a_plain a) (if ask what "author_family_names" then Ok (join (lit "|") (a_family_names a)) else Ok (author_str a))
  else if ask cls "X4InstituteField" then '(f, l) <- X4InstituteField e lines ;; common f (Ok (Field.institutes_str l))
  else if ask cls "X4ReferenceField" then '(f, r) <- X4ReferenceField e lines ;; common f (Ok (reference_str r))
  else Raise OutsideModel.

Definition reaction_value (e : env) (nm : names) (cls what : string) (lines : list str) : res str :=
  let g := e_g e in
  let comp := e_compounds e in
  let x := concat lines in
  let part (p : res particle) :=
    p <- p ;;
    if ask what "repr" then exfor p else if ask what "exforStyle" then exfor p
    else if ask what "endlZAStyle" then s <- endlZAStyle p ;; Ok (match s with Some s => s | None => lit "None" end)
    else if ask what "Z" then z <- getZ p ;; Ok (z_to_str z) else pretty comp p in
  if ask cls "X4Nucleus" then part (X4Nucleus g (PTok x))
  else if ask cls "X4Isomer" then part (X4Isomer g false (PTok x))
  else if ask cls "X4Particle" then part (X4Particle g (PTok x))
  else if ask cls "X4ChemicalCompound" then part (X4ChemicalCompound g (PTok x))
  else if ask cls "X4Process" then
    p <- X4Process g comp false (PTok x) ;; if ask what "repr" then process_repr p else process_str comp p
  else if ask cls "X4Reaction" then r <- X4Reaction g comp false (PTok x) ;; m_str nm (MRxn r)
  else if ask cls "X4ReactionCombination" then
    l <- of_option ReactionParsingError (g_compound g x) ;;
    d <- X4ReactionCombination (e_depth e) g comp l ;; m_str nm (MComb d)
  else Raise OutsideModel.

(** A data set of an entry, raw or simplified by getSimplifiedDataSets or by getSimplified *)
Definition data_set (e : env) (nm : names) (raw : list str) (sub : string) (pointer : ascii) : res dataset :=
  n <- X4Entry e raw ;;
  '(ds, _, _) <- getDataSets nm n [] ;;
  of_option KeyError (dget key_eqb (n_accnum n, Some (lit sub), pointer) ds).
Definition simplified_set (acos : float -> option float) (e : env) (nm : names) (raw : list str) (sub : string) (pointer : ascii)
  : res dataset :=
  n <- X4Entry e raw ;;
  '(ds, _, _, _) <- getSimplifiedDataSets nm acos false n [] store0 ;;
  of_option KeyError (dget key_eqb (n_accnum n, Some (lit sub), pointer) ds).
Definition simplify (acos : float -> option float) (d : dataset) : res dataset :=
  fst (Columns.run (getSimplified acos false false d) store0).
(** readlines() of the written file: newlines are translated *)
Definition csv_lines (s : str) : str := replace_char (ch 13) [] s.

(** The labels of the cases that do not come out as expected *)
Definition wrong (c : string * res str * str) : list string :=
  let '(label, got, expected) := c in
  match got with
  | Ok s => if str_eqb s expected then [] else [label]
  | Raise _ => [label]
  end.
Definition failures (cases : list (string * res str * str)) : list string := flat_map wrong cases.
