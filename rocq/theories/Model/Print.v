(** The texts of data sets, DATA sections and metadata: exfor_dataset.py:119-177, 294-304, 384-387, 410-413,
    exfor_section.py:159-193, 278-292, exfor_entry.py:366-382, exfor_field.py:216-227, 302-311,
    501-511.  No proofs here. *)
From Coq Require Import String List Ascii NArith ZArith Bool Arith.
From Verif.Model Require Import Py PyFloat Particle Reaction Field Section Columns Dataset Entry Repr.
Import ListNotations.
Local Open Scope string_scope.
Local Open Scope list_scope.
Local Open Scope nat_scope.

(** ** repr of strings, str of results of the parser (standard library and pyparsing) *)

Definition code_of (c : ascii) : nat := nat_of_ascii c.
Definition hex_digit (n : nat) : ascii := nth n (lit "0123456789abcdef") "0"%char.
Definition printable (c : ascii) : bool :=
  let n := code_of c in ((32 <=? n) && (n <=? 126)) || ((161 <=? n) && negb (n =? 173)).
Definition escape_char (quote c : ascii) : str :=
  if Ascii.eqb c "\" then lit "\\"
  else if Ascii.eqb c quote then "\"%char :: [c]
  else if Ascii.eqb c nl then lit "\n"
  else if Ascii.eqb c (ch 13) then lit "\r"
  else if Ascii.eqb c (ch 9) then lit "\t"
  else if printable c then [c]
  else lit "\x" ++ [hex_digit (code_of c / 16); hex_digit (code_of c mod 16)].
Definition repr_str (s : str) : str :=
  let single := ch 39 in let double := ch 34 in
  let quote := if existsb (Ascii.eqb single) s && negb (existsb (Ascii.eqb double) s) then double else single in
  quote :: flat_map (escape_char quote) s ++ [quote].

Fixpoint tree_repr (t : ptree) : str :=
  match t with
  | PTok s => repr_str s
  | PGroup l => lit "[" ++ join (lit ", ") (map tree_repr l) ++ lit "]"
  end.
Definition tree_str (t : ptree) : str := match t with PTok s => s | PGroup _ => tree_repr t end.

(** ** Metadata *)

(** exfor_field.py:501-511 *)
Definition institutes_str (l : list (str * str * str)) : str :=
  join (lit "; ") (map (fun i => let '(_, name, comment) := i in
                                 name ++ match comment with [] => [] | _ => lit " (" ++ comment ++ lit ")" end) l).
Definition meta_institute_str (m : bibmeta) : str :=
  match bm_institute m with Some l => institutes_str l | None => lit "None" end.

(** exfor_section.py:159-166 with [mark] = '#  ' and 186-193 without *)
Definition meta_lines (m : bibmeta) : list str :=
  [ lit "Authors:   " ++ join (lit ", ") (author_items (bm_author m));
    lit "Title:     " ++ bm_title m;
    lit "Year:      " ++ bm_year m;
    lit "Institute: " ++ meta_institute_str m;
    lit "Reference: " ++ meta_reference_str m;
    lit "Subent:    " ++ bm_subent m ].
Definition xmgraceHeader (m : bibmeta) : str := join [nl] (map (fun l => lit "#  " ++ l) (meta_lines m)).
Definition meta_repr (m : bibmeta) : str := join [nl] (meta_lines m).

(** exfor_entry.py:366-382.  The arguments are accnum, deleted and bib_meta of X4EntryMetaData. *)
Definition deleted_text (accnum : str) : str := lit "ENTRY " ++ accnum ++ lit " DELETED".
Definition entry_xmgraceHeader (accnum : str) (deleted : bool) (m : bibmeta) : str :=
  if deleted then deleted_text accnum else lit "#Exfor Entry " ++ accnum ++ [nl] ++ xmgraceHeader m.
(** [s.replace(a, b)] for a not empty *)
Definition replace_str (a b s : str) : str := join b (split_str a s).
Definition entry_citation (accnum : str) (deleted : bool) (m : bibmeta) : res str :=
  if deleted then Ok (deleted_text accnum)
  else c <- meta_citation m ;; Ok (replace_str (lit "?????.???") accnum c).
Definition entry_legend (accnum : str) (deleted : bool) (m : bibmeta) : str :=
  if deleted then deleted_text accnum else meta_legend m.

(** ** Data sets *)

Definition m_repr (nm : names) (m : measurement) : res str :=
  measurement_repr (nm_compounds nm) (nm_quantities nm) (nm_modifiers nm) m.

(** str of one monitor, a tuple *)
Definition monitor_str (nm : names) (x : option measurement * ptree * option str) : res str :=
  let '(m, t, h) := x in
  r <- match m with Some m => m_repr nm m | None => Ok (lit "None") end ;;
  Ok (lit "(" ++ r ++ lit ", " ++ tree_repr t ++ lit ", "
      ++ match h with Some h => repr_str h | None => lit "None" end ++ lit ")").

(** exfor_dataset.py:119-135.  [map(str, None)] is a TypeError; so is what comes from str of a
    reaction (raised again as a TypeError). *)
Definition X4DataSet_strHeader (nm : names) (d : dataset) : res str :=
  r <- match ds_reaction d with
       | Some (m, t) => s <- m_str nm m ;; Ok (s ++ [sp] ++ tree_str t)
       | None => Raise TypeError
       end ;;
  ms <- match ds_monitor d with
        | None => Ok []
        | Some l => ls <- map_res (monitor_str nm) l ;; Ok ([nl] ++ lit "#  Monitor(s): " ++ join [sp] ls)
        end ;;
  Ok (xmgraceHeader (ds_meta d) ++ [nl] ++ lit "#  Reaction:  " ++ r ++ ms).

(** exfor_dataset.py:384-387 and 410-413; the other classes do not change it.  Their constructors
    always set the reference frame. *)
Definition strHeader (nm : names) (d : dataset) : res str :=
  out <- X4DataSet_strHeader nm d ;;
  match ds_class_of d with
  | AngularDist | EnergyDist =>
      f <- of_option AttributeError (ds_frame d) ;; Ok (out ++ [nl] ++ lit "#  Frame:     " ++ f)
  | _ => Ok out
  end.

(** exfor_dataset.py:137-145 *)
Definition reprHeader (nm : names) (d : dataset) : res str :=
  r <- match ds_reaction d with Some (m, _) => m_repr nm m | None => Raise TypeError end ;;
  ms <- match ds_monitor d with
        | None | Some [] => Ok []
        | Some l =>
            ls <- map_res (fun x : option measurement * ptree * option str =>
                             match fst (fst x) with Some m => m_repr nm m | None => Ok (lit "None") end) l ;;
            Ok ([sp; nl] ++ lit "Monitor(s):[" ++ join (lit ", ") ls ++ lit "]")
        end ;;
  Ok (meta_repr (ds_meta d) ++ [sp; nl] ++ lit "Reaction:  " ++ r ++ ms ++ [nl]).

(** exfor_dataset.py:148-154 *)
Definition cell_str (c : dcell) : str :=
  match c with VNone => lit "None" | VFloat x => repr_float (float12 x) | VZero => lit "0.0" end.
Definition unit_str (u : option str) : str := match u with Some u => u | None => lit "None" end.
(** exfor_dataset.py:156-168 *)
Definition table_str (t : table) : str :=
  [nl] ++ lit "#        " ++ concat (map (ljust 14) (t_labels t))
  ++ [nl] ++ lit "#        " ++ concat (map (fun u => ljust 14 (unit_str u)) (t_units t))
  ++ [nl] ++ lit "        "
  ++ concat (map (fun row => concat (map (fun c => ljust 14 (cell_str c)) row) ++ [nl] ++ lit "        ") (t_data t)).
(** exfor_dataset.py:147-168 *)
Definition dataset_str (nm : names) (d : dataset) : res str :=
  h <- strHeader nm d ;; Ok (h ++ table_str (ds_table d)).

(** exfor_dataset.py:170-177.  A unit that is None cannot be joined. *)
Definition cell_repr (c : dcell) : str :=
  match c with VNone => lit "None" | VFloat x => repr_float x | VZero => lit "0" end.
Definition dataset_repr (nm : names) (d : dataset) : res str :=
  h <- reprHeader nm d ;;
  units <- map_res (of_option TypeError) (t_units (ds_table d)) ;;
  Ok (h ++ lit "[" ++ lit "['" ++ join (lit "','") (t_labels (ds_table d)) ++ lit "']," ++ [nl]
      ++ lit "['" ++ join (lit "','") units ++ lit "']"
      ++ concat (map (fun row => lit "," ++ [nl] ++ lit "[" ++ join (lit ",") (map cell_repr row) ++ lit "]")
                     (t_data (ds_table d)))
      ++ lit "]").

(** exfor_dataset.py:294-304 *)
Inductive table_item := TText (s : str) | TUnit (u : option str) | TCell (c : dcell).
Definition dataset_getitem (t : table) (i : str + Z) (j : Z) : res table_item :=
  match i with
  | inl s => if str_eqb s (lit "LABELS") then l <- zidx (t_labels t) j ;; Ok (TText l)
             else if str_eqb s (lit "UNITS") then u <- zidx (t_units t) j ;; Ok (TUnit u)
             else Raise KeyError
  | inr i => row <- zidx (t_data t) i ;; c <- zidx row j ;; Ok (TCell c)
  end.

(** ** DATA sections, exfor_section.py:278-292 *)

Definition number_str (x : option float) : str := match x with Some x => repr_float x | None => lit "None" end.
Definition data_str (d : data_section) : str :=
  ljust 11 (d_tag d) ++ rjust 11 (z_to_str (d_numcols d)) ++ rjust 11 (z_to_str (d_numrows d)) ++ [nl]
  ++ concat (map (ljust 11) (d_labels d)) ++ [nl]
  ++ concat (map (ljust 11) (d_units d)) ++ [nl]
  ++ concat (map (fun row => concat (map (fun x => ljust 11 (number_str x)) row) ++ [nl]) (d_data d))
  ++ ljust 11 (lit "END" ++ d_tag d) ++ rjust 11 (z_to_str (d_numrows d + 2)).

(** ** Fields *)

(** exfor_field.py:216-227 for a field with reactions (without, the result is a list and str()
    fails).  What follows the reaction is a text, the rest of the line; adding anything else to a
    string would fail in the parser library, which is not modelled. *)
Definition reaction_field_str (nm : names) (rs : reactions_dict) : res str :=
  match rs with
  | [] => Raise TypeError
  | _ =>
      ls <- map_res (fun p => r <- of_option KeyError (dget Ascii.eqb p rs) ;;
                              s <- m_str nm (fst r) ;;
                              if Ascii.eqb p sp then Ok s
                              else match snd r with
                                   | PTok [] => Ok (lit "[" ++ [p] ++ lit "] " ++ s)
                                   | PTok line => Ok (lit "[" ++ [p] ++ lit "] " ++ s ++ lit ", " ++ line)
                                   | PGroup _ => Raise OutsideModel
                                   end)
                    (csort (dkeys rs)) ;;
      Ok (join (lit "; ") ls)
  end.
(** exfor_field.py:302-311; str of a list of tuples *)
Definition monitor_field_str (nm : names) (ms : monitors_dict) : res str :=
  match ms with
  | [] => Raise TypeError
  | _ =>
      ls <- map_res (fun pl : ascii * monitor =>
                       xs <- map_res (monitor_str nm) (snd pl) ;;
                       let s := lit "[" ++ join (lit ", ") xs ++ lit "]" in
                       Ok (if Ascii.eqb (fst pl) sp then s else lit "[" ++ [fst pl] ++ lit "] " ++ s)) ms ;;
      Ok (join (lit "; ") ls)
  end.
