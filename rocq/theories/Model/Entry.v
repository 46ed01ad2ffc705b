(** x4i3/exfor_subentry.py and the text part of x4i3/exfor_entry.py.  No proofs here. *)
From Coq Require Import String List Ascii NArith ZArith Bool Arith.
From Verif.Model Require Import Py PyFloat Utilities Dicts Particle Reaction Field Section.
Import ListNotations.
Local Open Scope string_scope.
Local Open Scope list_scope.
Local Open Scope nat_scope.

(** * exfor_subentry.py *)

(** exfor_subentry.py:32-44 *)
Fixpoint extractX4SubEntryIndex (subentry : list str) : option str :=
  match subentry with
  | [] => None
  | line :: rest =>
      match split_ws (strip line) with
      | w :: _ => if str_eqb w (lit "SUBENT") then Some (slice line 14 22) else extractX4SubEntryIndex rest
      | [] => extractX4SubEntryIndex rest
      end
  end.

Definition section_names : list str := [lit "BIB"; lit "DATA"; lit "COMMON"].

(** exfor_subentry.py:47-59 *)
Fixpoint extractX4SectionType (section : list str) : option str :=
  match section with
  | [] => None
  | line :: rest =>
      let tag := strip (slice line 0 10) in
      if smem tag section_names then Some tag else extractX4SectionType rest
  end.

Inductive section := SBib (b : bib) | SData (d : data_section).

Record subentry := mkSub { s_accnum : option str; s_dict : list (str * section) }.

(** exfor_subentry.py:99-123 *)
Definition subentry_chunkify (lines : list str) : list (list str) :=
  chunkify_lines (fun line => smem (strip (slice line 0 11)) section_names)
                 (fun line => str_eqb (slice (slice line 0 11) 0 3) (lit "END")) lines.

(** exfor_subentry.py:71-78 *)
Definition make_section (e : env) (lines : list str) : res (str * section) :=
  match extractX4SectionType lines with
  | None => Raise TypeError       (* None + " is not a valid ..." *)
  | Some tag =>
      if str_eqb tag (lit "BIB") then b <- X4BibSection e lines ;; Ok (tag, SBib b)
      else d <- X4DataSection tag lines ;; Ok (tag, SData d)
  end.

(** exfor_subentry.py:67-81 for a list of lines *)
Definition X4SubEntry_lines (e : env) (lines : list str) : res subentry :=
  d <- fold_res (fun d section => s <- make_section e section ;; Ok (dset str_eqb (fst s) (snd s) d))
                (subentry_chunkify lines) [] ;;
  Ok (mkSub (extractX4SubEntryIndex lines) d).
(** and for a string *)
Definition X4SubEntry (e : env) (text : str) : res subentry := X4SubEntry_lines e (split_char nl text).

Definition section_repr (s : section) : res str :=
  match s with SBib b => bib_repr b | SData d => Ok (data_repr d) end.

(** exfor_subentry.py:80-89 *)
Definition subentry_sorted_keys (s : subentry) : list str := ssort (dkeys (s_dict s)).
Definition subentry_repr (s : subentry) : res str :=
  accnum <- of_option AttributeError (s_accnum s) ;;
  rs <- map_res (fun k => x <- of_option KeyError (dget str_eqb k (s_dict s)) ;; section_repr x)
                (subentry_sorted_keys s) ;;
  Ok (ljust 11 (lit "SUBENT") ++ ljust 11 accnum ++ [nl]
      ++ concat (map (fun r => r ++ [nl]) rs) ++ ljust 11 (lit "ENDSUBENT")).

(** * exfor_entry.py *)

(** exfor_entry.py:127-142 *)
Fixpoint extractX4EntryIndex (entry : list str) : option str :=
  match entry with
  | [] => None
  | line :: rest =>
      if str_eqb (strip line) [] then extractX4EntryIndex rest
      else match split_ws line with
           | w :: _ => if str_eqb w (lit "ENTRY") then Some (strip (slice line 14 22))
                       else if str_eqb w (lit "SUBENT") then Some (firstn 5 (slice line 14 22))
                       else extractX4EntryIndex rest
           | [] => extractX4EntryIndex rest
           end
  end.

Record entry := mkEntry { n_accnum : str; n_subs : list (option str * subentry) }.

(** exfor_entry.py:150-163; an IndexError is raised again as an IndexError. *)
Definition X4Entry (e : env) (raw_entry : list str) : res entry :=
  match extractX4EntryIndex raw_entry with
  | Some accnum =>
      if negb (length accnum =? 5) then Raise KeyError
      else
        d <- fold_res (fun d x => s <- X4SubEntry e x ;; Ok (dset tag_eqb (s_accnum s) s d)) raw_entry [] ;;
        Ok (mkEntry accnum d)
  | None => Raise KeyError
  end.

(** exfor_entry.py:181-190; the index is an int or a str *)
Inductive ekey := EInt (z : Z) | EStr (s : str).
Definition key_text (i : ekey) : str := match i with EInt z => z_to_str z | EStr s => s end.
Definition entry_getitem (n : entry) (i : ekey) : res subentry :=
  let i := key_text i in
  if length i =? 8 then of_option KeyError (dget tag_eqb (Some i) (n_subs n))
  else if length i <=? 3 then of_option KeyError (dget tag_eqb (Some (n_accnum n ++ zfill 3 i)) (n_subs n))
  else Raise KeyError.

(** exfor_entry.py:192-219 *)
Definition entry_chunkify (lines : list str) : list (list str) :=
  chunkify_lines (fun line => str_eqb (strip (slice line 0 11)) (lit "SUBENT"))
                 (fun line => str_eqb (strip (slice line 0 11)) (lit "ENDSUBENT")) lines.

(** exfor_entry.py:342-345.  None among the keys cannot be compared with strings (TypeError),
    unless it is the only key. *)
Definition entry_sortedKeys (n : entry) : res (list (option str)) :=
  let ks := dkeys (n_subs n) in
  match ks with
  | [None] => Ok ks
  | _ => l <- map_res (fun k => of_option TypeError k) ks ;; Ok (map Some (ssort l))
  end.

(** exfor_entry.py:165-171 *)
Definition entry_repr (n : entry) : res str :=
  ks <- entry_sortedKeys n ;;
  rs <- map_res (fun k => match k with
                          | Some k => s <- entry_getitem n (EStr k) ;; subentry_repr s
                          | None => Raise TypeError
                          end) ks ;;
  Ok (ljust 11 (lit "ENTRY") ++ ljust 11 (n_accnum n) ++ [nl]
      ++ concat (map (fun r => r ++ [nl]) rs) ++ ljust 11 (lit "ENDENTRY")).

(** subentry['BIB'] *)
Definition sub_bib (s : subentry) : res bib :=
  match dget str_eqb (lit "BIB") (s_dict s) with
  | Some (SBib b) => Ok b
  | Some (SData _) => Raise OutsideModel
  | None => Raise KeyError
  end.

(** exfor_entry.py:347-350: [in] on a field tests its pointers, which are single characters. *)
Definition field_has_key (f : field) (k : str) : bool :=
  match k with [c] => dhas Ascii.eqb c (f_dict (field_plain f)) | _ => false end.
Definition deleted (n : entry) : res bool :=
  s <- entry_getitem n (EInt 1) ;;
  b <- sub_bib s ;;
  match bib_field b "HISTORY" with
  | None => Ok false
  | Some (Some f) => Ok (field_has_key f (lit "ENTRY DELETED"))
  | Some None => Raise TypeError
  end.

(** exfor_entry.py:357-364: accnum, deleted, subentries, metadata; the entry is changed (C26). *)
Definition sub_set_bib (s : subentry) (b : bib) : subentry :=
  mkSub (s_accnum s) (dset str_eqb (lit "BIB") (SBib b) (s_dict s)).
Definition X4EntryMetaData (n : entry) : res ((str * bool * list (option str) * bibmeta) * entry) :=
  del <- deleted n ;;
  ks <- entry_sortedKeys n ;;
  s <- entry_getitem n (EInt 1) ;;
  b <- sub_bib s ;;
  '(m, b') <- X4BibMetaData b (n_accnum n ++ lit "001") ;;
  Ok ((n_accnum n, del, ks, m),
      mkEntry (n_accnum n) (dset tag_eqb (Some (n_accnum n ++ lit "001")) (sub_set_bib s b') (n_subs n))).
