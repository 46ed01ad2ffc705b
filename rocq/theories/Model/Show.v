(** str() of BIB fields, BIB sections, subentries and entries: exfor_field.py (the __str__ of the
    classes of fields), exfor_section.py:77-83, exfor_subentry.py:91-97, exfor_entry.py:173-179.
    No proofs here. *)
From Coq Require Import String List Ascii NArith ZArith Bool Arith.
From Verif.Model Require Import Py PyFloat Dicts Particle Reaction Field Section Columns Entry Dataset Print.
Import ListNotations.
Local Open Scope string_scope.
Local Open Scope list_scope.
Local Open Scope nat_scope.

(** exfor_field.py:123-131, 216-227, 302-311, 410-419, 428-433, 474-478, 503-511 *)
Definition field_str (nm : names) (x : field) : res str :=
  match x with
  | FPlain f => Ok (plain_str f)
  | FTitle f => Ok (title_str f)
  | FReaction _ rs => reaction_field_str nm rs
  | FMonitor _ ms => monitor_field_str nm ms
  | FReference _ r => Ok (reference_str r)
  | FAuthor a => Ok (author_str a)
  | FInstitute _ l => Ok (Field.institutes_str l)
  end.

(** exfor_section.py:77-83 *)
Definition bib_str (nm : names) (b : bib) : res str :=
  total <- bib_totalLen b ;;
  ss <- map_res (fun k => f <- of_option KeyError (dget tag_eqb k (b_dict b)) ;;
                          match f with Some f => field_str nm f | None => Ok (lit "None") end) (b_keys b) ;;
  Ok (ljust 11 (lit "BIB") ++ rjust 11 (nat_to_str (length (b_dict b))) ++ rjust 11 (nat_to_str total) ++ [nl]
      ++ concat (map (fun s => s ++ [nl]) ss)
      ++ ljust 11 (lit "ENDBIB") ++ rjust 11 (nat_to_str total)).

(** exfor_section.py:77-83 and 278-292 *)
Definition section_str (nm : names) (x : section) : res str :=
  match x with SBib b => bib_str nm b | SData d => Ok (data_str d) end.

(** exfor_subentry.py:91-97 *)
Definition subentry_str (nm : names) (s : subentry) : res str :=
  accnum <- of_option AttributeError (s_accnum s) ;;
  ss <- map_res (fun k => x <- of_option KeyError (dget str_eqb k (s_dict s)) ;; section_str nm x)
                (subentry_sorted_keys s) ;;
  Ok (ljust 11 (lit "SUBENT") ++ ljust 11 accnum ++ [nl]
      ++ concat (map (fun s => s ++ [nl]) ss) ++ ljust 11 (lit "ENDSUBENT")).

(** exfor_entry.py:173-179 *)
Definition entry_str (nm : names) (n : entry) : res str :=
  ks <- entry_sortedKeys n ;;
  ss <- map_res (fun k => match k with
                          | Some k => s <- entry_getitem n (EStr k) ;; subentry_str nm s
                          | None => Raise TypeError
                          end) ks ;;
  Ok (ljust 11 (lit "ENTRY") ++ ljust 11 (n_accnum n) ++ [nl]
      ++ concat (map (fun s => s ++ [nl]) ss) ++ ljust 11 (lit "ENDENTRY")).
