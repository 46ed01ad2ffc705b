(** x4i3/exfor_section.py: BIB and DATA sections.  No proofs here. *)
From Coq Require Import String List Ascii NArith ZArith Bool Arith.
From Verif.Model Require Import Py PyFloat Utilities Dicts Particle Reaction Field.
Import ListNotations.
Local Open Scope string_scope.
Local Open Scope list_scope.
Local Open Scope nat_scope.

(** ** BIB *)

(** exfor_section.py:93-116: state is (chunks so far, first, current field). *)
Definition bib_step (st : list (list str) * bool * list str) (line : str) : list (list str) * bool * list str :=
  let '(section, first, field) := st in
  let tag := strip (slice line 0 10) in
  if smem tag [lit "BIB"; lit "ENDBIB"] then st
  else if first then (section, false, field ++ [line])
  else if negb (str_eqb tag []) then (section ++ [field], first, [line])
  else (section, first, field ++ [line]).
Definition bib_chunkify (oldsection : list str) : list (list str) :=
  let '(section, _, field) := fold_left bib_step oldsection ([], true, []) in section ++ [field].

(** Dictionary keys are tags, or None when the first field has no tag. *)
Definition tag_eqb (a b : option str) : bool :=
  match a, b with
  | Some x, Some y => str_eqb x y
  | None, None => true
  | _, _ => false
  end.

(** The dictionary (a value can become None through setdefault, line 141) and sorted_keys. *)
Record bib := mkBib { b_dict : list (option str * option field); b_keys : list (option str) }.

(** exfor_section.py:62-75 *)
Definition make_field (e : env) (ftag : option str) (field : list str) : res Field.field :=
  let is s := tag_eqb ftag (Some (lit s)) in
  if is "REACTION" then r <- X4ReactionField e field ;; Ok (FReaction (fst r) (snd r))
  else if is "MONITOR" then r <- X4MonitorField e field ;; Ok (FMonitor (fst r) (snd r))
  else if is "REFERENCE" then r <- X4ReferenceField e field ;; Ok (FReference (fst r) (snd r))
  else if is "AUTHOR" then r <- X4AuthorField e field ;; Ok (FAuthor r)
  else if is "TITLE" then r <- X4PlainField field ;; Ok (FTitle r)
  else if is "INSTITUTE" then r <- X4InstituteField e field ;; Ok (FInstitute (fst r) (snd r))
  else r <- X4PlainField field ;; Ok (FPlain r).

(** exfor_section.py:56-75 *)
Definition X4BibSection (e : env) (unprocessed : list str) : res bib :=
  fold_res (fun b field =>
              ftag <- extractX4FieldType field ;;
              f <- make_field e ftag field ;;
              Ok (mkBib (dset tag_eqb ftag (Some f) (b_dict b)) (b_keys b ++ [ftag])))
           (bib_chunkify unprocessed) (mkBib [] []).

(** exfor_section.py:118-119; None has no total_len *)
Definition bib_totalLen (b : bib) : res nat :=
  ls <- map_res (fun f => match f with Some f => Ok (field_total_len f) | None => Raise AttributeError end)
                (dvals (b_dict b)) ;;
  Ok (list_sum ls).

(** exfor_section.py:85-91 *)
Definition bib_repr (b : bib) : res str :=
  total <- bib_totalLen b ;;
  rs <- map_res (fun k => f <- of_option KeyError (dget tag_eqb k (b_dict b)) ;;
                          match f with Some f => field_repr f | None => Ok (lit "None") end) (b_keys b) ;;
  Ok (ljust 11 (lit "BIB") ++ rjust 11 (nat_to_str (length (b_dict b))) ++ rjust 11 (nat_to_str total) ++ [nl]
      ++ concat (map (fun r => r ++ [nl]) rs)
      ++ ljust 11 (lit "ENDBIB") ++ rjust 11 (nat_to_str total)).

(** *** X4BibMetaData *)

(** self.author is a list, or the string 'None'. *)
Inductive authors := AList (l : list str) | ANone.

Record bibmeta := mkMeta {
  bm_author : authors;
  bm_institute : option (list (str * str * str));   (* None: the string "None" *)
  bm_title : str;
  bm_reference : option reference;                  (* None: the string "None" *)
  bm_pubtype : str; bm_year : str; bm_subent : str }.

(** bib['AUTHOR'] and so on; bib[k] is None only for TITLE. *)
Definition bib_field (b : bib) (k : string) : option (option field) := dget tag_eqb (Some (lit k)) (b_dict b).

(** exfor_section.py:127-149 for bib and subent given.  The bib section itself is changed by
    setdefault (line 141): the new one is returned too. *)
Definition X4BibMetaData (b : bib) (subent : str) : res (bibmeta * bib) :=
  author <- match bib_field b "AUTHOR" with
            | None => Ok ANone
            | Some (Some (FAuthor a)) => Ok (AList (a_authors a))
            | Some _ => Raise AttributeError
            end ;;
  institute <- match bib_field b "INSTITUTE" with
               | None => Ok None
               | Some (Some (FInstitute _ l)) => Ok (Some l)
               | Some _ => Raise OutsideModel
               end ;;
  '(title, b') <- match bib_field b "TITLE" with
                  | None => Ok (lit "None", mkBib (dset tag_eqb (Some (lit "TITLE")) None (b_dict b)) (b_keys b))
                  | Some None => Ok (lit "None", b)
                  | Some (Some (FTitle f)) => Ok (title_str f, b)
                  | Some (Some _) => Raise OutsideModel
                  end ;;
  '(reference, pubtype, year) <- match bib_field b "REFERENCE" with
                                 | None => Ok (None, lit "None", lit "None")
                                 | Some (Some (FReference _ r)) => Ok (Some r, ref_pubtype r, ref_pubyear r)
                                 | Some _ => Raise AttributeError
                                 end ;;
  Ok (mkMeta author institute title reference pubtype year subent, b').

(** ', '.join(self.author): a string is joined character by character. *)
Definition author_items (a : authors) : list str :=
  match a with AList l => l | ANone => map (fun c => [c]) (lit "None") end.
Definition author_string (a : authors) : str :=
  if 2 <? length (author_items a)
  then join (lit ", ") (firstn 2 (author_items a)) ++ lit ", et al."
  else join (lit ", ") (author_items a).
Definition meta_reference_str (m : bibmeta) : str :=
  match bm_reference m with Some r => reference_str r | None => lit "None" end.

(** exfor_section.py:168-176 *)
Definition meta_citation (m : bibmeta) : res str :=
  date <- match bm_reference m with Some r => Ok (ref_date r) | None => Raise AttributeError end ;;
  Ok (author_string (bm_author m) ++ lit ", " ++ meta_reference_str m
      ++ lit ";  Data taken from the EXFOR database, file EXFOR " ++ bm_subent m ++ lit " dated "
      ++ date ++ lit ", retrieved from the IAEA Nuclear Data Services website.").

(** exfor_section.py:178-184 *)
Definition meta_legend (m : bibmeta) : str :=
  lit "(" ++ bm_year m ++ lit ") " ++ author_string (bm_author m).

(** ** DATA and COMMON *)

Record data_section := mkData {
  d_tag : str;
  d_numcols : Z; d_numrows : Z; d_LPR : Z;
  d_labels : list str; d_units : list str;
  d_pointers : list (ascii * list nat);
  d_raw : list (list str);
  d_data : list (list (option float)) }.

(** [range(a, b, s)] for s <> 0. *)
Definition zrange (a b s : Z) : list Z :=
  let n := if (0 <? s)%Z then ((b - a + s - 1) / s)%Z else ((a - b - s - 1) / (- s))%Z in
  map (fun k => (a + Z.of_nat k * s)%Z) (seq 0 (Z.to_nat n)).

(** exfor_section.py:256 *)
Definition row_part (line : str) : str := replace_char nl [] (ljust 66 (slice_to line 67)).

(** exfor_section.py:224-244: the number of rows under the three counting conventions *)
Definition settle_numrows (len numrows lpr : Z) : res Z :=
  if negb (len =? 2 + (numrows + 2) * lpr)%Z then
    if (len =? 2 + numrows * lpr)%Z then Ok (numrows - 2)%Z
    else if (len =? 2 + numrows)%Z then
      if (lpr =? 0)%Z then Raise ZeroDivisionError else Ok (numrows / lpr - 2)%Z
    else Raise IndexError
  else Ok numrows.

(** exfor_section.py:251-257 *)
Definition collapse (lines : list str) (lpr : Z) : res (list str) :=
  if (lpr =? 0)%Z then Raise ValueError
  else map_res (fun i => parts <- map_res (fun j => l <- zidx lines (i + Z.of_nat j)%Z ;; Ok (row_part l))
                                          (seq 0 (Z.to_nat lpr)) ;;
                         Ok (concat parts))
               (zrange 1 (Z.of_nat (length lines) - 1) lpr).

(** columns [11 * j: 11 * (j + 1)], stripped *)
Definition cell (row : str) (j : nat) : str := strip (slice row (11 * j) (11 * (j + 1))).

(** [l.index(x)], x in l *)
Fixpoint index_str (x : str) (l : list str) : nat :=
  match l with [] => 0 | y :: l' => if str_eqb x y then 0 else S (index_str x l') end.

(** exfor_section.py:259-268, one column: state is (labels, units, pointers) *)
Definition header_step (collapsed : list str) (st : list str * list str * list (ascii * list nat)) (j : nat)
  : res (list str * list str * list (ascii * list nat)) :=
  let '(labels, units, pointers) := st in
  r0 <- idx collapsed 0 ;;
  let label := cell r0 j in
  let labels := labels ++ [label] in
  r1 <- idx collapsed 1 ;;
  let units := units ++ [cell r1 j] in
  if length label =? 11 then
    let p := nth 10 label sp in
    let old := match dget Ascii.eqb p pointers with Some l => l | None => [] end in
    Ok (labels, units, dset Ascii.eqb p (old ++ [index_str label labels]) pointers)
  else Ok (labels, units, pointers).

(** exfor_section.py:201-276 *)
Definition X4DataSection (tag : str) (lines : list str) : res data_section :=
  l0 <- idx lines 0 ;;
  let firstline := split_ws (slice_to l0 33) in
  f1 <- idx firstline 1 ;; numcols <- of_option ValueError (int_of_str f1) ;;
  f2 <- idx firstline 2 ;; numrows <- of_option ValueError (int_of_str f2) ;;
  let lpr := ((numcols - 1) / 6 + 1)%Z in
  numrows <- settle_numrows (Z.of_nat (length lines)) numrows lpr ;;
  collapsed <- collapse lines lpr ;;
  '(labels, units, pointers) <- fold_res (header_step collapsed) (seq 0 (Z.to_nat numcols)) ([], [], []) ;;
  rows <- map_res (fun i =>
            raw <- map_res (fun j => r <- idx collapsed (2 + i) ;; Ok (cell r j)) (seq 0 (Z.to_nat numcols)) ;;
            vals <- map_res parseFORTRANNumber raw ;;
            Ok (raw, vals)) (seq 0 (Z.to_nat numrows)) ;;
  Ok (mkData tag numcols numrows lpr labels units pointers (map fst rows) (map snd rows)).

(** exfor_section.py:294-309 *)
Definition data_repr (d : data_section) : str :=
  ljust 11 (d_tag d) ++ rjust 11 (z_to_str (d_numcols d)) ++ rjust 11 (z_to_str (d_numrows d)) ++ [nl]
  ++ concat (map (ljust 11) (d_labels d)) ++ [nl]
  ++ concat (map (ljust 11) (d_units d)) ++ [nl]
  ++ concat (map (fun row => concat (map (ljust 11) row) ++ [nl]) (d_raw d))
  ++ ljust 11 (lit "END" ++ d_tag d) ++ rjust 11 (z_to_str (d_numrows d + 2)).

(** exfor_section.py:322-332: the two forms of the first index *)
Inductive data_item := DText (s : str) | DNum (v : option float).
Definition data_getitem (d : data_section) (i : str + Z) (j : Z) : res data_item :=
  match i with
  | inl s => if str_eqb s (lit "LABELS") then l <- zidx (d_labels d) j ;; Ok (DText l)
             else if str_eqb s (lit "UNITS") then u <- zidx (d_units d) j ;; Ok (DText u)
             else Raise KeyError
  | inr i => row <- zidx (d_data d) i ;; v <- zidx row j ;; Ok (DNum v)
  end.
(** exfor_section.py:334 *)
Definition data_len (d : data_section) : res Z := 
  if (d_numrows d <? 0)%Z then Raise ValueError else Ok (d_numrows d).
