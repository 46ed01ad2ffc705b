(** x4i3/exfor_dataset.py and the data set methods of x4i3/exfor_entry.py.  No proofs here. *)
From Coq Require Import String List Ascii NArith ZArith Bool Arith.
From Verif.Model Require Import Py PyFloat Utilities Dicts Particle Reaction Field Section Entry Columns.
Import ListNotations.
Local Open Scope string_scope.
Local Open Scope list_scope.
Local Open Scope nat_scope.

(** * Data sets *)

(** The classes of exfor_dataset.py. *)
Inductive ds_class :=
| DataSet | CrossSection | Nubar | SpectrumAve | ResonanceInt | AnalyzingPower | AngularDist | EnergyDist | EnergyAngle.

Definition monitor := list (option measurement * ptree * option str).

Record dataset := mkDS {
  ds_class_of : ds_class;
  ds_meta : bibmeta;
  ds_reaction : option (measurement * ptree);
  ds_monitor : option monitor;
  ds_table : table;                (* labels, units, data *)
  ds_simplified : bool;
  ds_coupled : bool;
  ds_frame : option str }.         (* referenceFrame, where the class has one *)

(** ** Metadata, exfor_dataset.py:50-57 *)

Definition no_meta : bibmeta :=
  mkMeta ANone None (lit "None") None (lit "None") (lit "None") (lit "????????").

(** [getattr(m, k)] unless it is None or "None" *)
Definition given (new old : str) : str := if str_eqb new (lit "None") then old else new.
Definition merge_meta (old : bibmeta) (m : option bibmeta) : bibmeta :=
  match m with
  | None => old
  | Some m =>
      mkMeta (match bm_author m with ANone => bm_author old | a => a end)
             (or_else (bm_institute m) (bm_institute old))
             (given (bm_title m) (bm_title old))
             (or_else (bm_reference m) (bm_reference old))
             (given (bm_pubtype m) (bm_pubtype old))
             (given (bm_year m) (bm_year old))
             (given (bm_subent m) (bm_subent old))
  end.

(** ** setData, exfor_dataset.py:74-117 *)

(** A COMMON section with the identity of the object. *)
Definition common_section := option (nat * data_section).

Definition nmem (i : nat) (l : list nat) : bool := existsb (Nat.eqb i) l.

(** Line 86: columns of [d] that belong to another pointer *)
Definition other_pointers_columns (d : data_section) (pointer : option ascii) : list nat :=
  flat_map (fun pc => if match pointer with Some p => Ascii.eqb (fst pc) p | None => false end then [] else snd pc)
           (d_pointers d).

(** Line 88 *)
Definition keep_column (d : data_section) (pointer : option ascii) (icol : nat) : bool :=
  match d_pointers d with [] => true | _ => negb (nmem icol (other_pointers_columns d pointer)) end.

(** Lines 81-93: (labels, units, column_offsets, column_filter) *)
Definition heading_step (pointer : option ascii)
    (st : list str * list str * list nat * list bool) (d : option data_section)
  : res (list str * list str * list nat * list bool) :=
  let '(labels, units, offsets, filter) := st in
  let offsets := offsets ++ [length labels] in
  match d with
  | None => Ok (labels, units, offsets, filter)
  | Some d =>
      fold_res (fun st icol =>
        let '(labels, units, offsets, filter) := st in
        if keep_column d pointer icol then
          l <- idx (d_labels d) icol ;; u <- idx (d_units d) icol ;;
          Ok (labels ++ [strip (slice_to l 10)], units ++ [strip (slice_to u 10)], offsets, filter ++ [true])
        else Ok (labels, units, offsets, filter ++ [false]))
        (seq 0 (Z.to_nat (d_numcols d))) (labels, units, offsets, filter)
  end.

(** Lines 95-102, one row *)
Definition data_row (offset : nat) (filter : list bool) (cells : list (option float)) : res (list dcell) :=
  own <- map_res (fun ix => keep <- idx filter (offset + fst ix) ;;
                            Ok (if keep then [match snd ix with Some x => VFloat x | None => VNone end] else []))
                 (combine (seq 0 (length cells)) cells) ;;
  Ok (repeat VZero offset ++ concat own).

(** [l[i] = v] *)
Definition set_nth {A} (l : list A) (i : nat) (v : A) : res (list A) :=
  if i <? length l then Ok (firstn i l ++ v :: skipn (S i) l) else Raise IndexError.

(** Lines 110-112 and 115-117: write row [irow] of COMMON section [c] into [row] *)
Definition write_common (c : data_section) (offset irow : nat) (row : list dcell) : res (list dcell) :=
  fold_res (fun row icol => cells <- idx (d_data c) irow ;; v <- idx cells icol ;;
                            set_nth row (offset + icol) (match v with Some x => VFloat x | None => VNone end))
           (seq 0 (Z.to_nat (d_numcols c))) row.

(** [common.index(c)]: sections are equal only if they are the same object. *)
Fixpoint common_index (id : nat) (common : list common_section) : nat :=
  match common with
  | Some (id', _) :: l => if id =? id' then 0 else S (common_index id l)
  | None :: l => S (common_index id l)
  | [] => 0
  end.

(** Lines 105-117 *)
Definition add_common (common : list common_section) (offsets : list nat) (rows : list (list dcell)) (c : common_section)
  : res (list (list dcell)) :=
  match c with
  | None => Ok rows
  | Some (id, c) =>
      let n := length rows in
      let upto := if (d_numrows c =? 1)%Z then n else Nat.min (Z.to_nat (d_numrows c)) n in
      map_res (fun ir => let '(i, row) := ir in
                 if i <? upto then
                   offset <- idx offsets (common_index id common) ;;
                   write_common c offset (if (d_numrows c =? 1)%Z then 0 else i) row
                 else Ok row)
              (combine (seq 0 n) rows)
  end.

(** Lines 74-117 on a new data set.  Simplified: when [numcols] of a COMMON section is 0 the
    offset is looked up although the inner loop is empty; no such section can be parsed. *)
Definition setData (data : data_section) (common : list common_section) (pointer : option ascii) : res table :=
  '(labels, units, offsets, filter) <-
     fold_res (heading_step pointer) (map (option_map snd) common ++ [Some data]) ([], [], [], []) ;;
  offset <- (if (0 <? d_numrows data)%Z then idx offsets 2 else Ok 0) ;;
  rows <- map_res (fun irow => cells <- idx (d_data data) irow ;; data_row offset filter cells)
                  (seq 0 (Z.to_nat (d_numrows data))) ;;
  rows <- fold_res (add_common common offsets) common rows ;;
  Ok (mkTable labels (map Some units) rows).

(** ** Construction *)

Definition is_combination (m : measurement) : bool := match m with MRxn _ => false | _ => true end.

(** Lines 378-382 and 404-408 *)
Definition frame_of (labels : list str) : str :=
  if existsb (contains (lit "-CM")) labels then lit "Center of mass" else lit "Lab".

(** exfor_dataset.py:46-72 and the constructors of the subclasses, for data given *)
Definition make_dataset (cls : ds_class) (meta : list (option bibmeta)) (common : list common_section)
    (reaction : option (measurement * ptree)) (mon : option monitor) (data : data_section) (pointer : option ascii)
  : res dataset :=
  t <- setData data common pointer ;;
  Ok (mkDS cls (fold_left merge_meta meta no_meta) reaction mon t false
           (match reaction with Some (m, _) => is_combination m | None => false end)
           (match cls with AngularDist | EnergyDist => Some (frame_of (t_labels t)) | _ => None end)).

(** exfor_dataset.py:46-72 without data *)
Definition empty_dataset (cls : ds_class) (meta : list (option bibmeta)) (reaction : option (measurement * ptree))
    (mon : option monitor) : dataset :=
  mkDS cls (fold_left merge_meta meta no_meta) reaction mon (mkTable [] [] []) false
       (match reaction with Some (m, _) => is_combination m | None => false end)
       (match cls with AngularDist | EnergyDist => Some (lit "Lab") | _ => None end).

(** What str() of a reaction needs: the dictionaries of compounds, quantities and modifiers. *)
Record names := mkNames { nm_compounds : x4dict; nm_quantities : x4dict; nm_modifiers : x4dict }.
Definition m_str (nm : names) (m : measurement) : res str :=
  measurement_str (nm_compounds nm) (nm_quantities nm) (nm_modifiers nm) m.

(** [==] on tokens: results of the parser are objects without __eq__, and no two quantities
    share one. *)
Definition tree_same (a b : ptree) : bool := match a, b with PTok s, PTok t => str_eqb s t | _, _ => false end.
Fixpoint list_same {A} (eqb : A -> A -> bool) (a b : list A) : bool :=
  match a, b with
  | [], [] => true
  | x :: a', y :: b' => eqb x y && list_same eqb a' b'
  | _, _ => false
  end.
Definition quantity_is (q : ptree) (l : list string) : bool :=
  match q with PGroup ts => list_same tree_same ts (map (fun s => PTok (lit s)) l) | PTok _ => false end.
(** [x in quant]: for a string, a substring *)
Definition in_quantity (x : string) (q : ptree) : bool :=
  match q with PTok s => contains (lit x) s | PGroup l => existsb (is_tok (lit x)) l end.

(** exfor_dataset.py:445-514 *)
Definition class_table : list (list string * ds_class) :=
  [(["SIG"], CrossSection); (["CN"; "SIG"], CrossSection); (["SIG"; "DERIV"], CrossSection); (["SIG"; "FCT"], CrossSection);
   (["DI"; "SIG"], CrossSection); (["SIG"; "EVAL"], CrossSection); (["SIG"; "EXP"], CrossSection);
   (["SIG"; "MXW"], SpectrumAve); (["SIG"; "SPA"], SpectrumAve); (["SIG"; "SFC"; "EVAL"], SpectrumAve);
   (["SIG"; "SFC"; "EXP"], SpectrumAve); (["SIG"; "SFC"], SpectrumAve); (["SIG"; "FST"], SpectrumAve);
   (["SIG"; "RTE"], SpectrumAve); (["SIG"; "FIS"], SpectrumAve); (["SIG"; "FIS"; "EVAL"], SpectrumAve);
   (["SIG"; "AV"], CrossSection)].
Definition class_of_quantity (q : ptree) : ds_class :=
  match find (fun e => quantity_is q (fst e)) class_table with
  | Some e => snd e
  | None =>
      if in_quantity "RI" q then ResonanceInt
      else if in_quantity "POL/DA" q then AnalyzingPower
      else if in_quantity "DA" q then AngularDist
      else if in_quantity "NU" q then Nubar
      else if in_quantity "DE" q then EnergyDist
      else DataSet
  end.

(** exfor_dataset.py:437-444: the quantity that decides.  [reaction[0].reaction_list] of a plain
    reaction or of None: AttributeError, TypeError. *)
Definition settle_quantity (nm : names) (q : ptree) (reaction : option (measurement * ptree)) : res ptree :=
  if match q with PTok s => str_eqb s (lit "Coupled") | PGroup _ => false end then
    match reaction with
    | None => Raise TypeError
    | Some (MRxn _, _) => Raise AttributeError
    | Some ((MComb data | MIso data) as m, _) =>
        match unique (list_same tree_same) (map r_quant (getReactionList data)) with
        | [l] => Ok (PGroup l)
        | _ => _ <- m_str nm m ;; Raise NotImplementedError
        end
    end
  else Ok q.

(** exfor_dataset.py:435-514 *)
Definition X4DataSetFactory (nm : names) (quant : ptree) (meta : list (option bibmeta)) (common : list common_section)
    (reaction : option (measurement * ptree)) (mon : option monitor) (data : data_section) (pointer : option ascii)
  : res dataset :=
  q <- settle_quantity nm quant reaction ;;
  make_dataset (class_of_quantity q) meta common reaction mon data pointer.

(** ** Simplification, exfor_dataset.py:182-246 *)

Definition all_none (l : list (option float)) : bool := forallb (fun x => match x with None => true | _ => false end) l.
Definition of_num (x : option float) : dcell := match x with Some x => VFloat x | None => VNone end.

(** Lines 209-217: value column, error column, and whether there is no error at all *)
Definition read_columns (acos : float -> option float) (t : table) (parsers : list parser) : prog (column * column * bool) :=
  vs <~ pmap (fun p => getValue acos p t) parsers ;;
  v <~ Ret (reduce_res condenseColumn vs) ;;
  es <~ pmap (fun p => getError acos p t) parsers ;;
  e <~ Ret (reduce_res condenseColumn es) ;;
  if all_none (c_cells v) then Ret (Raise NoValuesGivenError) else Ret (Ok (v, e, all_none (c_cells e))).

Definition error_name (c : str) : str := lit "d(" ++ c ++ lit ")".

(** Lines 218-244 *)
Definition assemble (makeAll failMissing : bool) (n : nat) (cols : list (str * (column * column * bool)))
    (columnNames : list str) : res table :=
  let get c := of_option KeyError (dget str_eqb c cols) in
  heads <- map_res (fun c => '(v, e, none) <- get c ;; Ok (c, c_unit v)) columnNames ;;
  eheads <- map_res (fun c => '(v, e, none) <- get c ;;
                              Ok (if negb none || makeAll
                                  then [(error_name c, if none then c_unit v else c_unit e)] else []))
                    columnNames ;;
  rows <- map_res (fun i =>
            vals <- map_res (fun c => '(v, e, none) <- get c ;; x <- idx (c_cells v) i ;; Ok (of_num x)) columnNames ;;
            errs <- map_res (fun c => '(v, e, none) <- get c ;;
                                      if none then
                                        if makeAll then Ok [VFloat fzero]
                                        else if failMissing then Raise NoUncertaintyGivenError else Ok []
                                      else x <- idx (c_cells e) i ;; Ok [of_num x]) columnNames ;;
            Ok (vals ++ concat errs)) (seq 0 n) ;;
  Ok (mkTable (map fst heads ++ map fst (concat eheads)) (map snd heads ++ map snd (concat eheads)) rows).

Definition set_table (d : dataset) (t : table) (simplified : bool) : dataset :=
  mkDS (ds_class_of d) (ds_meta d) (ds_reaction d) (ds_monitor d) t simplified (ds_coupled d) (ds_frame d).

Definition X4DataSet_getSimplified (acos : float -> option float) (parserMap : option (list (str * list parser)))
    (columnNames : list str) (makeAll failMissing : bool) (self : dataset) : prog dataset :=
  if ds_simplified self then Ret (Ok self)
  else match parserMap with
  | None => Ret (Ok self)
  | Some pm =>
      if existsb (fun p => negb (smem p columnNames)) (dkeys pm) then Ret (Raise KeyError)
      else
        cols <~ pmap (fun e => c <~ read_columns acos (ds_table self) (snd e) ;; Ret (Ok (fst e, c))) pm ;;
        t <~ Ret (assemble makeAll failMissing (numrows (ds_table self)) cols columnNames) ;;
        Ret (Ok (set_table self t true))
  end.

(** Lines 313-321, 330-333, 343-350, 389-396, 415-422 *)
Definition parser_map (c : ds_class) : list (str * list parser) :=
  match c with
  | CrossSection => [(lit "Energy", incidentEnergyParserList); (lit "Data", csDataParserList)]
  | Nubar => [(lit "Energy", incidentEnergyParserList); (lit "Data", nubarParserList)]
  | SpectrumAve => [(lit "Energy", spectrumArgumentParserList); (lit "Data", csDataParserList)]
  | AngularDist => [(lit "Energy", incidentEnergyParserList); (lit "Angle", angleParserList); (lit "Data", angDistParserList)]
  | EnergyDist => [(lit "Energy", incidentEnergyParserList); (lit "E'", outgoingEnergyParserList); (lit "Data", energyDistParserList)]
  | _ => []
  end.

(** The getSimplified method of each class *)
Definition getSimplified (acos : float -> option float) (makeAll failMissing : bool) (d : dataset) : prog dataset :=
  match ds_class_of d with
  | CrossSection | Nubar | SpectrumAve | AngularDist | EnergyDist =>
      let pm := parser_map (ds_class_of d) in
      X4DataSet_getSimplified acos (Some pm) (dkeys pm) makeAll failMissing d
  | DataSet => X4DataSet_getSimplified acos None [] makeAll failMissing d
  | AnalyzingPower => Ret (Ok d)
  | ResonanceInt | EnergyAngle => Ret (Raise NotImplementedError)
  end.

(** ** append, exfor_dataset.py:248-277 *)

Definition ostr_eqb (a b : option str) : bool :=
  match a, b with Some x, Some y => str_eqb x y | None, None => true | _, _ => false end.

Definition reaction_text (nm : names) (d : dataset) : res str :=
  match ds_reaction d with Some (m, _) => m_str nm m | None => Raise TypeError end.

(** [same] says whether self.reaction == other.reaction (reactions are objects without __eq__).
    The message goes to standard output.  Simplified: str() of two different monitors, which only
    enters the message, is assumed not to raise. *)
Definition append (nm : names) (same : bool) (self other : dataset) : res dataset :=
  match t_labels (ds_table self), t_units (ds_table self), t_data (ds_table self) with
  | [], [], [] =>
      Ok (mkDS (ds_class_of self) (ds_meta self) (ds_reaction other) (ds_monitor other) (ds_table other)
               (ds_simplified other) (ds_coupled self) (ds_frame self))
  | _, _, _ =>
      equal <- (if list_same str_eqb (t_labels (ds_table self)) (t_labels (ds_table other))
                   && list_same ostr_eqb (t_units (ds_table self)) (t_units (ds_table other))
                then a <- reaction_text nm self ;; b <- reaction_text nm other ;; Ok (str_eqb a b)
                else Ok false) ;;
      if (equal : bool) then
        Ok (set_table self (mkTable (t_labels (ds_table self)) (t_units (ds_table self))
                                    (t_data (ds_table self) ++ t_data (ds_table other)))
                      (ds_simplified self))
      else if same then Ok self
      else _ <- reaction_text nm self ;; _ <- reaction_text nm other ;; Ok self
  end.

(** * Data sets of an entry, exfor_entry.py:221-340 *)

Definition ds_key := (str * option str * ascii)%type.
Definition key_eqb (a b : ds_key) : bool :=
  let '(x, y, z) := a in let '(x', y', z') := b in str_eqb x x' && tag_eqb y y' && Ascii.eqb z z'.

Definition datasets := list (ds_key * dataset).
Definition errors := list (ds_key * exn).

Definition sub_section (s : subentry) (k : string) : option section := dget str_eqb (lit k) (s_dict s).
Definition sub_data (s : subentry) (k : string) : option data_section :=
  match sub_section s k with Some (SData d) => Some d | _ => None end.

(** Lines 230-238 and 248-259: metadata, reactions, monitors and COMMON of a subentry; the BIB
    section changes (C26).  [subent.accnum] may be None: the metadata then keep None, which is
    outside the model. *)
Record sub_info := mkInfo {
  i_meta : option bibmeta; i_reactions : reactions_dict; i_monitors : monitors_dict; i_common : option data_section }.

Definition sub_information (s : subentry) (accnum : option str) : res (sub_info * subentry) :=
  '(m, rs, ms, s') <-
    match sub_section s "BIB" with
    | Some (SBib b) =>
        a <- of_option OutsideModel accnum ;;
        '(m, b') <- X4BibMetaData b a ;;
        rs <- match bib_field b "REACTION" with
              | None => Ok []
              | Some (Some (FReaction _ rs)) => Ok rs
              | Some _ => Raise AttributeError
              end ;;
        ms <- match bib_field b "MONITOR" with
              | None => Ok []
              | Some (Some (FMonitor _ ms)) => Ok ms
              | Some _ => Raise AttributeError
              end ;;
        Ok (Some m, rs, ms, sub_set_bib s b')
    | Some (SData _) => Raise OutsideModel
    | None => Ok (None, [], [], s)
    end ;;
  Ok (mkInfo m rs ms (sub_data s "COMMON"), s').

(** Lines 265-278 and 282-295: the data sets of one list of reactions *)
Definition build_step (nm : names) (acc : str) (sub : option str) (meta : list (option bibmeta)) (common : list common_section)
    (data : data_section) (monitors : monitors_dict) (st : datasets * errors) (pr : ascii * (measurement * ptree))
  : res (datasets * errors) :=
  let '(ds, errs) := st in
  let '(p, r) := pr in
  let k := (acc, sub, p) in
  match X4DataSetFactory nm (m_quantity (fst r)) meta common (Some r) (dget Ascii.eqb p monitors) data (Some p) with
  | Ok d => Ok (dset key_eqb k d ds, errs)
  | Raise NotImplementedError => Ok (ds, dset key_eqb k NotImplementedError errs)
  | Raise IndexError => Ok (ds, dset key_eqb k IndexError errs)
  | Raise e => Raise e
  end.

(** Lines 241-295, one subentry.  [main_acc] is the key of subentry 001: if [sub] is that one,
    its COMMON section is the same object as the main one. *)
Definition subentry_step (nm : names) (acc : str) (main : sub_info) (st : datasets * errors * list (option str * subentry))
    (ks : option str * subentry) : res (datasets * errors * list (option str * subentry)) :=
  let '(ds, errs, subs) := st in
  let '(k, s) := ks in
  match sub_data s "DATA" with
  | None => Ok (ds, errs, subs ++ [(k, s)])
  | Some data =>
      '(info, s') <- sub_information s (s_accnum s) ;;
      let meta := [i_meta main; i_meta info] in
      let id := if tag_eqb k (Some (acc ++ lit "001")) then 0 else 1 in
      let common := [option_map (fun c => (0, c)) (i_common main); option_map (fun c => (id, c)) (i_common info)] in
      st <- fold_res (build_step nm acc (s_accnum s) meta common data (i_monitors main)) (i_reactions main) (ds, errs) ;;
      '(ds, errs) <- fold_res (build_step nm acc (s_accnum s) meta common data (i_monitors info)) (i_reactions info) st ;;
      Ok (ds, errs, subs ++ [(k, s')])
  end.

(** Lines 221-296: the data sets, the new self.errors, and the entry itself, whose BIB sections
    may have changed. *)
Definition getDataSets (nm : names) (n : entry) (errs : errors) : res (datasets * errors * entry) :=
  del <- deleted n ;;
  if (del : bool) then Ok ([], errs, n)
  else
    s1 <- entry_getitem n (EInt 1) ;;
    '(main, s1') <- sub_information s1 (Some (n_accnum n ++ lit "001")) ;;
    let subs := dset tag_eqb (Some (n_accnum n ++ lit "001")) s1' (n_subs n) in
    '(ds, errs, subs) <- fold_res (subentry_step nm (n_accnum n) main) subs ([], errs, []) ;;
    Ok (ds, errs, mkEntry (n_accnum n) subs).

(** The exceptions getSimplifiedDataSets records, lines 304-339 *)
Definition simplify_caught (e : exn) : bool :=
  match e with
  | NotImplementedError | NoValuesGivenError | NoUncertaintyGivenError | BrokenNumberError | TypeError | IndexError => true
  | _ => false
  end.

(** Lines 300-339, one data set.  The parsers are shared objects: their attributes are carried on. *)
Definition simplify_step (acos : float -> option float) (makeAll : bool) (st : datasets * errors * store) (kd : ds_key * dataset)
  : res (datasets * errors * store) :=
  let '(ds, errs, s) := st in
  let '(k, d) := kd in
  let '(r, s') := run (getSimplified acos makeAll false d) s in
  match r with
  | Ok d' => Ok (dset key_eqb k d' ds, errs, s')
  | Raise e => if simplify_caught e then Ok (ds, dset key_eqb k e errs, s') else Raise e
  end.

(** Lines 298-340 *)
Definition getSimplifiedDataSets (nm : names) (acos : float -> option float) (makeAll : bool) (n : entry) (errs : errors) (s : store)
  : res (datasets * errors * entry * store) :=
  '(ds, errs, n') <- getDataSets nm n errs ;;
  '(ds, errs, s') <- fold_res (simplify_step acos makeAll) ds (ds, errs, s) ;;
  Ok (ds, errs, n', s').
