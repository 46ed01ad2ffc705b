(** x4i3/exfor_dicts.py, x4i3/endl_Z.py and x4i3/exfor_reference.py.  No proofs here. *)
From Coq Require Import String List Ascii NArith ZArith Bool Arith.
From Verif.Model Require Import Py.
Import ListNotations.
Local Open Scope string_scope.
Local Open Scope list_scope.
Local Open Scope nat_scope.

(** * exfor_dicts.py *)

(** A loaded dictionary: code to the remaining fields. *)
Definition x4dict := list (str * list str).

(** [s.split('=')[-1].strip()], exfor_dicts.py:55-57. *)
Definition after_equals (line : str) : str := strip (last (split_char "="%char line) []).

(** exfor_dicts.py:66-78, one line of the body; [breaks] is FieldBreaks with the leading 0. *)
Definition dict_line (NumFields : Z) (breaks : list Z) (d : x4dict) (line : str) : res x4dict :=
  let line := strip line in
  let fb := breaks ++ [Z.of_nat (length line)] in
  match line with
  | [] => Ok d
  | _ =>
      fieldlist <- map_res (fun i => a <- idx fb i ;; b <- idx fb (S i) ;; Ok (strip (zslice line a b)))
                           (seq 0 (Z.to_nat NumFields)) ;;
      (* lines 74-77 *)
      match fieldlist with
      | [] => Raise IndexError
      | k :: item => Ok (dset str_eqb k item d)
      end
  end.

(** exfor_dicts.py:36-80.  [content] is what open() reads (None: IOError), newlines already
    translated.  The title is read but not used. *)
Definition getDictionary (content : option str) : res (option x4dict) :=
  match content with
  | None => Ok None
  | Some text =>
      let lines := readlines text in
      let line i := match nth_error lines i with Some l => l | None => [] end in
      NumFields <- of_option ValueError (int_of_str (after_equals (line 1))) ;;
      let s := split_char ","%char
                 (replace_char "]"%char [] (replace_char "["%char [] (after_equals (line 2)))) in
      FieldBreaks <- map_res (fun c => of_option ValueError (int_of_str c)) s ;;
      d <- fold_res (dict_line NumFields (0%Z :: FieldBreaks)) (skipn 3 lines) [] ;;
      Ok (Some d)
  end.

(** exfor_dicts.py:95-116 *)
Definition DictionaryNames : list (Z * str) :=
  map (fun x => (fst x, lit (snd x)))
    [(3, "Institutes"); (4, "ReferenceTypes"); (5, "Journals"); (7, "ConferencesAndBooks");
     (9, "Compounds"); (15, "History"); (16, "Status"); (17, "Rel_Ref"); (18, "Facility");
     (19, "IncidentSource"); (20, "AdditionalResults"); (21, "Method"); (22, "Detectors");
     (23, "Analysis"); (24, "DataHeadings"); (30, "Process"); (33, "Particles");
     (34, "Modifiers"); (35, "DataType"); (36, "Quantities"); (37, "Result")]%Z.

(** The argument x of the lookups: an int, a str or something else. *)
Inductive dkey := DInt (z : Z) | DName (s : str) | DOther.

(** exfor_dicts.py:127-139 *)
Definition getDictionaryName (x : dkey) : option str :=
  match x with
  | DInt z => option_map snd (find (fun i => Z.eqb (fst i) z) DictionaryNames)
  | _ => None
  end.

(** exfor_dicts.py:142-154 *)
Definition getDictionaryIndex (x : dkey) : option Z :=
  match x with
  | DName s => option_map fst (find (fun i => str_eqb (snd i) s) DictionaryNames)
  | _ => None
  end.

(** exfor_dicts.py:157-173 *)
Definition dict_file (z : Z) : str := lit "dict" ++ zfill 2 (z_to_str z) ++ lit ".txt".
Definition getDictionaryFilename (x : dkey) : option str :=
  match x with
  | DInt z => option_map (fun i => dict_file (fst i)) (find (fun i => Z.eqb (fst i) z) DictionaryNames)
  | DName s => option_map (fun i => dict_file (fst i)) (find (fun i => str_eqb (snd i) s) DictionaryNames)
  | DOther => None
  end.

(** exfor_dicts.py:120-124 and 176-186; [dir] maps file names to contents.  A None file name
    is added to the path string: TypeError. *)
Definition server_getDictionary (dir : str -> option str) (x : dkey) : res (option x4dict) :=
  match getDictionaryFilename x with
  | None => Raise TypeError
  | Some f => getDictionary (dir f)
  end.

(** exfor_dicts.py:189-202 *)
Definition getAllDictionaries (dir : str -> option str) : res (list (str * x4dict)) :=
  fold_res (fun dictmap i =>
              tmp <- server_getDictionary dir (DInt (fst i)) ;;
              match tmp with
              | None => Ok dictmap
              | Some d => Ok (dset str_eqb (snd i) d dictmap)
              end) DictionaryNames [].

(** * endl_Z.py *)

(** endl_Z.py:29-148 *)
Definition endl_ZLabels : list (Z * str * str) :=
  map (fun x => let '(z, a, b) := x in (z, lit a, lit b))
    [(0, "n", "Neutron"); (1, "H", "Hydrogen"); (2, "He", "Helium"); (3, "Li", "Lithium");
     (4, "Be", "Beryllium"); (5, "B", "Boron"); (6, "C", "Carbon"); (7, "N", "Nitrogen");
     (8, "O", "Oxygen"); (9, "F", "Fluorine"); (10, "Ne", "Neon"); (11, "Na", "Sodium");
     (12, "Mg", "Magnesium"); (13, "Al", "Aluminium"); (14, "Si", "Silicon");
     (15, "P", "Phosphorus"); (16, "S", "Sulphur"); (17, "Cl", "Chlorine"); (18, "Ar", "Argon");
     (19, "K", "Potassium"); (20, "Ca", "Calcium"); (21, "Sc", "Scandium");
     (22, "Ti", "Titanium"); (23, "V", "Vanadium"); (24, "Cr", "Chromium");
     (25, "Mn", "Manganese"); (26, "Fe", "Iron"); (27, "Co", "Cobalt"); (28, "Ni", "Nickel");
     (29, "Cu", "Copper"); (30, "Zn", "Zinc"); (31, "Ga", "Gallium"); (32, "Ge", "Germanium");
     (33, "As", "Arsenic"); (34, "Se", "Selenium"); (35, "Br", "Bromine"); (36, "Kr", "Krypton");
     (37, "Rb", "Rubidium"); (38, "Sr", "Strontium"); (39, "Y", "Yttrium");
     (40, "Zr", "Zirconium"); (41, "Nb", "Niobium"); (42, "Mo", "Molybdenum");
     (43, "Tc", "Technetium"); (44, "Ru", "Ruthenium"); (45, "Rh", "Rhodium");
     (46, "Pd", "Palladium"); (47, "Ag", "Silver"); (48, "Cd", "Cadmium"); (49, "In", "Indium");
     (50, "Sn", "Tin"); (51, "Sb", "Antimony"); (52, "Te", "Tellurium"); (53, "I", "Iodine");
     (54, "Xe", "Xenon"); (55, "Cs", "Cesium"); (56, "Ba", "Barium"); (57, "La", "Lanthanum");
     (58, "Ce", "Cerium"); (59, "Pr", "Praseodymium"); (60, "Nd", "Neodymium");
     (61, "Pm", "Promethium"); (62, "Sm", "Samarium"); (63, "Eu", "Europium");
     (64, "Gd", "Gadolinium"); (65, "Tb", "Terbium"); (66, "Dy", "Dysprosium");
     (67, "Ho", "Holmium"); (68, "Er", "Erbium"); (69, "Tm", "Thulium"); (70, "Yb", "Ytterbium");
     (71, "Lu", "Lutetium"); (72, "Hf", "Hafnium"); (73, "Ta", "Tantalum"); (74, "W", "Tungsten");
     (75, "Re", "Rhenium"); (76, "Os", "Osmium"); (77, "Ir", "Iridium"); (78, "Pt", "Platinum");
     (79, "Au", "Gold"); (80, "Hg", "Mercury"); (81, "Tl", "Thallium"); (82, "Pb", "Lead");
     (83, "Bi", "Bismuth"); (84, "Po", "Polonium"); (85, "At", "Astatine"); (86, "Rn", "Radon");
     (87, "Fr", "Francium"); (88, "Ra", "Radium"); (89, "Ac", "Actinium"); (90, "Th", "Thorium");
     (91, "Pa", "Protactinium"); (92, "U", "Uranium"); (93, "Np", "Neptunium");
     (94, "Pu", "Plutonium"); (95, "Am", "Americium"); (96, "Cm", "Curium");
     (97, "Bk", "Berkelium"); (98, "Cf", "Californium"); (99, "Es", "Einsteinium");
     (100, "Fm", "Fermium"); (101, "Md", "Mendelevium"); (102, "No", "Nobelium");
     (103, "Lr", "Lawrencium"); (104, "Rf", "Rutherfordium"); (105, "Db", "Dubnium");
     (106, "Sg", "Seaborgium"); (107, "Bh", "Bohrium"); (108, "Hs", "Hassium");
     (109, "Mt", "Meitnerium"); (110, "Ds", "Darmstadtium"); (111, "Rg", "Roentgenium");
     (112, "Cn", "Copernicium"); (113, "Uut", "Ununtrium"); (114, "Fl", "Flerovium");
     (115, "Uup", "Ununpentium"); (116, "Lv", "Livermorium"); (117, "Uus", "Ununseptium");
     (118, "Uuo", "Ununoctium")]%Z.

(** endl_Z.py:28, 153 *)
Definition endl_nZs : Z := 119.

(** endl_Z.py:158-163 *)
Definition endl_ZSymbol (z : Z) : option str :=
  option_map (fun i => snd (fst i)) (find (fun i => Z.eqb (fst (fst i)) z) endl_ZLabels).
(** endl_Z.py:168-173 *)
Definition endl_SymbolZ (sym : str) : option Z :=
  option_map (fun i => fst (fst i)) (find (fun i => str_eqb (snd (fst i)) sym) endl_ZLabels).
(** endl_Z.py:178-183 *)
Definition endl_ZLabel (z : Z) : option str :=
  option_map snd (find (fun i => Z.eqb (fst (fst i)) z) endl_ZLabels).

(** * exfor_reference.py *)

(** exfor_reference.py:38-72 *)
Definition parseX4Year (date : str) : res str :=
  let date := replace_char ")"%char [] date in
  if negb (str_isdigit date) then Raise TypeError
  else
    let year := date in
    let year := if length year =? 6 then drop_last_n 2 year else year in
    let year := if length year =? 8 then drop_last_n 4 year else year in
    if (length year =? 4) && (str_eqb (firstn 2 year) (lit "19") || str_eqb (firstn 2 year) (lit "20"))
    then Ok year
    else
      let year := if length year =? 4 then firstn 2 year else year in
      if length year =? 2 then
        n <- of_option ValueError (int_of_str year) ;;
        Ok (if (10 <? n)%Z then lit "19" ++ year else lit "20" ++ year)
      else Ok year.

Record refcode := mkRef {
  rf_type : str; rf_name : str; rf_details : list str; rf_date : str; rf_pubyear : str;
  rf_ugly : str; rf_pretty : str }.

(** [d[name]] of the table of dictionaries, then [[key]], then [[i]]. *)
Definition dict_cell (dicts : list (str * x4dict)) (name : string) (key : str) (i : nat) : res str :=
  d <- of_option KeyError (dget str_eqb (lit name) dicts) ;;
  l <- of_option KeyError (dget str_eqb key d) ;;
  idx l i.

(** exfor_reference.py:99-118 *)
Definition getRefName (dicts : list (str * x4dict)) (reftype name : str) : res str :=
  if smem reftype [lit "A"; lit "B"; lit "C"] then
    t <- dict_cell dicts "ConferencesAndBooks" name 0 ;; Ok (t ++ [sp])
  else if smem reftype [lit "J"; lit "K"] then
    t <- dict_cell dicts "Journals" name 0 ;; Ok (t ++ [sp])
  else if smem reftype [lit "P"; lit "R"; lit "S"] then
    t <- dict_cell dicts "ReferenceTypes" reftype 1 ;; Ok (t ++ lit ": " ++ name ++ [sp])
  else if smem reftype [lit "T"; lit "W"; lit "X"; lit "0"; lit "3"; lit "4"] then
    t <- dict_cell dicts "ReferenceTypes" reftype 1 ;; Ok (t ++ lit ": " ++ capitalize name ++ [sp])
  else Raise LookupError.

(** exfor_reference.py:77-97; [comma] is commaSeparatedList.parseString(x).asList() (None:
    ParseException). *)
Definition X4ReferenceCode (comma : str -> option (list str)) (dicts : list (str * x4dict)) (x : str)
  : res refcode :=
  code <- of_option ReferenceParsingError (comma x) ;;
  reftype <- idx code 0 ;;
  name <- idx code 1 ;;
  date <- last_of code ;;
  let details := zslice code 2 (-1) in
  pubyear <- match parseX4Year date with
             | Raise TypeError => Raise ReferenceParsingError
             | r => r
             end ;;
  let ugly := reftype ++ lit "," ++ name in
  pretty <- match getRefName dicts reftype name with
            | Raise KeyError => Ok ugly
            | r => r
            end ;;
  Ok (mkRef reftype name details date pubyear ugly pretty).

(** exfor_reference.py:120-126 *)
Definition ref_repr (r : refcode) : str :=
  rf_ugly r ++ lit "," ++ join (lit ",") (map strip (rf_details r)) ++ lit "," ++ rf_date r.
Definition ref_str (r : refcode) : str :=
  rf_pretty r ++ join (lit ", ") (map strip (rf_details r)) ++ lit " (" ++ rf_pubyear r ++ lit ")".
