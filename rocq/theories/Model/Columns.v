(** x4i3/exfor_column_parsing.py: finding and converting the columns of a data set.  No proofs here.

    Column pair parsers are module level objects shared by all data sets, and they remember
    column numbers in attributes (icol1, icol2, icol3).  Their methods are therefore programs over
    a shared store; [run] executes one alone, [interleave] several at once. *)
From Coq Require Import String List Ascii NArith ZArith Bool Arith.
From Coq Require Import Floats.SpecFloat.
From Verif.Model Require Import Py PyFloat.
Import ListNotations.
Local Open Scope string_scope.
Local Open Scope list_scope.
Local Open Scope nat_scope.

(** * Tables *)

(** A cell of X4DataSet.data: None, a float, or the integer 0 put in by setData. *)
Inductive dcell := VNone | VFloat (x : float) | VZero.

(** What the parsers read of a data set. *)
Record table := mkTable { t_labels : list str; t_units : list (option str); t_data : list (list dcell) }.
Definition numcols (d : table) : nat := length (t_labels d).   (* exfor_dataset.py:290 *)
Definition numrows (d : table) : nat := length (t_data d).     (* exfor_dataset.py:292 *)

(** The number arithmetic sees: the integer 0 counts as 0.0. *)
Definition cell_num (c : dcell) : option float :=
  match c with VNone => None | VFloat x => Some x | VZero => Some fzero end.

(** A column as the parsers return it: the Python list [label, unit] + cells. *)
Record column := mkColumn { c_label : option str; c_unit : option str; c_cells : list (option float) }.

(** [None] * (data.numrows() + 2), exfor_column_parsing.py:184, 201, 236-237 *)
Definition dummy_column (d : table) : column := mkColumn None None (repeat None (numrows d)).

(** * Units, exfor_column_parsing.py:28-42 *)

Definition f1 : float := fl 1 0.
Definition pi : float := S754_finite false 7074237752028440 (-51).   (* math.pi = 0x1.921fb54442d18p+1 *)
Definition rad_degrees : float := fdiv (fl 180 0) pi.

Definition factors (l : list (string * float)) : list (str * float) := map (fun x => (lit (fst x), snd x)) l.

Definition energyUnitConversionFactors := factors
  [("GEV", fl 1 3); ("MEV", f1); ("KEV", fl 1 (-3)); ("EV", fl 1 (-6)); ("MILLI-EV", fl 1 (-9)); ("MeV", f1);
   ("K", fl 8621738 (-17))].
Definition crossSectionUnitConversionFactors := factors
  [("B", f1); ("MB", fl 1 (-3)); ("MICRO-B", fl 1 (-6)); ("barns", f1)].
Definition angularDistUnitConversionFactors := factors
  [("B/SR", f1); ("MB/SR", fl 1 (-3)); ("MICRO-B/SR", fl 1 (-6)); ("barns/SR", f1)].
Definition sqrtEnCrossSectUnitConversionFactors := factors [("B*RT-EV", f1); ("MB*RT-EV", fl 1 (-3))].
Definition momUnitConversionFactors := factors [("GEV/C", f1); ("MEV/C", fl 1 (-3))].
Definition angleUnitConversionFactors := factors [("ADEG", f1); ("SR", rad_degrees); ("RAD", rad_degrees)].
Definition noUnitConversionFactors := factors [("NO-DIM", f1); ("ARB-UNITS", f1); ("no-dim", f1)].
Definition nubarUnitConversionFactors := factors [("PRT/FIS", f1)].
Definition energyDistUnitConversionFactors := factors
  [("1/GEV", fl 1 (-3)); ("1/MEV", f1); ("1/KEV", fl 1 3); ("1/EV", fl 1 6); ("1/MILLI-EV", fl 1 9); ("1/MeV", f1)].

(** exfor_column_parsing.py:44-54 *)
Definition energyUnits := dkeys energyUnitConversionFactors.
Definition tempUnits := dkeys energyUnitConversionFactors.
Definition crossSectionUnits := dkeys crossSectionUnitConversionFactors.
Definition momUnits := dkeys momUnitConversionFactors.
Definition percentUnits := [lit "PER-CENT"].
Definition sqrtEnCrossSectUnits := dkeys sqrtEnCrossSectUnitConversionFactors.
Definition noUnits := dkeys noUnitConversionFactors.
Definition angUnits := dkeys angleUnitConversionFactors.
Definition angDistUnits := dkeys angularDistUnitConversionFactors.
Definition nubarUnits := dkeys nubarUnitConversionFactors.
Definition energyDistUnits := dkeys energyDistUnitConversionFactors.

(** exfor_column_parsing.py:164-174 *)
Definition unit_map_of_maps : list (str * list (str * float)) :=
  [(lit "MeV", energyUnitConversionFactors); (lit "1/MeV", energyDistUnitConversionFactors);
   (lit "barns", crossSectionUnitConversionFactors); (lit "degrees", angleUnitConversionFactors);
   (lit "B*RT-EV", sqrtEnCrossSectUnitConversionFactors); (lit "barns/ster", angularDistUnitConversionFactors);
   (lit "GeV/c", momUnitConversionFactors); (lit "ptcls/fis", nubarUnitConversionFactors);
   (lit "no-dim", noUnitConversionFactors)].

(** exfor_column_parsing.py:177-180 *)
Fixpoint find_conversion (maps : list (str * list (str * float))) (units : str) : float * str :=
  match maps with
  | [] => (f1, units)
  | (canonical, m) :: maps' =>
      match dget str_eqb units m with
      | Some f => (f, canonical)
      | None => find_conversion maps' units
      end
  end.
(** exfor_column_parsing.py:156-180 *)
Definition getConversion (units : option str) : res (float * str) :=
  match units with
  | None => Raise TypeError
  | Some u => Ok (find_conversion unit_map_of_maps u)
  end.

(** * Helpers *)

(** exfor_column_parsing.py:89-96 on a list: headings stay, None stays. *)
Definition absOrNone (c : column) : column := mkColumn (c_label c) (c_unit c) (map (option_map fabs) (c_cells c)).

Definition or_else {A} (x y : option A) : option A := match x with Some _ => x | None => y end.

(** exfor_column_parsing.py:115-122; the first two elements are the headings. *)
Definition condenseColumn (x y : column) : res column :=
  cells <- map_res (fun i => xi <- idx (c_cells x) i ;;
                             match xi with Some _ => Ok xi | None => idx (c_cells y) i end)
                   (seq 0 (Nat.max (length (c_cells x)) (length (c_cells y)))) ;;
  Ok (mkColumn (or_else (c_label x) (c_label y)) (or_else (c_unit x) (c_unit y)) cells).

(** exfor_column_parsing.py:99-112, on cells (it is not called anywhere). *)
Definition half : float := fl 5 (-1).
Definition averageColumns (x y : list (option float)) : res (list (option float)) :=
  map_res (fun i => xi <- idx x i ;; yi <- idx y i ;;
                    Ok (match xi, yi with
                        | Some a, None => Some a
                        | Some a, Some b => Some (fmul half (fadd a b))
                        | None, _ => yi
                        end))
          (seq 0 (Nat.max (length x) (length y))).

(** [reduce(f, l)] without initial value. *)
Definition reduce_res {A} (f : A -> A -> res A) (l : list A) : res A :=
  match l with [] => Raise TypeError | x :: l' => fold_res f l' x end.

(** * Column parsers, exfor_column_parsing.py:125-209 *)

Record colparser := mkCP {
  cp_labels : option (list str); cp_units : option (list str);
  cp_scale : float; cp_offset : float;
  cp_angle : bool (* an X4AngleColumnParser *) }.

(** [x in l] where x may be None *)
Definition omem (x : option str) (l : list str) : bool := match x with Some s => smem s l | None => false end.

(** exfor_column_parsing.py:133-141 *)
Definition cp_isMatch (p : colparser) (i : Z) (d : table) : res bool :=
  if ((i <? 0) || (Z.of_nat (numcols d) <=? i))%Z then Ok false
  else
    result <- match cp_labels p with
              | None => Ok true
              | Some ls => l <- zidx (t_labels d) i ;; Ok (smem l ls)
              end ;;
    match cp_units p with
    | None => Ok result
    | Some us => if result then u <- zidx (t_units d) i ;; Ok (omem u us) else Ok false
    end.

(** exfor_column_parsing.py:143-147; -1 if there is none. *)
Fixpoint first_match_in (p : colparser) (d : table) (is : list nat) : res Z :=
  match is with
  | [] => Ok (-1)%Z
  | i :: is' => m <- cp_isMatch p (Z.of_nat i) d ;; if m then Ok (Z.of_nat i) else first_match_in p d is'
  end.
Definition firstMatch (p : colparser) (d : table) : res Z := first_match_in p d (seq 0 (numcols d)).

(** exfor_column_parsing.py:149-154 *)
Definition allMatches (p : colparser) (d : table) : res (list nat) :=
  ms <- map_res (fun i => m <- cp_isMatch p (Z.of_nat i) d ;; Ok (i, m)) (seq 0 (numcols d)) ;;
  Ok (map fst (filter snd ms)).

(** exfor_column_parsing.py:182-191 *)
Definition base_getColumn (p : colparser) (icol : Z) (d : table) : res column :=
  m <- cp_isMatch p icol d ;;
  if negb m then Ok (dummy_column d)
  else
    u <- zidx (t_units d) icol ;;
    '(factor, canonical) <- getConversion u ;;
    l <- zidx (t_labels d) icol ;;
    cells <- map_res (fun row => c <- zidx row icol ;;
                                 Ok (option_map (fun x => fadd (fmul (fmul x factor) (cp_scale p)) (cp_offset p)) (cell_num c)))
                     (t_data d) ;;
    Ok (mkColumn (Some l) (Some canonical) cells).

(** exfor_column_parsing.py:194-209.  [acos] is math.acos, None standing for ValueError. *)
Definition getColumn (acos : float -> option float) (p : colparser) (icol : Z) (d : table) : res column :=
  if negb (cp_angle p) then base_getColumn p icol d
  else
    l <- zidx (t_labels d) icol ;;
    if negb (contains (lit "COS") l) then base_getColumn p icol d
    else
      m <- cp_isMatch p icol d ;;
      if negb m then Ok (dummy_column d)
      else
        '(factor, canonical) <- getConversion (Some (lit "RAD")) ;;
        cells <- map_res (fun row => c <- zidx row icol ;;
                                     match cell_num c with
                                     | None => Ok None
                                     | Some x => a <- of_option ValueError (acos (fadd (fmul x (cp_scale p)) (cp_offset p))) ;;
                                                 Ok (Some (fmul a factor))
                                     end)
                         (t_data d) ;;
        Ok (mkColumn (Some l) (Some canonical) cells).

(** * Programs over the attributes of the parsers *)

(** [slot] 1, 2, 3 of parser object [id] is its attribute icol1, icol2, icol3. *)
Inductive prog (A : Type) : Type :=
| Ret (r : res A)
| Put (id slot : nat) (v : Z) (k : prog A)
| Get (id slot : nat) (k : Z -> prog A).
Arguments Ret {A} _.
Arguments Put {A} _ _ _ _.
Arguments Get {A} _ _ _.

Fixpoint pbind {A B} (m : prog A) (k : A -> prog B) : prog B :=
  match m with
  | Ret (Ok a) => k a
  | Ret (Raise e) => Ret (Raise e)
  | Put id slot v m' => Put id slot v (pbind m' k)
  | Get id slot f => Get id slot (fun v => pbind (f v) k)
  end.
Notation "x <~ m ;; k" := (pbind m (fun x => k)) (at level 61, m at next level, right associativity).

Definition pget (id slot : nat) : prog Z := Get id slot (fun v => Ret (Ok v)).
Definition pput (id slot : nat) (v : Z) : prog unit := Put id slot v (Ret (Ok tt)).

Definition store := nat -> nat -> Z.
Definition store_set (s : store) (id slot : nat) (v : Z) : store :=
  fun i j => if (i =? id) && (j =? slot) then v else s i j.
(** After import every attribute is -1. *)
Definition store0 : store := fun _ _ => (-1)%Z.

Fixpoint run {A} (m : prog A) (s : store) : res A * store :=
  match m with
  | Ret r => (r, s)
  | Put id slot v k => run k (store_set s id slot v)
  | Get id slot k => run (k (s id slot)) s
  end.

(** One access to an attribute. *)
Definition step {A} (m : prog A) (s : store) : prog A * store :=
  match m with
  | Ret r => (m, s)
  | Put id slot v k => (k, store_set s id slot v)
  | Get id slot k => (k (s id slot), s)
  end.
(** Two threads; the schedule says who makes the next access (true: the first). *)
Fixpoint interleave {A B} (schedule : list bool) (m : prog A) (n : prog B) (s : store) : prog A * prog B * store :=
  match schedule with
  | [] => (m, n, s)
  | true :: r => let '(m', s') := step m s in interleave r m' n s'
  | false :: r => let '(n', s') := step n s in interleave r m n' s'
  end.

(** * Column pair parsers, exfor_column_parsing.py:212-625 *)

Inductive pair :=
| MissingError (c1 : colparser)
| Independent (c1 c2 : colparser)
| ConstantPercent (c1 : colparser)
| HighLow (c1 c2 : colparser)
| HighMidLow (c1 c2 c3 : colparser)
| AddErrorBars (c1 c2 c3 : colparser)
| BarnsSqrtE (c2 c3 : colparser).

(** A parser object. *)
Definition parser := (nat * pair)%type.

Definition set_icol (id slot : nat) (c : colparser) (d : table) : prog unit :=
  i <~ Ret (firstMatch c d) ;; pput id slot i.

(** The set_icols methods: lines 251-252, 273-275, 405-408, 561-563. *)
Definition set_icols (p : parser) (d : table) : prog unit :=
  let id := fst p in
  match snd p with
  | MissingError c1 | ConstantPercent c1 => set_icol id 1 c1 d
  | Independent c1 c2 | HighLow c1 c2 => _ <~ set_icol id 1 c1 d ;; set_icol id 2 c2 d
  | HighMidLow c1 c2 c3 | AddErrorBars c1 c2 c3 =>
      _ <~ set_icol id 1 c1 d ;; _ <~ set_icol id 2 c2 d ;; set_icol id 3 c3 d
  | BarnsSqrtE c2 c3 => _ <~ set_icol id 2 c2 d ;; set_icol id 3 c3 d
  end.

Definition icol_found (id slot : nat) : prog bool := i <~ pget id slot ;; Ret (Ok (0 <=? i)%Z).
Definition p_and (a b : prog bool) : prog bool := x <~ a ;; if x then b else Ret (Ok false).
Definition p_or (a b : prog bool) : prog bool := x <~ a ;; if x then Ret (Ok true) else b.

(** The isMatch methods: lines 254-256, 277-279, 319-321, 410-412, 565-567. *)
Definition isMatch (p : parser) (d : table) : prog bool :=
  let id := fst p in
  _ <~ set_icols p d ;;
  match snd p with
  | MissingError _ | ConstantPercent _ => icol_found id 1
  | Independent _ _ => p_and (icol_found id 1) (icol_found id 2)
  | HighLow _ _ => p_or (icol_found id 1) (icol_found id 2)
  | HighMidLow _ _ _ | AddErrorBars _ _ _ => p_and (icol_found id 1) (p_or (icol_found id 2) (icol_found id 3))
  | BarnsSqrtE _ _ => icol_found id 2
  end.

(** The column a parser has just located. *)
Definition located (acos : float -> option float) (id slot : nat) (c : colparser) (d : table) : prog column :=
  i <~ pget id slot ;; Ret (getColumn acos c i d).

(** "for j in [...]: if j is not None: ans = j": the last one that is not None. *)
Definition last_given {A} (l : list (option A)) : option A := fold_left (fun a j => or_else j a) l None.
(** try: x = col[i] except: x = 0.0 *)
Definition at_or_zero (l : list (option float)) (i : nat) : option float :=
  match nth_error l i with Some x => x | None => Some fzero end.

(** Lines 335-357 and 371-392 *)
Definition high_low_value (d : table) (c1 c2 : column) : column :=
  mkColumn (last_given [c_label c1; c_label c2]) (last_given [c_unit c1; c_unit c2])
    (map (fun i => match at_or_zero (c_cells c1) i, at_or_zero (c_cells c2) i with
                   | None, None => None
                   | None, Some x2 => Some (fmul half x2)
                   | Some _, None => None
                   | Some x1, Some x2 => Some (fmul half (fadd x1 x2))
                   end) (seq 0 (numrows d))).
Definition high_low_error (d : table) (c1 c2 : column) : column :=
  mkColumn (last_given [c_label c1; c_label c2]) (last_given [c_unit c1; c_unit c2])
    (map (fun i => match at_or_zero (c_cells c1) i, at_or_zero (c_cells c2) i with
                   | Some x1, Some x2 => Some (fmul half (fabs (fsub x1 x2)))
                   | _, _ => None
                   end) (seq 0 (numrows d))).
(** Lines 430-452 and 470-491 *)
Definition high_mid_low (f : float -> float -> float -> float) (d : table) (c1 c2 c3 : column) : column :=
  mkColumn (last_given [c_label c1; c_label c2; c_label c3]) (last_given [c_unit c1; c_unit c2; c_unit c3])
    (map (fun i => match at_or_zero (c_cells c1) i, at_or_zero (c_cells c2) i, at_or_zero (c_cells c3) i with
                   | Some x1, Some x2, Some x3 => Some (f x1 x2 x3)
                   | _, _, _ => None
                   end) (seq 0 (numrows d))).
Definition high_mid_low_value := high_mid_low (fun x1 x2 x3 => fmul half (fadd (fsub x1 x2) (fadd x1 x3))).
Definition high_mid_low_error := high_mid_low (fun x1 x2 x3 => fabs (fmul half (fsub (fsub x1 x2) (fadd x1 x3)))).

Definition hundred : float := fl 100 0.
(** col * err / 100.0 when both are numbers *)
Definition percent_of (c e : option float) : option float :=
  match c, e with Some x, Some y => Some (fdiv (fmul x y) hundred) | _, _ => None end.

(** Lines 287-293: the error column [err] expressed in percent of [col]; in place, so what lies
    beyond the end of [col] stays. *)
Definition percent_error (col err : column) : res column :=
  let n := length (c_cells col) in
  cells <- map_res (fun i => c <- idx (c_cells col) i ;;
                             match c with
                             | None => _ <- idx (c_cells err) i ;; Ok None  (* assigned: IndexError past the end *)
                             | Some _ => e <- idx (c_cells err) i ;; Ok (percent_of c e)
                             end) (seq 0 n) ;;
  Ok (mkColumn (c_label err) (c_unit col) (cells ++ skipn n (c_cells err))).

Definition is_percent (u : option str) : bool :=
  match u with Some s => str_eqb s (lit "PER-CENT") | None => false end.

(** Lines 519-546 after the columns have been read; [col1] is asked for only when one of the two
    is a percentage. *)
Definition add_bars (d : table) (unit : option str) (c2 c3 : list (option float)) : res column :=
  cells <- map_res (fun i => x2 <- idx c2 i ;; x3 <- idx c3 i ;;
                             match x2, x3 with
                             | None, None => Ok None
                             | _, _ =>
                                 let y2 := match x2 with Some y => y | None => fzero end in
                                 let y3 := match x3 with Some y => y | None => fzero end in
                                 r <- pysqrt (fadd (fmul y2 y2) (fmul y3 y3)) ;; Ok (Some r)
                             end) (seq 0 (numrows d)) ;;
  Ok (mkColumn (Some (lit "ERR")) unit cells).
(** Lines 523-531: each assignment is in a try block that turns any error into None; the list is
    as long as the table, so the assignment itself succeeds. *)
Definition scaled_by_value (d : table) (col1 c : list (option float)) : list (option float) :=
  map (fun i => match nth_error col1 i, nth_error c i with
                | Some x, Some e => percent_of x e
                | _, _ => None
                end) (seq 0 (numrows d)).

(** Lines 578-592 and 603-616 *)
Definition over_sqrt_energy (default1 : option float) (d : table) (energy col : column) : res column :=
  cells <- map_res (fun i =>
             let x1 := match nth_error (c_cells energy) i with Some x => x | None => default1 end in
             match x1, at_or_zero (c_cells col) i with
             | Some x1, Some x2 => r <- pysqrt (fmul x1 (fl 1 6)) ;; v <- pydiv x2 r ;; Ok (Some v)
             | _, _ => Ok None
             end) (seq 0 (numrows d)) ;;
  Ok (mkColumn (c_label col) (Some (lit "barns")) cells).

(** The getValue methods: lines 258-262, 323-357, 414-452, 496-504, 569-592.
    [energy] is BarnsSqrtE.energyColumn. *)
Definition getValue0 (energy : table -> prog column) (acos : float -> option float) (p : parser) (d : table) : prog column :=
  let id := fst p in
  m <~ isMatch p d ;;
  if negb m then Ret (Ok (dummy_column d))
  else
    _ <~ set_icols p d ;;
    match snd p with
    | MissingError c1 | ConstantPercent c1 | Independent c1 _ | AddErrorBars c1 _ _ => located acos id 1 c1 d
    | HighLow c1 c2 =>
        col1 <~ located acos id 1 c1 d ;; col2 <~ located acos id 2 c2 d ;;
        Ret (Ok (high_low_value d col1 col2))
    | HighMidLow c1 c2 c3 =>
        col1 <~ located acos id 1 c1 d ;; col2 <~ located acos id 2 c2 d ;; col3 <~ located acos id 3 c3 d ;;
        Ret (Ok (high_mid_low_value d col1 col2 col3))
    | BarnsSqrtE c2 _ =>
        col1 <~ energy d ;; col2 <~ located acos id 2 c2 d ;;
        Ret (over_sqrt_energy (Some fzero) d col1 col2)
    end.

(** The getError methods: lines 264-265, 281-294, 307-315, 359-393, 454-492, 506-547, 594-617. *)
Definition getError0 (energy : table -> prog column) (acos : float -> option float) (p : parser) (d : table) : prog column :=
  let id := fst p in
  match snd p with
  | MissingError _ => Ret (Ok (dummy_column d))
  | _ =>
    m <~ isMatch p d ;;
    if negb m then Ret (Ok (dummy_column d))
    else
      _ <~ set_icols p d ;;
      col <~ match snd p with
             | MissingError _ => Ret (Ok (dummy_column d))
             | Independent c1 c2 =>
                 err <~ located acos id 2 c2 d ;;
                 if is_percent (c_unit err) then
                   col <~ getValue0 energy acos p d ;; Ret (percent_error col err)
                 else Ret (Ok err)
             | ConstantPercent _ =>
                 col <~ getValue0 energy acos p d ;;
                 Ret (Ok (mkColumn (c_label col) (c_unit col)
                            (map (option_map (fun x => fdiv (fmul x (fl 10 0)) hundred)) (c_cells col))))
             | HighLow c1 c2 =>
                 col1 <~ located acos id 1 c1 d ;; col2 <~ located acos id 2 c2 d ;;
                 Ret (Ok (high_low_error d col1 col2))
             | HighMidLow c1 c2 c3 =>
                 col1 <~ located acos id 1 c1 d ;; col2 <~ located acos id 2 c2 d ;; col3 <~ located acos id 3 c3 d ;;
                 Ret (Ok (high_mid_low_error d col1 col2 col3))
             | AddErrorBars _ c2 c3 =>
                 col2 <~ located acos id 2 c2 d ;; col3 <~ located acos id 3 c3 d ;;
                 if is_percent (c_unit col2) || is_percent (c_unit col3) then
                   col1 <~ getValue0 energy acos p d ;;
                   Ret (add_bars d (c_unit col1) (scaled_by_value d (c_cells col1) (c_cells col2))
                                 (scaled_by_value d (c_cells col1) (c_cells col3)))
                 else Ret (add_bars d (last_given [c_unit col2; c_unit col3]) (c_cells col2) (c_cells col3))
             | BarnsSqrtE _ c3 =>
                 col1 <~ energy d ;; col3 <~ located acos id 3 c3 d ;;
                 Ret (over_sqrt_energy None d col1 col3)
             end ;;
      Ret (Ok (absOrNone col))
  end.

Fixpoint pmap {A B} (f : A -> prog B) (l : list A) : prog (list B) :=
  match l with
  | [] => Ret (Ok [])
  | x :: l' => y <~ f x ;; ys <~ pmap f l' ;; Ret (Ok (y :: ys))
  end.

(** Line 82: the list that energyColumn looks at.  Nothing in the package adds to it. *)
Definition energyParserList : list parser := [].
(** Lines 557-559.  (The parsers in the list would be asked in turn; there are none.) *)
Definition energyColumn (acos : float -> option float) (d : table) : prog column :=
  l <~ pmap (fun p => getValue0 (fun _ => Ret (Raise OutsideModel)) acos p d) energyParserList ;;
  Ret (reduce_res condenseColumn l).

Definition getValue (acos : float -> option float) (p : parser) (d : table) : prog column :=
  getValue0 (energyColumn acos) acos p d.
Definition getError (acos : float -> option float) (p : parser) (d : table) : prog column :=
  getError0 (energyColumn acos) acos p d.

(** * The parser lists, exfor_column_parsing.py:56-79 and 631-874 *)

Definition lits (l : list string) : list str := map lit l.
Definition with_suffixes (b : string) (ss : list string) : list str := map (fun s => lit (b ++ s)%string) ss.

Definition baseMomKeys := ["MOM"].
Definition baseDataKeys := ["DATA"; "RATIO"].
Definition baseAngleKeys := ["COS"; "ANG"].
Definition resolutionFWSuffix := ["-RES"; "-RSL"; "-RSL-FW"].
Definition resolutionHWSuffix := ["-RSL-HW"].
Definition errorSuffix := ["-ERR"].
Definition variableSuffix := [""; "-DUMMY"; "-ASSUM"; "-MEAN"; "-APRX"].
Definition frameSuffix := ["-CM"].
Definition shiftSuffix := ["-K"].
Definition dataTotalErrorKeys := lits ["ERR-T"].
Definition dataSystematicErrorKeys := lits ["ERR"].
Definition dataStatisticalErrorKeys := lits ["ERR-S"].

Definition cp (labels units : list str) : colparser := mkCP (Some labels) (Some units) f1 fzero false.
Definition cp_half (labels units : list str) : colparser := mkCP (Some labels) (Some units) half fzero false.
Definition cp_ang (labels units : list str) : colparser := mkCP (Some labels) (Some units) f1 fzero true.
Definition cp_ang_half (labels units : list str) : colparser := mkCP (Some labels) (Some units) half fzero true.

(** [b + s for s in ss] for every b, one after the other *)
Definition each_with (bs ss : list string) : list str := flat_map (fun b => with_suffixes b ss) bs.

(** Objects are numbered in the order they are created. *)
Definition number_from (n : nat) (l : list pair) : list parser := combine (seq n (length l)) l.

(** Lines 631-665 and 674-708 differ only in the key. *)
Definition energy_pairs (k : string) : list pair :=
  [Independent (cp (with_suffixes k variableSuffix) energyUnits) (cp (with_suffixes k errorSuffix) (energyUnits ++ percentUnits));
   Independent (cp (with_suffixes k variableSuffix) energyUnits) (cp_half (with_suffixes k resolutionFWSuffix) (energyUnits ++ percentUnits));
   Independent (cp (with_suffixes k variableSuffix) energyUnits) (cp (with_suffixes k resolutionHWSuffix) (energyUnits ++ percentUnits));
   HighLow (cp (with_suffixes k ["-MIN"]) energyUnits) (cp (with_suffixes k ["-MAX"]) energyUnits);
   HighMidLow (cp (lits (k :: baseMomKeys)) energyUnits) (cp [lit ("-" ++ k ++ "-ERR")%string] energyUnits)
              (cp [lit ("+" ++ k ++ "-ERR")%string] energyUnits);
   MissingError (cp (with_suffixes k variableSuffix ++ lits baseMomKeys) (energyUnits ++ momUnits))].

Definition incidentEnergyParserList : list parser := number_from 0 (energy_pairs "EN").
(** Lines 667-672, not used anywhere *)
Definition incidentMomentumParserList : list parser :=
  number_from 6 [HighLow (cp (lits ["MOM-MIN"]) momUnits) (cp (lits ["MOM-MAX"]) momUnits)].
Definition outgoingEnergyParserList : list parser := number_from 7 (energy_pairs "E").

(** Lines 710-749 *)
Definition tempParserList : list parser := number_from 13
  [Independent (cp (with_suffixes "KT" (variableSuffix ++ shiftSuffix)) (energyUnits ++ tempUnits))
               (cp (with_suffixes "KT" errorSuffix) (energyUnits ++ tempUnits ++ percentUnits));
   Independent (cp (with_suffixes "KT" variableSuffix) (energyUnits ++ tempUnits))
               (cp_half (with_suffixes "KT" resolutionFWSuffix) (energyUnits ++ tempUnits ++ percentUnits));
   Independent (cp (with_suffixes "KT" variableSuffix) (energyUnits ++ tempUnits))
               (cp (with_suffixes "KT" resolutionHWSuffix) (energyUnits ++ tempUnits ++ percentUnits));
   HighLow (cp (lits ["KT-MIN"]) (energyUnits ++ tempUnits)) (cp (lits ["KT-MAX"]) (energyUnits ++ tempUnits));
   HighMidLow (cp (lits ["KT"]) (energyUnits ++ tempUnits)) (cp (lits ["-KT-ERR"]) (energyUnits ++ tempUnits))
              (cp (lits ["+KT-ERR"]) (energyUnits ++ tempUnits));
   MissingError (cp (with_suffixes "TEMP" (variableSuffix ++ shiftSuffix) ++ with_suffixes "KT" variableSuffix)
                    (energyUnits ++ tempUnits))].
(** Line 751: the same objects *)
Definition spectrumArgumentParserList : list parser := tempParserList ++ incidentEnergyParserList.

(** The pairs that the cross section and nubar lists share: lines 762-783 and 803-824. *)
Definition bar_pairs (units : list str) : list pair :=
  [HighLow (cp (each_with baseDataKeys ["-MIN"]) (units ++ noUnits)) (cp (each_with baseDataKeys ["-MAX"]) (units ++ noUnits));
   HighMidLow (cp (lits baseDataKeys) (units ++ noUnits)) (cp (lits ["-DATA-ERR"; "-RATIO-ERR"]) (units ++ noUnits))
              (cp (lits ["+DATA-ERR"; "+RATIO-ERR"]) (units ++ noUnits));
   AddErrorBars (cp (lits baseDataKeys) (units ++ noUnits)) (cp dataSystematicErrorKeys (units ++ noUnits ++ percentUnits))
                (cp dataStatisticalErrorKeys (units ++ noUnits ++ percentUnits))].
Definition data_error_keys := each_with baseDataKeys errorSuffix ++ dataTotalErrorKeys.

(** Lines 753-794 *)
Definition csDataParserList : list parser := number_from 19
  ([Independent (cp (each_with baseDataKeys (variableSuffix ++ frameSuffix)) (crossSectionUnits ++ noUnits))
                (cp data_error_keys (crossSectionUnits ++ noUnits ++ percentUnits))]
   ++ bar_pairs crossSectionUnits ++
   [BarnsSqrtE (cp (lits ["DATA"]) sqrtEnCrossSectUnits) (cp (lits ["DATA-ERR"]) sqrtEnCrossSectUnits);
    MissingError (cp (each_with baseDataKeys variableSuffix) (crossSectionUnits ++ noUnits))]).

(** Lines 796-829 *)
Definition nubarParserList : list parser := number_from 25
  ([Independent (cp (each_with baseDataKeys variableSuffix) (nubarUnits ++ noUnits))
                (cp data_error_keys (nubarUnits ++ noUnits ++ percentUnits))]
   ++ bar_pairs nubarUnits ++
   [MissingError (cp (each_with baseDataKeys variableSuffix) (nubarUnits ++ noUnits))]).

(** Lines 831-842 and 844-855 *)
Definition dist_pairs (units : list str) : list pair :=
  [Independent (cp (each_with baseDataKeys (variableSuffix ++ frameSuffix)) (units ++ noUnits))
               (cp data_error_keys (units ++ noUnits ++ percentUnits));
   MissingError (cp (each_with baseDataKeys (variableSuffix ++ frameSuffix)) (units ++ noUnits))].
Definition angDistParserList : list parser := number_from 30 (dist_pairs angDistUnits).
Definition energyDistParserList : list parser := number_from 32 (dist_pairs energyDistUnits).

(** Lines 857-874 *)
Definition angleParserList : list parser := number_from 34
  [Independent (cp_ang (each_with baseAngleKeys (variableSuffix ++ frameSuffix)) (angUnits ++ noUnits))
               (cp_ang (each_with baseAngleKeys (errorSuffix ++ resolutionHWSuffix)) (angUnits ++ noUnits ++ percentUnits));
   Independent (cp_ang (each_with baseAngleKeys (variableSuffix ++ frameSuffix)) (angUnits ++ noUnits))
               (cp_ang_half (each_with baseAngleKeys resolutionFWSuffix) (angUnits ++ noUnits ++ percentUnits));
   MissingError (cp_ang (each_with baseAngleKeys (variableSuffix ++ frameSuffix)) (angUnits ++ noUnits))].
