(** A procedure that decides whether an entry is well written in the sense of Spec/WellWritten.v:
    the parts of every text are guessed, then checked.  Proofs/Decide.v shows that what it accepts
    is well written.  It may refuse an entry that is. *)
From Coq Require Import String List Ascii NArith ZArith Bool Arith.
From Verif.Model Require Import Py PyFloat Dicts Particle Reaction Field Section Entry Columns Pyparsing Grammars.
From Verif.Spec Require Import Text Exfor Tables Codes General Balance Known GeneralKnown IsomerMath Names References Document WellWritten.
From Verif.Proofs Require Import StrLemmas BibLemmas ShippedLemmas DocumentLemmas DocumentCheck KnownCheck GeneralCheck IsomerCheck InstituteLemmas NamesExamples RefCheck CommaLemmas WellCheck.
Import ListNotations.
Local Open Scope string_scope.
Local Open Scope list_scope.
Local Open Scope nat_scope.

Definition gapc (c : ascii) : bool := existsb (N.eqb (N_of_ascii c)) [10; 13; 32]%N.

(** ** Reactions *)

Definition skip (s : str) : str := snd (cut gapc s).
Definition next (s : str) : option ascii := hd_error (skip s).
Definition nextb (p : ascii -> bool) (s : str) : bool := match next s with Some c => p c | None => false end.
Definition take (c : ascii) (s : str) : option str :=
  match skip s with a :: r => if Ascii.eqb a c then Some r else None | [] => None end.
Definition span (p : ascii -> bool) (s : str) : option (str * str) :=
  match cut p (skip s) with ([], _) => None | x => Some x end.
(** The longest of the words with which the text begins. *)
Definition key_of (keys : list str) (s : str) : option (str * str) :=
  let s := skip s in
  match fold_left (fun best k => if is_prefix k s && (length best <? length k) then k else best) keys [] with
  | [] => None
  | k => Some (k, skipn (length k) s)
  end.

Fixpoint isomers (fuel : nat) (s : str) : list isomer * str :=
  match fuel with
  | O => ([], s)
  | S n =>
      match skip s with
      | op :: r =>
          if inb op "+-*/" then
            match skip r with
            | l :: r2 => if inb l "mMgGTL" then
                           let (num, r3) := match cut digitb (skip r2) with ([], _) => ([], r2) | x => x end in
                           let (more, r4) := isomers n r3 in (mkIsomer op l num :: more, r4)
                         else ([], s)
            | [] => ([], s)
            end
          else ([], s)
      | [] => ([], s)
      end
  end.
Definition obind {A B} (x : option A) (f : A -> option B) : option B := match x with Some a => f a | None => None end.
Notation "'do' p <- e ; f" := (obind e (fun p => f)) (at level 200, p pattern, e at level 100, f at level 200).
(** [z] has been read. *)
Definition nuclide_after (z s : str) : option (nuclide * str) :=
  do s <- take "-" s; do (sy, s) <- span letterb s; do s <- take "-" s; do (a, s) <- span digitb s;
  let (is, s) := isomers 10 s in Some (mkNuclide z sy a is, s).
Definition spot_of (sums compounds : list str) (s : str) : option (spot * str) :=
  match key_of sums s with
  | Some (w, r) => Some (Sum w, r)
  | None => match key_of compounds s with
            | Some (k, r) => Some (Compound k, r)
            | None => do (z, s) <- span digitb s; do (n, s) <- nuclide_after z s; Some (Nucleus n, s)
            end
  end.
Definition pcode_of (s : str) : option (pcode * str) :=
  match span digitb s with
  | Some (d, r) => if nextb (Ascii.eqb "-") r then do (n, s) <- nuclide_after d r; Some (CNuclide n, s)
                   else match span wordcharb r with Some (w, s) => Some (CMany d w, s) | None => Some (CWord d, r) end
  | None => do (w, s) <- span wordcharb s; Some (CWord w, s)
  end.
Definition outgoing_of (s : str) : option (outgoing * str) :=
  match take "X" s with
  | Some r => if nextb wordcharb r then do (w, s) <- span wordcharb r; Some (Extra w, s) else do (x, s) <- pcode_of s; Some (Out x, s)
  | None => do (x, s) <- pcode_of s; Some (Out x, s)
  end.
Fixpoint outgoings_of (fuel : nat) (s : str) : option (list outgoing * str) :=
  match fuel with
  | O => None
  | S n => do (o, s) <- outgoing_of s;
           match take "+" s with
           | Some r => do (l, s) <- outgoings_of n r; Some (o :: l, s)
           | None => Some ([o], s)
           end
  end.
Fixpoint remarks_of (fuel : nat) (s : str) : list remark * str :=
  match fuel with
  | O => ([], s)
  | S n => match take "(" s with
           | Some r => match span quantity_charb r with
                       | Some (w, r) => match take ")" r with
                                        | Some r => let (l, r) := remarks_of n r in (Paren w :: l, r)
                                        | None => ([], s)
                                        end
                       | None => ([], s)
                       end
           | None => match span quantity_charb s with
                     | Some (w, r) => let (l, r) := remarks_of n r in (Bare w :: l, r)
                     | None => ([], s)
                     end
           end
  end.
Fixpoint quantities_of (fuel : nat) (s : str) : list (list remark) * str :=
  match fuel with
  | O => ([], s)
  | S n => match take "," s with
           | Some r => let (q, r) := remarks_of 10 r in let (l, r) := quantities_of n r in (q :: l, r)
           | None => ([], s)
           end
  end.
Definition reaction_of (c : codes) (s : str) : option (gcode * str) :=
  do s <- take "(" s; do (t, s) <- spot_of target_sums (c_compounds c) s; do s <- take "(" s; do (p, s) <- pcode_of s;
  do s <- take "," s; do (out, s) <- outgoings_of 10 s; do s <- take ")" s;
  do (r, s) <- (if nextb (fun a => inb a ",)") s then Some (None, s) else do (x, s) <- spot_of residual_sums (c_compounds c) s; Some (Some x, s));
  let (q, s) := quantities_of 20 s in do s <- take ")" s; Some (mkGcode t p out r q, s).

(** Combinations *)
Inductive ct := Rx (r : gcode) | Par (e : ct) | Bin (op : str) (a b : ct).
Definition times_ops : list str := [tx "*"; tx "//"; tx "/"; tx "="].
Definition plus_ops : list str := [tx "+"; tx "-"].
Fixpoint factor_of (c : codes) (fuel : nat) (s : str) : option (ct * str) :=
  match fuel with
  | O => None
  | S n => do r <- take "(" s;
           if nextb (Ascii.eqb "(") r then do (e, s) <- expr_of c n r; do s <- take ")" s; Some (Par e, s)
           else do (x, s) <- reaction_of c s; Some (Rx x, s)
  end
with terms_of (c : codes) (fuel : nat) (a : ct) (s : str) : option (ct * str) :=
  match fuel with
  | O => None
  | S n => match key_of times_ops s with
           | Some (op, r) => do (b, r) <- factor_of c n r; terms_of c n (Bin op a b) r
           | None => Some (a, s)
           end
  end
with expr_of (c : codes) (fuel : nat) (s : str) : option (ct * str) :=
  match fuel with
  | O => None
  | S n => do (f, s) <- factor_of c n s; do (t, s) <- terms_of c n f s; sums_of c n t s
  end
with sums_of (c : codes) (fuel : nat) (a : ct) (s : str) : option (ct * str) :=
  match fuel with
  | O => None
  | S n => match key_of plus_ops s with
           | Some (op, r) => do (f, r) <- factor_of c n r; do (t, r) <- terms_of c n f r; sums_of c n (Bin op a t) r
           | None => Some (a, s)
           end
  end.

Fixpoint ctokens (x : ct) : list str :=
  match x with
  | Rx r => general_tokens r
  | Par e => tx "(" :: ctokens e ++ [tx ")"]
  | Bin op a b => ctokens a ++ op :: ctokens b
  end.
Definition is_factor (x : ct) : bool := match x with Bin _ _ _ => false | _ => true end.
Definition is_term (x : ct) : bool := match x with Bin op _ _ => smem op times_ops | _ => true end.
Definition piece_ok (c : codes) (r : gcode) : bool :=
  good_generalb (c_particles c) (c_compounds c) r &&
  (known_generalb r ||
   match gc_residual r, general_quantities r with Some (Nucleus n), q :: _ => state_mathb r n q | _, _ => false end).
Fixpoint ct_ok (c : codes) (x : ct) : bool :=
  match x with
  | Rx r => piece_ok c r
  | Par e => ct_ok c e
  | Bin op a b => ct_ok c a && ct_ok c b && (if smem op times_ops then is_term a && is_factor b else smem op plus_ops && is_term b)
  end.
Definition in_text (ts : list str) (text rest : str) : bool :=
  let n := length text - length rest in let (w, k) := cut gapc (skipn n text) in in_fieldb ts (firstn n text) w k.
Definition code_found (c : codes) (text : str) (found : option (ct * str)) : bool :=
  match found with
  | Some (x, rest) => is_factor x && ct_ok c x && in_text (ctokens x) text rest
  | None => false
  end.
Definition reaction_codeb (c : codes) (text : str) : bool := code_found c text (factor_of c (length text) text).

(** ** Tables *)

Definition numeralb (s : str) : bool := forallb (fun c => Ascii.eqb c (digit_char (digit_of c)) && (digit_of c <? 10)%N) s.
Definition exponentb (s : str) : bool :=
  match s with
  | [] => true
  | _ =>
      match snd (cut (Ascii.eqb " ") s) with
      | e :: s' =>
          if Ascii.eqb e "E" then match s' with sg :: ds => inb sg "+-" && negb (length ds =? 0) && numeralb ds | [] => false end
          else inb e "+-" && ((length s' =? 1) || (length s' =? 2)) && numeralb s'
      | [] => false
      end
  end.
Definition number_okb (t : str) : bool :=
  match t with
  | [] => true
  | c :: t' =>
      let u := if inb c "+-" then t' else t in
      let (ip, r) := cut digitb u in
      match r with
      | d :: r' => if Ascii.eqb d "." then let (fp, r2) := cut digitb r' in negb (length (ip ++ fp) =? 0) && exponentb r2
                   else negb (length ip =? 0) && exponentb r
      | [] => negb (length ip =? 0)
      end
  end.
Definition numeric_tableb (b : list str) : bool :=
  match b with
  | l0 :: _ =>
      match split_ws (columns 0 33 l0) with
      | _ :: w1 :: w2 :: _ =>
          match numeral w1, numeral w2 with
          | Some n1, Some n2 =>
              let cols := Z.to_nat n1 in let k := lines_per_row cols in let rows := (length b - 2) / k - 2 in
              (0 <? cols) && forallb cardb b && (n1 <? 1000)%Z && (n2 <? 1000000)%Z &&
              existsb (fun m => (n2 =? Z.of_nat m)%Z) [rows; rows + 2; (rows + 2) * k] &&
              (length b =? 2 + (rows + 2) * k) &&
              forallb (fun i => forallb (fun j => match nth_error b (1 + (2 + i) * k + j / 6) with
                                                  | Some l => number_okb (strip (columns (11 * (j mod 6)) (11 * (j mod 6) + 11) l))
                                                  | None => false
                                                  end) (seq 0 cols)) (seq 0 rows)
          | _, _ => false
          end
      | _ => false
      end
  | [] => false
  end.

(** ** Fields *)

Definition pointersb (f : list str -> bool) (fld : list str) : bool := forallb (fun pl => f (snd pl)) (field_lines fld).
Definition text_is (ls : list str) : str := blank_separated (map strip ls).
Definition written_reactionsb (c : codes) : list str -> bool := pointersb (fun ls => reaction_codeb c (text_is ls)).

(** Monitors *)
Definition opensb (l : str) : bool := match strip l with a :: _ => Ascii.eqb a "(" | [] => false end.
Definition opens_twiceb (l : str) : bool := match strip l with a :: b :: _ => Ascii.eqb a "(" && Ascii.eqb b "(" | _ => false end.
Definition balancedb (l : str) : bool := count_occ ascii_dec l "("%char =? count_occ ascii_dec l ")"%char.
Fixpoint remark_lines (ls : list str) : list str * list str :=
  match ls with
  | l :: more => if opensb l then ([], ls) else let (a, b) := remark_lines more in (l :: a, b)
  | [] => ([], [])
  end.
Definition remarks_text (ls : list str) : str := concat (map (fun l => " "%char :: strip l) ls).
Fixpoint monitor_groups (fuel : nat) (ls : list str) : option (list (list str) * list str) :=
  match fuel, ls with
  | _, [] => Some ([], [])
  | O, _ => None
  | S n, l :: more =>
      if negb (opensb l) then None
      else if balancedb l then
        let (rm, rest) := remark_lines more in
        do (gs, ts) <- monitor_groups n rest; Some ((l :: rm) :: gs, (l ++ remarks_text rm) :: ts)
      else if opens_twiceb l then
        match more with
        | nxt :: more => let (rm, rest) := remark_lines more in
            do (gs, ts) <- monitor_groups n rest; Some ((l :: nxt :: rm) :: gs, ((l ++ nxt) ++ remarks_text rm) :: ts)
        | [] => None
        end
      else None
  end.
Definition monitor_textb (c : codes) (t : str) : bool :=
  match t with
  | a :: rest =>
      if Ascii.eqb a "(" then
        if contains (tx "((MONIT") t then
          is_prefix (tx "((MONIT") t &&
          let u := skipn 7 t in let (n, r) := cut (fun c => negb (Ascii.eqb c ")")) u in
          match r with _ :: r' => negb (contains (tx "((MONIT") u) && reaction_codeb c ("("%char :: r') | [] => false end
        else reaction_codeb c t
      else negb (contains (tx "((MONIT") t)
  | [] => true
  end.
Definition monitor_linesb (c : codes) (ls : list str) : bool :=
  let (before, rest) := remark_lines ls in
  match monitor_groups (S (length rest)) rest with
  | Some (gs, ts) =>
      forallb (monitor_textb c) ts &&
      match before with [] => true | l :: more => monitor_textb c (strip l ++ remarks_text more) end
  | None => false
  end.
Definition written_monitorsb (c : codes) : list str -> bool := pointersb (monitor_linesb c).

(** Authors *)
Definition blanks_of (i : str) : str * str := cut (Ascii.eqb " ") i.
Definition name_listb (text : str) : bool :=
  match text with
  | _ :: u =>
      let (body, r) := cut (fun c => negb (Ascii.eqb c ")")) u in
      let items := map blanks_of (split_char ","%char body) in
      let names := map snd items in let blanks := map (fun i => length (fst i)) items in
      negb (length names =? 0) && forallb nameb names && (length names =? length blanks) && few_quotesb text && negb (cmem (ascii_of_N 9) text) &&
      str_eqb text ("("%char :: Names.between [","%char] (map (fun p => repeat sp (snd p) ++ fst p) (combine names blanks)) ++ ")"%char :: tl r)
  | [] => false
  end.
Definition missingb (fld : list str) : bool :=
  existsb (fun l => contains (lit "No author given") l || contains (lit ".NOT GIVEN.") l) fld.
Definition written_authorsb (fld : list str) : bool :=
  missingb fld || pointersb (fun ls => name_listb (concat (map strip ls))) fld.

(** Institutes *)
Fixpoint iwords (fuel : nat) (s : str) : list (str * str) * str :=
  match fuel with
  | O => ([], s)
  | S n => let (b, r) := cut gapc s in let (w, r) := cut iword r in
           match w with [] => ([], s) | _ => let (l, r) := iwords n r in ((b, w) :: l, r) end
  end.
Fixpoint ipieces (fuel : nat) (s : str) : list piece * str * str :=
  let (b, r) := cut gapc s in
  match fuel, r with
  | S n, p :: r' =>
      if Ascii.eqb p "(" then
        let (code, r1) := cut iword r' in let (others, r2) := iwords (length r1) r1 in let (ws, r3) := iwords (length r2) (tl r2) in
        let '(l, g, rest) := ipieces n r3 in (mkPiece b code others ws :: l, g, rest)
      else ([], b, r)
  | _, _ => ([], b, r)
  end.
Definition institutesb (text : str) : bool :=
  let '(l, b, rest) := ipieces (length text) text in
  negb (length l =? 0) && forallb pieceb l && gapb b && unreadb rest && str_eqb text (render l b rest) && negb (cmem (ascii_of_N 9) text).
Definition written_institutesb : list str -> bool := pointersb (fun ls => institutesb (text_is ls)).

(** References *)
Definition first_publication (ls : list str) : bool :=
  match refs_guess ls with r :: _ => cmem (rt_type r) publication_types | [] => false end.
Definition written_referencesb (fld : list str) : bool :=
  forallb (fun l => negb (cmem nl l)) fld && pointersb ref_linesb fld &&
  match field_lines fld with (p, ls) :: _ => first_publication ls | [] => false end &&
  match marks " " fld, field_lines fld with p :: _, (q, _) :: _ => Ascii.eqb p q | _, _ => false end.

Definition field_okb (c : codes) (fld : list str) : bool :=
  if keywordb (tx "REACTION") fld then written_reactionsb c fld
  else if keywordb (tx "MONITOR") fld then written_monitorsb c fld
  else if keywordb (tx "REFERENCE") fld then written_referencesb fld
  else if keywordb (tx "AUTHOR") fld then written_authorsb fld
  else if keywordb (tx "INSTITUTE") fld then written_institutesb fld
  else true.

(** ** Sections, subentries, entries *)

Definition bib_okb (c : codes) (b : list str) : bool :=
  match b with _ :: l :: _ => negb (BibLemmas.is_frame l) | _ => false end && forallb (field_okb c) (bib_chunkify b).
Definition section_okb (c : codes) (b : list str) : bool :=
  if keywordb (tx "BIB") b then bib_okb c b
  else (keywordb (tx "DATA") b || keywordb (tx "COMMON") b) && numeric_tableb b.
Definition subentry_okb (c : codes) (text : str) : bool :=
  match extractX4SubEntryIndex (split_char nl text) with Some _ => true | None => false end && forallb (section_okb c) (sections_in text).
Definition entry_okb (c : codes) (acc : str) (raw : list str) : bool :=
  match raw with
  | text :: _ => match split_char nl text with
                 | l :: _ => match split_ws l with w :: _ => str_eqb w (lit "SUBENT") | [] => false end && str_eqb acc (columns 14 19 l) && (length acc =? 5)
                 | [] => false
                 end
  | [] => false
  end &&
  forallb (subentry_okb c) raw &&
  match lastb (numberedb (acc ++ tx "001")) raw with
  | Some text => match lastb (keywordb (tx "BIB")) (sections_in text) with Some _ => true | None => false end
  | None => false
  end.

(** What is wrong with an entry: subentries, sections and fields that are refused. *)
Definition faults (c : codes) (raw : list str) : list (nat * str * list str) :=
  flat_map (fun it => let (i, text) := it : nat * str in
    flat_map (fun b =>
      if section_okb c b then []
      else if keywordb (tx "BIB") b then
        flat_map (fun f => if field_okb c f then [] else [(i, tx "field", f)]) (bib_chunkify b)
      else [(i, tx "section", b)]) (sections_in text)) (indexed raw).
