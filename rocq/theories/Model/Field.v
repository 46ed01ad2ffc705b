(** x4i3/exfor_field.py: the fields of a BIB section.  No proofs here. *)
From Coq Require Import String List Ascii NArith ZArith Bool Arith.
From Verif.Model Require Import Py Dicts Particle Reaction.
Import ListNotations.
Local Open Scope string_scope.
Local Open Scope list_scope.
Local Open Scope nat_scope.

(** What the parsers of the fields need from outside: the grammars, two dictionaries and the
    table of dictionaries used by references, and Python's recursion limit. *)
Record env := mkEnv {
  e_g : grammars;
  e_compounds : x4dict;
  e_institutes : x4dict;
  e_dicts : list (str * x4dict);
  e_depth : nat }.

(** ** Plain fields *)

(** exfor_field.py:58-69 and 72-83 *)
Definition extractX4FieldType (field : list str) : res (option str) :=
  l <- idx field 0 ;;
  Ok (match strip (slice l 0 10) with [] => None | t => Some t end).
Definition extractX4FieldPointer (field : list str) : res (option str) :=
  l <- idx field 0 ;;
  Ok (match strip (slice l 10 11) with [] => None | t => Some t end).

(** X4PlainField: the tag (absent in the early return of X4AuthorField) and the lines of each
    pointer, exfor_field.py:86-115. *)
Record plain := mkPlain { f_tag : option str; f_dict : list (ascii * list str) }.

(** exfor_field.py:109-115: state is (pointer, dictionary). *)
Definition plain_step (st : ascii * list (ascii * list str)) (line : str)
  : ascii * list (ascii * list str) :=
  let '(pointer, d) := st in
  let line := ljust 66 line in
  let c := nth 10 line sp in
  let pointer := if Ascii.eqb c sp then pointer else c in
  let old := match dget Ascii.eqb pointer d with Some l => l | None => [] end in
  (pointer, dset Ascii.eqb pointer (old ++ [rstrip (slice line 11 66)]) d).

(** exfor_field.py:106-115 *)
Definition X4PlainField (raw_field : list str) : res plain :=
  l <- idx raw_field 0 ;;
  let '(_, d) := fold_left plain_step raw_field (sp, []) in
  Ok (mkPlain (Some (strip (slice l 0 10))) d).

(** [sorted] on one-character strings. *)
Fixpoint cinsert (x : ascii) (l : list ascii) : list ascii :=
  match l with
  | [] => [x]
  | y :: l' => if (code x <=? code y)%N then x :: l else y :: cinsert x l'
  end.
Fixpoint csort (l : list ascii) : list ascii :=
  match l with [] => [] | x :: l' => cinsert x (csort l') end.

(** exfor_field.py:117-119 *)
Definition plain_keys (f : plain) : list ascii := csort (dkeys (f_dict f)).

(** [self[p]] for a pointer of the field; KeyError does not occur for sorted_keys. *)
Definition plain_get (f : plain) (p : ascii) : list str :=
  match dget Ascii.eqb p (f_dict f) with Some l => l | None => [] end.

(** exfor_field.py:91-97 *)
Definition subfield_str (l : list str) : str := join [sp] (map strip l).
Definition subfield_repr (l : list str) : str := join [nl] (map (fun x => repeat sp 11 ++ x) l).

(** exfor_field.py:121 *)
Definition plain_total_len (f : plain) : nat := list_sum (map (@length str) (dvals (f_dict f))).

(** exfor_field.py:123-131 *)
Definition plain_str (f : plain) : str :=
  join (lit "; ")
    (map (fun p => if Ascii.eqb p sp then subfield_str (plain_get f p)
                   else lit "[" ++ [p] ++ lit "] " ++ subfield_str (plain_get f p)) (plain_keys f)).

(** exfor_field.py:133-139 *)
Definition plain_repr (f : plain) : res str :=
  let result := map (fun p => let s := subfield_repr (plain_get f p) in
                              slice_to s 10 ++ [p] ++ slice_from s 11) (plain_keys f) in
  tag <- of_option AttributeError (f_tag f) ;;
  Ok (ljust 10 tag ++ slice_from (join [nl] result) 10).

(** ** Reaction fields *)

(** exfor_field.py:148-156: measurement and free text of each pointer.  [f[-1]] is the rest of
    the line. *)
Definition reactions_dict := list (ascii * (measurement * ptree)).

Definition reaction_of_text (e : env) (d : str) : res (measurement * ptree) :=
  f <- of_option ReactionParsingError (g_reactionfield (e_g e) d) ;;
  m <- getMeasurementType (e_depth e) (e_g e) (e_compounds e) (but_last f) ;;
  rest <- last_of f ;;
  Ok (m, rest).

Definition X4ReactionField (e : env) (x : list str) : res (plain * reactions_dict) :=
  f <- X4PlainField x ;;
  rs <- map_res (fun pl => r <- reaction_of_text e (subfield_str (snd pl)) ;; Ok (fst pl, r)) (f_dict f) ;;
  Ok (f, rs).

(** ** Monitor fields *)

(** [s.split(sep)] for a longer separator. *)
Fixpoint split_str_aux (sep s cur : str) (skip : nat) : list str :=
  match s with
  | [] => [rev cur]
  | c :: s' =>
      match skip with
      | S k => split_str_aux sep s' cur k
      | O => if is_prefix sep s then rev cur :: split_str_aux sep s' [] (length sep - 1)
             else split_str_aux sep s' (c :: cur) 0
      end
  end.
Definition split_str (sep s : str) : list str := split_str_aux sep s [] 0.

Definition unbalanced (s : str) : bool := negb (count_char "("%char s =? count_char ")"%char s).

(** exfor_field.py:258-281.  The queue shrinks in every round. *)
Fixpoint monitor_lines (queue : list str) (ds : list str) : res (list str) :=
  match queue with
  | [] => Ok ds
  | line :: queue' =>
      if startswith (strip line) (lit "((") then
        if unbalanced line then
          match queue' with
          | [] => Raise IndexError
          | next :: queue'' => monitor_lines queue'' (ds ++ [line ++ next])
          end
        else monitor_lines queue' (ds ++ [line])
      else if startswith (strip line) (lit "(") then
        if unbalanced line then
          match queue' with
          | [] => Raise IndexError
          (* ds += a string: one element per character *)
          | next :: queue'' => monitor_lines queue'' (ds ++ [line] ++ map (fun c => [c]) next)
          end
        else monitor_lines queue' (ds ++ [line])
      else match ds with
           | [] => monitor_lines queue' [strip line]
           | _ => monitor_lines queue' (but_last ds ++ [last ds [] ++ lit " " ++ strip line])
           end
  end.

(** [s.index(c)] *)
Fixpoint index_char (c : ascii) (s : str) : option nat :=
  match s with
  | [] => None
  | x :: s' => if Ascii.eqb x c then Some 0 else option_map S (index_char c s')
  end.

(** exfor_field.py:285-290: (d, heading) *)
Definition monitor_heading (d : str) : res (str * option str) :=
  if contains (lit "MONIT") d then
    fold_res (fun _ s => i <- of_option ValueError (index_char ")"%char s) ;;
                         Ok (lit "(" ++ skipn (i + 1) s, Some (lit "MONIT" ++ firstn i s)))
             (skipn 1 (split_str (lit "((MONIT") d)) (d, None)
  else Ok (d, None).

(** exfor_field.py:284-300 *)
Definition monitor_reaction (e : env) (d : str) : res (option measurement * ptree * option str) :=
  '(d, heading) <- monitor_heading d ;;
  if startswith d (lit "(") then
    r <- caught ParseException (reaction_of_text e d) (Raise ReactionParsingError) ;;
    Ok (Some (fst r), snd r, heading)
  else Ok (None, PTok d, heading).

Definition monitors_dict := list (ascii * list (option measurement * ptree * option str)).

(** exfor_field.py:245-300 *)
Definition X4MonitorField (e : env) (x : list str) : res (plain * monitors_dict) :=
  f <- X4PlainField x ;;
  ms <- map_res (fun pl => ds <- monitor_lines (snd pl) [] ;;
                           l <- map_res (monitor_reaction e) ds ;; Ok (fst pl, l)) (f_dict f) ;;
  Ok (f, ms).

(** ** Reference fields *)

(** exfor_field.py:314-325 *)
Definition pubTypeMap : list (str * str) :=
  map (fun x => (lit (fst x), lit (snd x)))
    [("A", "Abstract"); ("K", "Abstract of Journal"); ("J", "Journal"); ("C", "Conf. Proc.");
     ("S", "Conf. Proc."); ("P", "Prog. Report"); ("R", "Lab Report"); ("B", "Book");
     ("W", "Private Comm."); ("T", "Thesis"); ("X", "Preprint")].

(** exfor_field.py:340-350: state is (refs, intautology, hastautology). *)
Definition ref_step (st : list str * bool * bool) (line : str) : res (list str * bool * bool) :=
  let '(refs, inside, has) := st in
  let clean := replace_char nl [] line in
  '(refs, inside, has) <-
     (if str_eqb (slice_to line 2) (lit "((") then Ok (refs ++ [clean], true, true)
      else if negb inside && str_eqb (slice_to line 1) (lit "(") then Ok (refs ++ [clean], inside, has)
      else match refs with
           | [] => Raise IndexError
           | _ => Ok (but_last refs ++ [last refs [] ++ clean], inside, has)
           end) ;;
  Ok (refs, if contains (lit "))") line then false else inside, has).

(** exfor_field.py:399-408.  A one-element list holding a list is that list, and parseString calls
    its expandtabs, which lists do not have (pyparsing3.py:1935). *)
Definition flatten (l : list ptree) : res str :=
  match l with
  | [PTok s] => Ok s
  | [PGroup _] => Raise AttributeError
  | _ => ss <- map_res (fun x => match x with
                                 | PTok s => Ok s
                                 | PGroup (PTok s :: _) => Ok (lit "(" ++ s ++ lit ")")
                                 | PGroup (PGroup _ :: _) => Raise TypeError
                                 | PGroup [] => Raise IndexError
                                 end) l ;; Ok (concat ss)
  end.

(** The inner handlers, exfor_field.py:366-368 and 377-379; IndexError and KeyError are
    LookupErrors. *)
Definition as_reference_error {A} (r : res A) : res A :=
  match r with
  | Raise KeyError | Raise IndexError | Raise LookupError | Raise ParseException => Raise ReferenceParsingError
  | r => r
  end.

Definition reference_code (e : env) (x : ptree) : res refcode :=
  as_reference_error
    (t <- match x with PGroup l => flatten l | PTok [c] => Ok [c] | PTok s => Ok s end ;;
     X4ReferenceCode (g_comma (e_g e)) (e_dicts e) t).

(** exfor_field.py:351-379: the codes written on one reference, each with the comment *)
Definition reference_items (e : env) (has : bool) (xx : str) : res (list (ptree * ptree)) :=
  if has && cmem "="%char xx then
    xref <- of_option ReferenceParsingError (g_refcodetautology (e_g e) xx) ;;
    comment <- last_of xref ;;
    Ok (map (fun x => (x, comment)) (filter (fun x => negb (is_tok (lit "=") x)) (but_last xref)))
  else
    xref <- of_option ParseException (g_refcode (e_g e) xx) ;;
    comment <- last_of xref ;;
    x0 <- as_reference_error (idx xref 0) ;;
    Ok [(x0, comment)].

(** Runs [f] on the list until it fails; gives what was collected and the failure. *)
Fixpoint collect {A B} (f : A -> list B * option exn) (l : list A) (acc : list B) : list B * option exn :=
  match l with
  | [] => (acc, None)
  | x :: l' => match f x with
               | (bs, None) => collect f l' (acc ++ bs)
               | (bs, Some err) => (acc ++ bs, Some err)
               end
  end.

Definition references_of (e : env) (has : bool) (xx : str) : list (refcode * ptree) * option exn :=
  match reference_items e has xx with
  | Raise err => ([], Some err)
  | Ok items => collect (fun xc => match reference_code e (fst xc) with
                                   | Ok r => ([(r, snd xc)], None)
                                   | Raise err => ([], Some err)
                                   end) items []
  end.

(** exfor_field.py:336-379, one pointer *)
Definition pointer_references (e : env) (pl : ascii * list str)
  : list (ascii * list (refcode * ptree)) * option exn :=
  match fold_res ref_step (snd pl) ([], false, false) with
  | Raise err => ([(fst pl, [])], Some err)
  | Ok (refs, _, has) => let '(codes, err) := collect (references_of e has) refs [] in ([(fst pl, codes)], err)
  end.

(** The details of a reference that could not be parsed are the string '?' and not a list; the
    model has no use for them and gives [["?"]]. *)
Record reference := mkReference {
  ref_refs : list (ascii * list (refcode * ptree));
  ref_type : str; ref_name : str; ref_details : list str; ref_date : str; ref_pubyear : str;
  ref_pubtype : str }.

(** exfor_field.py:331-397 *)
Definition X4ReferenceField (e : env) (x : list str) : res (plain * reference) :=
  f <- X4PlainField x ;;
  let '(refs, err) := collect (pointer_references e) (f_dict f) [] in
  let q := lit "?" in
  match err with
  | Some ReferenceParsingError => Ok (f, mkReference refs q (lit "Parsing failed") [q] q q q)
  | Some err => Raise err
  | None =>
      first <- idx refs 0 ;;
      r <- idx (snd first) 0 ;;
      let r := fst r in
      pub <- of_option KeyError (dget str_eqb (rf_type r) pubTypeMap) ;;
      Ok (f, mkReference refs (rf_type r) (rf_name r) (rf_details r) (rf_date r) (rf_pubyear r) pub)
  end.

(** exfor_field.py:410-419 *)
Definition reference_str (r : reference) : str :=
  join (lit "; ")
    (map (fun pl => (if Ascii.eqb (fst pl) sp then [] else lit "[" ++ [fst pl] ++ lit "]")
                    ++ join (lit "; ") (map (fun x => ref_str (fst x)) (snd pl))) (ref_refs r)).

(** ** Titles, authors, institutes *)

(** exfor_field.py:428-433 *)
Definition title_str (f : plain) : str :=
  join [sp] (map (fun p => strip (title (subfield_str (plain_get f p)))) (plain_keys f)).

Record author := mkAuthor { a_plain : plain; a_authors : list str; a_family_names : list str }.

(** exfor_field.py:447-471, one pointer.  Lines 455-461 and 465-470 raise a TypeError themselves:
    they add a list to a string. *)
Definition authors_of (e : env) (lines : list str) : res (list str) :=
  let t := concat (map strip lines) in
  words <- match g_refcode (e_g e) t with
        | Some words => Ok words
        | None => of_option TypeError (g_refcode (e_g e) (hd [] (split_char ")"%char t) ++ lit ")"))
        end ;;
  x0 <- idx words 0 ;;
  s <- join_tree [sp] x0 ;;
  ttt <- of_option TypeError (g_comma (e_g e) s) ;;
  Ok (map title ttt).

(** exfor_field.py:439-472 *)
Definition X4AuthorField (e : env) (x : list str) : res author :=
  let text := join [nl] x in
  if contains (lit "No author given") text || contains (lit ".NOT GIVEN.") text
  then Ok (mkAuthor (mkPlain None []) [] [])
  else
    f <- X4PlainField x ;;
    al <- map_res (fun pl => authors_of e (snd pl)) (f_dict f) ;;
    let authors := concat al in
    Ok (mkAuthor f authors (map (fun a => last (split_char "."%char a) []) authors)).

(** exfor_field.py:474-478 *)
Definition author_str (a : author) : str :=
  match a_authors a with [] => lit "No author given" | l => join (lit ", ") l end.

(** exfor_field.py:494-501: (code, name, comment) *)
Definition institute_of (institutes : x4dict) (i : ptree) : res (str * str * str) :=
  match i with
  | PTok _ => Raise OutsideModel
  | PGroup l =>
      i0 <- idx l 0 ;;
      t <- match i0 with
           | PGroup c => t <- idx c 0 ;; match t with PTok t => Ok t | PGroup _ => Raise OutsideModel end
           | PTok s => c <- idx s 0 ;; Ok [c]
           end ;;
      comment <- join_toks [sp] (skipn 1 l) ;;
      let comment := title comment in
      match dget str_eqb (last_n 3 t) institutes with
      | Some fields => name <- idx fields 0 ;; Ok (t, name, comment)
      | None => Ok (t, t, comment)
      end
  end.

(** exfor_field.py:484-501 *)
Definition X4InstituteField (e : env) (x : list str) : res (plain * list (str * str * str)) :=
  f <- X4PlainField x ;;
  il <- map_res (fun pl =>
          il <- of_option InstituteParsingError (g_textfield (e_g e) (subfield_str (snd pl))) ;;
          map_res (institute_of (e_institutes e)) il) (f_dict f) ;;
  Ok (f, concat il).

(** exfor_field.py:503-511 *)
Definition institutes_str (l : list (str * str * str)) : str :=
  join (lit "; ")
    (map (fun i => let '(_, name, comment) := i in
                   match comment with [] => name | _ => name ++ lit " (" ++ comment ++ lit ")" end) l).

(** ** Any field *)

Inductive field :=
| FPlain (f : plain)
| FTitle (f : plain)
| FReaction (f : plain) (r : reactions_dict)
| FMonitor (f : plain) (m : monitors_dict)
| FReference (f : plain) (r : reference)
| FAuthor (a : author)
| FInstitute (f : plain) (l : list (str * str * str)).

Definition field_plain (x : field) : plain :=
  match x with
  | FPlain f | FTitle f | FReaction f _ | FMonitor f _ | FReference f _ | FInstitute f _ => f
  | FAuthor a => a_plain a
  end.
Definition field_repr (x : field) : res str := plain_repr (field_plain x).
Definition field_total_len (x : field) : nat := plain_total_len (field_plain x).
