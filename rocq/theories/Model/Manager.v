(** x4i3/exfor_manager.py and the entry factory of x4i3/exfor_entry.py.  No proofs here. *)
From Coq Require Import String List Ascii NArith ZArith Bool Arith.
From Verif.Model Require Import Py Utilities Sql.
Import ListNotations.
Local Open Scope list_scope.

(** exfor_manager.py:59-90 *)
Definition EntryLetterConversion : list (str * str) :=
  map (fun p => (lit (fst p), lit (snd p)))
  [("10","A");("11","B");("12","C");("13","D");("14","E");("15","F");("16","G");("21","L");
   ("22","M");("24","O");("25","P");("27","R");("28","S");("29","T");("31","V")]%string.
Definition revEntryLetterConversion : list (str * str) :=
  map (fun p => (lit (fst p), lit (snd p)))
  [("A","10");("B","11");("C","12");("D","13");("E","14");("F","15");("G","16");("L","21");
   ("M","22");("O","24");("P","25");("R","27");("S","28");("T","29");("V","31")]%string.

(** A key given by the user: a string or an int. *)
Inductive key := KStr (s : str) | KInt (z : Z).

(** exfor_manager.py:115-127 *)
Definition fixkey (i : key) : res str :=
  let s := match i with KStr s => s | KInt z => z_to_str z end in
  if (length s =? 5) || (length s =? 8) then Ok s else Raise KeyError.

(** exfor_manager.py:216-217: the keyword arguments of query(). *)
Record criteria := mkCriteria {
  c_author : option str; c_reaction : option str; c_target : option str;
  c_projectile : option str; c_quantity : option str; c_product : option str;
  c_MF : option str; c_MT : option str; c_C : option str; c_S : option str; c_I : option str;
  c_SUBENT : option str; c_ENTRY : option str }.

Definition no_criteria : criteria :=
  mkCriteria None None None None None None None None None None None None None.

(** "<col> <op> '%s' " % v *)
Definition criterion (col op : string) (v : str) : str :=
  lit col ++ [sp] ++ lit op ++ [sp; sql_quote] ++ v ++ [sql_quote; sp].

Definition opt_list {A} (o : option A) : list A :=
  match o with Some a => [a] | None => [] end.

(** exfor_manager.py:231-268.  Lines 223-229 only raise and swallow an exception. *)
Definition criteria_list (c : criteria) : list str :=
  opt_list (option_map (fun a => criterion "author" "=" (capitalize a)) (c_author c)) ++
  opt_list (option_map (fun a => criterion "target" "=" (upper a)) (c_target c)) ++
  opt_list (option_map
    (fun a => if cmem "*"%char a
              then criterion "reaction" "LIKE" (upper (replace_char "*"%char ["%"%char] a))
              else criterion "reaction" "=" (upper a)) (c_reaction c)) ++
  opt_list (option_map (fun a => criterion "projectile" "=" (upper a)) (c_projectile c)) ++
  opt_list (option_map
    (fun a => if str_eqb a (lit "CS") then criterion "quantity" "=" (lit "SIG")
              else criterion "quantity" "=" (upper a)) (c_quantity c)) ++
  opt_list (option_map (fun a => criterion "subent" "=" a) (c_SUBENT c)) ++
  opt_list (option_map (fun a => criterion "entry" "=" a) (c_ENTRY c)).

(** exfor_manager.py:279-285: one round of the loop over result_list. *)
Definition result_step (m : list (str * list str)) (r : str) : list (str * list str) :=
  let e := slice r 0 5 in
  let m := if dhas str_eqb e m then m else dset str_eqb e [e ++ lit "001"] m in
  match dget str_eqb e m with
  | Some l => if smem r l then m else dset str_eqb e (l ++ [r]) m
  | None => m                                   (* cannot happen: e was just added *)
  end.

(** exfor_manager.py:216-287 *)
Definition query (table : list row) (c : criteria) : res (list (str * list str)) :=
  let cond := join (lit " and ") (criteria_list c) in
  if str_eqb cond [] then Ok []
  else subents <- sql_select table cond ;;
       Ok (fold_left result_step (ssort (unique str_eqb subents)) []).

(** exfor_entry.py:78-89: one round of the loop over the lines of an entry file;
    state is (result, subent). *)
Definition entry_step (keep : str -> bool) (st : list str * str) (line : str) : list str * str :=
  let '(result, subent) := st in
  let subent :=
    if startswith line (lit "ENTRY") || startswith line (lit "ENDENTRY")
       || startswith line (lit "NOSUBENT") then subent
    else if startswith line (lit "SUBENT") then line
    else subent ++ line in
  if startswith line (lit "ENDSUBENT") then
    (if keep (strip (slice subent 14 22)) then result ++ [subent] else result, [])
  else (result, subent).

Definition split_entry (keep : str -> bool) (lines : list str) : list str :=
  fst (fold_left (entry_step keep) lines ([], [])).

(** The entry files below the data path: relative path (first three characters of the
    entry, entry) to the bytes of <datapath>/<abc>/<abcde>.x4. *)
Definition files := str -> str -> option str.

(** exfor_entry.py:58-92, with [mk] the last step: the identity for rawEntry=True
    (lines 90-91), X4Entry otherwise (line 92).  subentsList=None is [None]. *)
Definition x4EntryFactory {E} (mk : list str -> res E) (fs : files) (enum : str)
    (subents : option (list str)) : res E :=
  if negb (length enum =? 5) then Raise ValueError
  else content <- of_option OSError (fs (slice enum 0 3) enum) ;;
       mk (split_entry (fun n => match subents with None => true | Some l => smem n l end)
                       (readlines (universal_newlines content))).

(** exfor_manager.py:289-313 *)
Definition retrieve {E} (mk : list str -> res E) (table : list row) (fs : files) (c : criteria)
  : res (list (str * E)) :=
  smap <- query table c ;;
  fold_res (fun result kv =>
              e <- x4EntryFactory mk fs (fst kv) (Some (snd kv)) ;;
              Ok (dset str_eqb (fst kv) e result)) smap [].

Definition by_entry (i : str) : criteria :=
  mkCriteria None None None None None None None None None None None None (Some i).
Definition by_subent (i : str) : criteria :=
  mkCriteria None None None None None None None None None None None (Some i) None.

(** exfor_manager.py:129-139 *)
Definition db_getitem {E} (mk : list str -> res E) (table : list row) (fs : files) (i : key)
  : res (list (str * E)) :=
  s <- fixkey i ;;
  if length s =? 5 then retrieve mk table fs (by_entry s)
  else retrieve mk table fs (by_subent s).

(** exfor_manager.py:141-148; the manager has no other state than the table. *)
Definition db_setitem (table : list row) (i : key) : res (list row) :=
  s <- fixkey i ;; Raise NotImplementedError.

(** exfor_manager.py:150-160; line 160 compares a dict with an int. *)
Definition db_contains (table : list row) (i : key) : res bool :=
  s <- fixkey i ;;
  if length s =? 5 then m <- query table (by_entry s) ;; Ok (0 <? length m)
  else m <- query table (by_subent s) ;; Raise TypeError.
