(** The program examples/get-entry.py.  The arguments come parsed (argparse, lines 53-122, is not
    modelled); -v, -q have no effect in the program; -c only exchanges the manager, which is an
    argument here.  What is printed is a list of what the calls of print are given: texts, the
    dictionary of the errors, and of the dictionary of the data sets the keys with the repr of the
    data sets, which print computes.  No proofs here. *)
From Coq Require Import String List Ascii NArith ZArith Bool Arith.
From Verif.Model Require Import Py Sql Manager Particle Reaction Field Section Columns Entry Dataset Print Show.
Import ListNotations.
Local Open Scope string_scope.
Local Open Scope list_scope.
Local Open Scope nat_scope.

(** get-entry.py:66-121 *)
Record arguments := mkArguments {
  a_subent : option str; a_ent : option str; a_getFile : bool;
  a_raw : bool; a_rawdata : bool; a_data : bool; a_rawdoc : bool; a_doc : bool; a_nada : bool }.

Inductive printed :=
| PText (s : str)
| PErrors (errs : errors)
| PSets (l : list (ds_key * str)).

(** A part of the program: what it prints, and its result or the exception that ends the program. *)
Definition out (A : Type) : Type := (list printed * res A)%type.
Definition obind {A B} (m : out A) (k : A -> out B) : out B :=
  match snd m with
  | Ok x => (fst m ++ fst (k x), snd (k x))
  | Raise e => (fst m, Raise e)
  end.
Definition olift {A} (r : res A) : out A := ([], r).
Definition oprint (p : printed) : out unit := ([p], Ok tt).
(** [print(x)], where computing the text may raise *)
Definition oprint_res (r : res printed) : out unit := obind (olift r) oprint.
Definition oseq (a b : out unit) : out unit := obind a (fun _ => b).
Definition owhen (c : bool) (a : out unit) : out unit := if c then a else ([], Ok tt).
Fixpoint ofor {A} (f : A -> out unit) (l : list A) : out unit :=
  match l with [] => ([], Ok tt) | x :: l' => oseq (f x) (ofor f l') end.

(** The values of searchResult: entries, or (lines 149, rawEntry) lists of texts *)
Inductive content := CEntry (n : entry) | CTexts (l : list str).

(** get-entry.py:127-132 *)
Definition check_arguments (a : arguments) : res unit :=
  match a_subent a, a_ent a with
  | None, None => Raise ValueError
  | s, n => if match s with Some s => negb (length s =? 8) | None => false end then Raise ValueError
            else if match n with Some n => negb (length n =? 5) | None => false end then Raise ValueError
            else Ok tt
  end.

Definition endswith (s p : str) : bool := startswith (rev s) (rev p).
(** get-entry.py:154-160: the keys of an entry are the numbers of its subentries; None has no endswith. *)
Definition filter_entry (num : str) (n : entry) : res entry :=
  if negb (dhas tag_eqb (Some num) (n_subs n)) then Raise KeyError
  else subs <- map_res (fun ks => match fst ks with
                                  | Some k => Ok (if endswith k (lit "001") || str_eqb k num then [ks] else [])
                                  | None => Raise AttributeError
                                  end) (n_subs n) ;;
       Ok (mkEntry (n_accnum n) (concat subs)).

(** get-entry.py:135-160; [find] is dbMgr.retrieve *)
Definition search_result (e : env) (find : criteria -> res (list (str * entry))) (fs : files) (a : arguments)
  : res (list (str * content)) :=
  if negb (a_getFile a) then
    r <- match a_ent a, a_subent a with
         | Some n, _ => find (by_entry n)
         | None, Some s => find (by_subent s)
         | None, None => Raise ValueError        (* cannot happen: line 127 *)
         end ;;
    Ok (map (fun kn => (fst kn, CEntry (snd kn))) r)
  else
    let acc := match a_ent a, a_subent a with
               | Some n, _ => n
               | None, Some s => slice s 0 5
               | None, None => []                 (* cannot happen: line 127 *)
               end in
    if a_raw a then ts <- x4EntryFactory (@Ok (list str)) fs acc None ;; Ok [(acc, CTexts ts)]
    else n <- x4EntryFactory (X4Entry e) fs acc None ;;
         n <- match a_subent a with Some s => filter_entry s n | None => Ok n end ;;
         Ok [(acc, CEntry n)].

(** Iterating over a value: an entry yields its keys, which have to be strings for what follows. *)
Definition items (missing : exn) (x : content) : res (list str) :=
  match x with
  | CEntry n => map_res (of_option missing) (dkeys (n_subs n))
  | CTexts l => Ok l
  end.

(** get-entry.py:163-166; [split] of None is an AttributeError, here before the first line. *)
Definition print_keys (r : list (str * content)) : out unit :=
  obind (olift (of_option IndexError (hd_error r))) (fun kx =>
  oseq (oprint (PText (lit "This ENTRY:       " ++ fst kx)))
       (obind (olift (items AttributeError (snd kx)))
              (ofor (fun i => oprint (PText (lit "    " ++ firstn 22 (hd [] (split_char nl i)))))))).

(** searchResult[keys[0]] and searchResult[keys[-1]] with keys the sorted keys *)
Definition first_value (r : list (str * content)) : res content :=
  k <- of_option IndexError (hd_error (ssort (dkeys r))) ;; of_option KeyError (dget str_eqb k r).
Definition last_value (r : list (str * content)) : res content :=
  k <- of_option IndexError (hd_error (rev (ssort (dkeys r)))) ;; of_option KeyError (dget str_eqb k r).

Definition blank_lines : str := [nl; nl].
Definition headline (s : string) : printed := PText (lit "---------- " ++ lit s ++ lit " ----------").

(** get-entry.py:173-176 *)
Definition print_raw (r : list (str * content)) : out unit :=
  oseq (oprint (PText blank_lines))
       (ofor (fun k => oprint_res (x <- of_option KeyError (dget str_eqb k r) ;; l <- items TypeError x ;; Ok (PText (join [nl] l))))
             (ssort (dkeys r))).
(** get-entry.py:177-179 *)
Definition print_rawdoc (r : list (str * content)) : out unit :=
  oseq (oprint (PText blank_lines))
       (oprint_res (x <- first_value r ;;
                    match x with
                    | CEntry n => s <- entry_getitem n (EInt 1) ;; t <- subentry_repr s ;; Ok (PText t)
                    | CTexts l => t <- zidx l 1 ;; Ok (PText (repr_str t))
                    end)).
(** get-entry.py:180-182 *)
Definition print_doc (nm : names) (r : list (str * content)) : out unit :=
  oseq (oprint (PText blank_lines))
       (oprint_res (x <- first_value r ;;
                    match x with
                    | CEntry n => s <- entry_getitem n (EInt 1) ;; t <- subentry_str nm s ;; Ok (PText t)
                    | CTexts l => t <- zidx l 1 ;; Ok (PText t)
                    end)).
(** get-entry.py:183-190.  The entry has just been read, its errors are empty. *)
Definition print_rawdata (nm : names) (num : str) (r : list (str * content)) : out unit :=
  if endswith num (lit "001") then olift (Raise ValueError)
  else
    oseq (oprint (headline "Raw Data"))
    (oseq (oprint_res (x <- last_value r ;;
                       match x with
                       | CEntry n => s <- entry_getitem n (EStr num) ;;
                                     d <- of_option KeyError (dget str_eqb (lit "DATA") (s_dict s)) ;;
                                     t <- section_str nm d ;; Ok (PText t)
                       | CTexts _ => Raise TypeError
                       end))
    (oseq (oprint (headline "Errors"))
          (oprint (PErrors [])))).
(** get-entry.py:191-198 *)
Definition print_data (nm : names) (num : str) (r : list (str * content)) : out unit :=
  if endswith num (lit "001") then olift (Raise ValueError)
  else
    oseq (oprint (headline "Data"))
    (obind (olift (x <- last_value r ;;
                   match x with
                   | CEntry n => '(ds, errs, _) <- getDataSets nm n [] ;;
                                 l <- map_res (fun kd => t <- dataset_repr nm (snd kd) ;; Ok (fst kd, t)) ds ;;
                                 Ok (l, errs)
                   | CTexts _ => Raise AttributeError
                   end))
           (fun x => oseq (oprint (PSets (fst x)))
                    (oseq (oprint (headline "Errors"))
                          (oprint (PErrors (snd x)))))).

(** get-entry.py:125-198 *)
Definition get_entry (e : env) (nm : names) (find : criteria -> res (list (str * entry))) (fs : files) (a : arguments) : out unit :=
  obind (olift (check_arguments a)) (fun _ =>
  obind (olift (search_result e find fs a)) (fun r =>
  oseq (match a_ent a with Some _ => print_keys r | None => ([], Ok tt) end)
       (match a_subent a with
        | Some num =>
            if a_nada a then ([], Ok tt)
            else oseq (owhen (a_raw a) (print_raw r))
                (oseq (owhen (a_rawdoc a) (print_rawdoc r))
                (oseq (owhen (a_doc a) (print_doc nm r))
                (oseq (owhen (a_rawdata a) (print_rawdata nm num r))
                      (owhen (a_data a) (print_data nm num r)))))
        | None => ([], Ok tt)
        end))).
