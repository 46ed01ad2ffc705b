(** Data sets as Python objects: which lists are shared and which are copied by
    x4i3/exfor_dataset.py.  No proofs here.

    Dataset.v treats a data set as a value.  Here the lists [labels], [units], [data] and the rows
    in [data] are objects with addresses, so that changing one data set in place can be seen
    through another one that refers to the same list. *)
From Coq Require Import String List Ascii NArith ZArith Bool Arith.
From Verif.Model Require Import Py PyFloat Utilities Dicts Particle Reaction Field Section Entry Columns Dataset.
Import ListNotations.
Local Open Scope nat_scope.

(** A data set object: the attributes that are never changed in place (the table in [hs_info] is
    not used), and the addresses of the three lists. *)
Record hset := mkHSet { hs_info : dataset; hs_labels : nat; hs_units : nat; hs_data : nat }.

(** The memory; addresses are positions.  [h_parsers] are the attributes of the shared parsers. *)
Record heap := mkHeap {
  h_labels : list (list str);
  h_units : list (list (option str));
  h_rows : list (list dcell);
  h_tables : list (list nat);          (* the rows of each [data] list *)
  h_sets : list hset;
  h_parsers : store }.

Definition no_table : table := mkTable [] [] [].

(** The rows of a [data] list. *)
Definition rows_at (h : heap) (a : nat) : list (list dcell) :=
  map (fun r => nth r (h_rows h) []) (nth a (h_tables h) []).
(** The data set seen through an object. *)
Definition seen_through (h : heap) (s : hset) : dataset :=
  set_table (hs_info s)
    (mkTable (nth (hs_labels s) (h_labels h) []) (nth (hs_units s) (h_units h) []) (rows_at h (hs_data s)))
    (ds_simplified (hs_info s)).
(** What a user sees of object number [k]. *)
Definition see (h : heap) (k : nat) : option dataset := option_map (seen_through h) (nth_error (h_sets h) k).

(** [l[a] = x], for an address *)
Definition put {A} (l : list A) (a : nat) (x : A) : list A := firstn a l ++ x :: skipn (S a) l.

(** A new object for data set [d], with lists of its own. *)
Definition new_object (h : heap) (d : dataset) : heap :=
  let t := ds_table d in
  mkHeap (h_labels h ++ [t_labels t]) (h_units h ++ [t_units t]) (h_rows h ++ t_data t)
         (h_tables h ++ [seq (length (h_rows h)) (length (t_data t))])
         (h_sets h ++ [mkHSet (set_table d no_table (ds_simplified d)) (length (h_labels h)) (length (h_units h)) (length (h_tables h))])
         (h_parsers h).

Definition with_parsers (h : heap) (s : store) : heap :=
  mkHeap (h_labels h) (h_units h) (h_rows h) (h_tables h) (h_sets h) s.

(** How a call ends: with an answer, with an exception, or not at all. *)
Inductive outcome := Done (h : heap) | Failed (h : heap) (e : exn) | Loops.

(** exfor_dataset.py:191-196 and 367: [copy.copy(self)] comes back as it is, without lists of its own *)
Definition comes_back_shared (d : dataset) : bool :=
  ds_simplified d || match ds_class_of d with DataSet | AnalyzingPower => true | _ => false end.

(** getSimplified, exfor_dataset.py:182-246 and 355, 367, 431: the answer is the last object. *)
Definition h_simplify (acos : float -> option float) (mk fl : bool) (k : nat) (h : heap) : outcome :=
  match nth_error (h_sets h) k with
  | None => Failed h OutsideModel
  | Some s =>
      let d := seen_through h s in
      let '(r, st) := run (getSimplified acos mk fl d) (h_parsers h) in
      let h := with_parsers h st in
      match r with
      | Raise e => Failed h e
      | Ok d' =>
          if comes_back_shared d
          then Done (mkHeap (h_labels h) (h_units h) (h_rows h) (h_tables h) (h_sets h ++ [s]) (h_parsers h))
          else Done (new_object h d')
      end
  end.

(** append, exfor_dataset.py:248-277.  Lines 258-259 walk through [other.data] while they lengthen
    [self.data]: if these are the same list, and not empty, the loop does not end. *)
Definition h_append (nm : names) (same : bool) (k j : nat) (h : heap) : outcome :=
  match nth_error (h_sets h) k, nth_error (h_sets h) j with
  | Some s, Some o =>
      let self := seen_through h s in
      let other := seen_through h o in
      match append nm same self other with
      | Raise e => Failed h e
      | Ok r =>
          match t_labels (ds_table self), t_units (ds_table self), t_data (ds_table self) with
          | [], [], [] =>                                              (* lines 249-256 *)
              Done (mkHeap (h_labels h ++ [nth (hs_labels o) (h_labels h) []])
                           (h_units h ++ [nth (hs_units o) (h_units h) []])
                           (h_rows h)
                           (h_tables h ++ [nth (hs_data o) (h_tables h) []])
                           (put (h_sets h) k (mkHSet (set_table r no_table (ds_simplified r))
                                                     (length (h_labels h)) (length (h_units h)) (length (h_tables h))))
                           (h_parsers h))
          | _, _, _ =>
              if list_same str_eqb (t_labels (ds_table self)) (t_labels (ds_table other))
                 && list_same ostr_eqb (t_units (ds_table self)) (t_units (ds_table other))
                 && match reaction_text nm self, reaction_text nm other with Ok a, Ok b => str_eqb a b | _, _ => false end
              then
                if (hs_data s =? hs_data o) && negb (length (t_data (ds_table other)) =? 0) then Loops
                else                                                   (* lines 258-259 *)
                  let n := length (h_rows h) in
                  Done (mkHeap (h_labels h) (h_units h) (h_rows h ++ t_data (ds_table other))
                               (put (h_tables h) (hs_data s)
                                    (nth (hs_data s) (h_tables h) [] ++ seq n (length (t_data (ds_table other)))))
                               (h_sets h) (h_parsers h))
              else Done h                                              (* the message of lines 260-276 *)
          end
      end
  | _, _ => Failed h OutsideModel
  end.

(** sort, exfor_dataset.py:176-178: [order] says where each row of the sorted list comes from, as
    the keyword arguments have it (positions beyond the end are ignored).  Not modelled: the
    TypeError of comparing None with a number, which leaves the list in some order. *)
Definition h_sort (order : list (list dcell) -> list nat) (k : nat) (h : heap) : outcome :=
  match nth_error (h_sets h) k with
  | None => Failed h OutsideModel
  | Some s =>
      let t := nth (hs_data s) (h_tables h) [] in
      Done (mkHeap (h_labels h) (h_units h) (h_rows h)
                   (put (h_tables h) (hs_data s) (map (fun i => nth i t 0) (filter (fun i => i <? length t) (order (rows_at h (hs_data s))))))
                   (h_sets h) (h_parsers h))
  end.

(** The user's own [ds.data[i][j] = v] *)
Definition h_set_cell (k i j : nat) (v : dcell) (h : heap) : outcome :=
  match nth_error (h_sets h) k with
  | None => Failed h OutsideModel
  | Some s =>
      match nth_error (nth (hs_data s) (h_tables h) []) i with
      | None => Failed h IndexError
      | Some r =>
          match set_nth (nth r (h_rows h) []) j v with
          | Raise e => Failed h e
          | Ok row => Done (mkHeap (h_labels h) (h_units h) (put (h_rows h) r row) (h_tables h) (h_sets h) (h_parsers h))
          end
      end
  end.
(** The user's own [ds.labels[j] = v] *)
Definition h_set_label (k j : nat) (v : str) (h : heap) : outcome :=
  match nth_error (h_sets h) k with
  | None => Failed h OutsideModel
  | Some s =>
      match set_nth (nth (hs_labels s) (h_labels h) []) j v with
      | Raise e => Failed h e
      | Ok l => Done (mkHeap (put (h_labels h) (hs_labels s) l) (h_units h) (h_rows h) (h_tables h) (h_sets h) (h_parsers h))
      end
  end.

(** What a program may do with its data sets. *)
Inductive hop :=
| Simplify (mk fl : bool) (k : nat)
| Append (same : bool) (k j : nat)
| Sort (order : list (list dcell) -> list nat) (k : nat)
| SetCell (k i j : nat) (v : dcell)
| SetLabel (k j : nat) (v : str).

Definition hstep (acos : float -> option float) (nm : names) (o : hop) (h : heap) : outcome :=
  match o with
  | Simplify mk fl k => h_simplify acos mk fl k h
  | Append same k j => h_append nm same k j h
  | Sort order k => h_sort order k h
  | SetCell k i j v => h_set_cell k i j v h
  | SetLabel k j v => h_set_label k j v h
  end.
(** A program that catches all exceptions.  None: it never ends. *)
Fixpoint hrun (acos : float -> option float) (nm : names) (ops : list hop) (h : heap) : option heap :=
  match ops with
  | [] => Some h
  | o :: ops' => match hstep acos nm o h with
                 | Done h' | Failed h' _ => hrun acos nm ops' h'
                 | Loops => None
                 end
  end.

(** Data sets just read. *)
Definition read_sets (ds : list dataset) : heap := fold_left new_object ds (mkHeap [] [] [] [] [] store0).
