(** The in-memory copy of the database and the download of a new one
    (x4i3/__init__.py:111-221, x4i3/exfor_entry.py:95-124, x4i3/exfor_manager.py:316-344).
    No proofs here. *)
From Coq Require Import String List Ascii NArith Bool Arith.
From Verif.Model Require Import Py Utilities Sql Manager.
Import ListNotations.
Local Open Scope list_scope.

(** * DataBaseCache *)

(** The db directory as one load sees it: in os.listdir order, each name with the listing of
    that sub-directory (None: os.listdir raises), each file with its bytes (None: open or
    read raises). *)
Definition subdir := list (str * option str).
Definition dbtree := list (str * option subdir).

(** __init__.py:196-211: the flag and the dictionary; values are lists of bytes lines. *)
Record cache := mkCache { c_init : bool; c_dict : list (str * list str) }.
Definition empty_cache : cache := mkCache false [].

(** __init__.py:204-207: the inner loop.  An exception leaves what was stored so far. *)
Fixpoint load_files (sd : str) (fs : subdir) (d : list (str * list str))
  : list (str * list str) * res unit :=
  match fs with
  | [] => (d, Ok tt)
  | (x4f, content) :: fs' =>
      match content with
      | None => (d, Raise OSError)
      | Some bytes => load_files sd fs' (dset str_eqb (sd ++ "/"%char :: x4f) (readlines bytes) d)
      end
  end.

(** __init__.py:203-207 *)
Fixpoint load_dirs (t : dbtree) (d : list (str * list str)) : list (str * list str) * res unit :=
  match t with
  | [] => (d, Ok tt)
  | (sd, None) :: _ => (d, Raise OSError)
  | (sd, Some fs) :: t' =>
      match load_files sd fs d with
      | (d', Ok _) => load_dirs t' d'
      | (d', Raise e) => (d', Raise e)
      end
  end.

(** __init__.py:202-208; the whole listing is None when the db directory cannot be listed. *)
Definition load_cache (t : option dbtree) (c : cache) : cache * res unit :=
  match t with
  | None => (c, Raise OSError)
  | Some t => match load_dirs t (c_dict c) with
              | (d, Ok _) => (mkCache true d, Ok tt)
              | (d, Raise e) => (mkCache (c_init c) d, Raise e)
              end
  end.

(** __init__.py:210-213, given the state of the disk at that moment. *)
Definition cache_getitem (t : option dbtree) (k : str) (c : cache) : cache * res (list str) :=
  let '(c, r) := if c_init c then (c, Ok tt) else load_cache t c in
  (c, match r with
      | Raise e => Raise e
      | Ok _ => of_option KeyError (dget str_eqb k (c_dict c))
      end).

(** [k in database_dict]: dict.__contains__, which DataBaseCache does not override. *)
Definition cache_contains (k : str) (c : cache) : bool := dhas str_eqb k (c_dict c).

(** The state after a history of lookups, each with the disk as it was then. *)
Definition run_lookups (h : list (option dbtree * str)) (c : cache) : cache :=
  fold_left (fun c l => fst (cache_getitem (fst l) (snd l) c)) h c.

(** * x4DictionaryEntryFactory *)

(** A Python text or bytes object. *)
Inductive pytext := PText (s : str) | PBytes (s : str).

(** [x.startswith('...')]: bytes.startswith refuses a str. *)
Definition py_startswith (x : pytext) (p : str) : res bool :=
  match x with PText s => Ok (startswith s p) | PBytes _ => Raise TypeError end.

(** Python's [a or b]. *)
Definition or_else (a : res bool) (b : res bool) : res bool :=
  x <- a ;; if x then Ok true else b.

(** [a + b]: both text or both bytes. *)
Definition py_add (a b : pytext) : res pytext :=
  match a, b with
  | PText x, PText y => Ok (PText (x ++ y))
  | PBytes x, PBytes y => Ok (PBytes (x ++ y))
  | _, _ => Raise TypeError
  end.

Definition py_raw (x : pytext) : str := match x with PText s => s | PBytes s => s end.

(** [subent[14:22].strip() in subentsList] for a list of str. *)
Definition py_selected (x : pytext) (l : option (list str)) : bool :=
  match l with
  | None => true
  | Some l => match x with PText s => smem (strip (slice s 14 22)) l | PBytes _ => false end
  end.

(** exfor_entry.py:110-121: one round of the loop over the cached lines. *)
Definition dict_entry_step (l : option (list str)) (st : list pytext * pytext) (line : pytext)
  : res (list pytext * pytext) :=
  let '(result, subent) := st in
  skip <- or_else (py_startswith line (lit "ENTRY"))
            (or_else (py_startswith line (lit "ENDENTRY")) (py_startswith line (lit "NOSUBENT"))) ;;
  subent <- (if skip then Ok subent
             else s <- py_startswith line (lit "SUBENT") ;;
                  if s then Ok line else py_add subent line) ;;
  e <- py_startswith line (lit "ENDSUBENT") ;;
  if e then Ok (if py_selected subent l then result ++ [subent] else result, PText [])
  else Ok (result, subent).

Definition x4_path (enum : str) : str := slice enum 0 3 ++ ["/"%char] ++ enum ++ lit ".x4".

(** exfor_entry.py:95-124; the cached lines are bytes. *)
Definition x4DictionaryEntryFactory {E} (mk : list pytext -> res E) (t : option dbtree) (enum : str)
    (subents : option (list str)) (c : cache) : cache * res E :=
  if negb (length enum =? 5) then (c, Raise ValueError)
  else let '(c, r) := cache_getitem t (x4_path enum) c in
       (c, entry <- r ;;
           st <- fold_res (dict_entry_step subents) (map PBytes entry) ([], PText []) ;;
           mk (fst st)).

(** exfor_manager.py:320-344: the loop over the query result threads the cache. *)
Fixpoint cached_entries {E} (mk : list pytext -> res E) (t : option dbtree)
    (smap : list (str * list str)) (result : list (str * E)) (c : cache)
  : cache * res (list (str * E)) :=
  match smap with
  | [] => (c, Ok result)
  | (e, l) :: smap' =>
      match x4DictionaryEntryFactory mk t e (Some l) c with
      | (c, Ok x) => cached_entries mk t smap' (dset str_eqb e x result) c
      | (c, Raise ex) => (c, Raise ex)
      end
  end.

Definition retrieve_cached {E} (mk : list pytext -> res E) (table : list row) (t : option dbtree)
    (cr : criteria) (c : cache) : cache * res (list (str * E)) :=
  match query table cr with
  | Raise e => (c, Raise e)
  | Ok smap => cached_entries mk t smap [] c
  end.

(** * Download *)

(** The names under DATAPATH that matter (__init__.py:85-103). *)
Inductive dbname := Index | Errors | Coupled | Monitored | ReactionCount | Db | Tag.

(** What a name holds: the old data, new data only partly written, or all of the new data. *)
Inductive state := Absent | Old | Partial | New.
Definition disk := dbname -> state.

Definition dbname_eqb (a b : dbname) : bool :=
  match a, b with
  | Index, Index | Errors, Errors | Coupled, Coupled | Monitored, Monitored
  | ReactionCount, ReactionCount | Db, Db | Tag, Tag => true
  | _, _ => false
  end.
Definition put (n : dbname) (s : state) (d : disk) : disk :=
  fun m => if dbname_eqb m n then s else d m.

(** One atomic change of the disk. *)
Inductive op := Set_ (n : dbname) (s : state).
Definition run_op (d : disk) (o : op) : disk := match o with Set_ n s => put n s d end.

(** __init__.py:124-135, in the order of the list.  rmtree of the db directory deletes file
    by file: first the directory is incomplete ([Partial]), then gone.  Removing a name that
    is absent changes nothing.  The tag file of the same database version is the last one. *)
Definition cleanup_ops (d : disk) : list op :=
  flat_map (fun n => match d n return list op with
                     | Absent => []
                     | _ => match n with
                            | Db => [Set_ Db Partial; Set_ Db Absent]
                            | _ => [Set_ n Absent]
                            end
                     end)
           [Index; Errors; Coupled; Monitored; ReactionCount; Db; Tag].

(** __init__.py:166-170: extraction of the archive; [members] says, member by member, which of
    the names it belongs to and whether it completes it. *)
Definition extract_ops (members : list (dbname * bool)) : list op :=
  flat_map (fun m : dbname * bool => [Set_ (fst m) Partial; Set_ (fst m) (if snd m then New else Partial)]) members.

(** __init__.py:111-175 without failures: everything that is done, in order.  The download
    itself (lines 147-164) goes to an anonymous temporary file and changes no name. *)
Definition download_ops (members : list (dbname * bool)) (d : disk) : list op :=
  cleanup_ops d ++ extract_ops members ++ [Set_ Tag New].

(** The disk when the process stops after [n] changes, for whatever reason (a crash, a
    network error, a content-length mismatch, a broken archive). *)
Definition stopped (members : list (dbname * bool)) (n : nat) (d : disk) : disk :=
  fold_left run_op (firstn n (download_ops members d)) d.

(** __init__.py:184-187 (commented out in the source, but this is the documented test):
    every name exists. *)
Definition all_exist (d : disk) : bool :=
  forallb (fun n => match d n with Absent => false | _ => true end)
          [Index; Errors; Coupled; Monitored; ReactionCount; Db; Tag].
