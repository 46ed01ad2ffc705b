(** Property C98: what examples/get-entry.py prints. *)
From Coq Require Import String List Ascii NArith ZArith Bool Arith Sorted.
From Coq Require Import Floats.SpecFloat.
From Verif.Model Require Import Py PyFloat Dicts Storage Sql Manager Particle Reaction Field Section Entry Columns Dataset Print Show Pyparsing Grammars Shipped Library ShippedDicts Client.
From Verif.Spec Require Import Text Exfor Tables DataSets Merging Codes General Known GeneralKnown Query Files Document WellWritten Printable Stored Pointed Found Shown Headers Script.
From Verif.Proofs Require Import StrLemmas ManagerLemmas LibraryLemmas StorageLemmas RetrieveLemmas ClientLemmas.
From Verif.Properties Require P12_Names.
From Verif.Properties Require Import P15_Document P25_Library P28_Retrieved P30_Pointed P31_Found.
Import ListNotations.
Local Open Scope string_scope.
Local Open Scope list_scope.
Local Open Scope nat_scope.

(** get-entry.py --data -s num, with or without -f: the data sets that db[num] has, each with the
    metadata, the reaction and the table; what is written in full in subentry [num] is among them. *)
Theorem C98_data : forall c e nm table fs file num bs, well_dictionaries c e -> naming c e nm ->
  available c table fs file num bs -> num <> firstn 5 num ++ tx "001" ->
  let acc := firstn 5 num in
  exists l errs n ds n',
    get_entry e nm (retrieve (X4Entry e) table fs) fs (mkArguments (Some num) None file false false true false false false) =
      ([PText (tx "---------- Data ----------"); PSets l; PText (tx "---------- Errors ----------"); PErrors errs], Ok tt) /\
    (file = false -> db_getitem (X4Entry e) table fs (KStr num) = Ok [(acc, n)]) /\
    getDataSets nm n [] = Ok (ds, errs, n') /\ map fst l = map fst ds /\
    (forall k text, In (k, text) l -> exists x p d b b1 h who, k = (acc, Some x, p) /\ (x = acc ++ tx "001" \/ x = num) /\ dget key_eqb k ds = Some d /\
       last_such (fun y => block_number y = x) bs b /\ last_such (fun y => block_number y = acc ++ tx "001") bs b1 /\
       told_by e acc x (concat b1) (concat b) h who /\ set_listed nm d h who text) /\
    (forall p x line k t, block_written c acc bs num p x line k t ->
       exists d text, In (acc, Some num, p, text) l /\ dget key_eqb (acc, Some num, p) ds = Some d /\ of_reaction x line k d /\ ds_table d = t).
Proof. intros c e nm table fs file num bs D N. exact (data_printed c e nm D N table fs file num bs). Qed.
Print Assumptions C98_data.

(** With the dictionaries that are shipped. *)
Theorem C98_shipped : forall depth e nm table fs file num bs, 0 < depth -> load shipped_dir depth = Ok (shipped, e, nm) ->
  available shipped table fs file num bs -> num <> firstn 5 num ++ tx "001" ->
  exists l errs,
    get_entry e nm (retrieve (X4Entry e) table fs) fs (mkArguments (Some num) None file false false true false false false) =
      ([PText (tx "---------- Data ----------"); PSets l; PText (tx "---------- Errors ----------"); PErrors errs], Ok tt) /\
    (forall p x line k t, block_written shipped (firstn 5 num) bs num p x line k t ->
       exists d text h who, In (firstn 5 num, Some num, p, text) l /\ of_reaction x line k d /\ ds_table d = t /\ set_listed nm d h who text).
Proof.
  intros depth e nm table fs file num bs DP L A M. destruct (loaded_is _ _ _ DP L) as (D & N).
  destruct (C98_data shipped e nm table fs file num bs D N A M) as (l & errs & n & ds & n' & R & _ & _ & _ & T & W). exists l, errs. split; [exact R|].
  intros p x line k t H. destruct (W p x line k t H) as (d & text & I & G & O & E). destruct (T _ _ I) as (x' & p' & d' & b & b1 & h & who & _ & _ & G' & _ & _ & _ & S).
  assert (d' = d) by congruence. subst d'. exists d, text, h, who. auto.
Qed.
Print Assumptions C98_shipped.

(** --rawdata: the DATA section of the subentry, or KeyError; the errors are always empty. *)
Theorem C98_rawdata : forall c e nm table fs file num bs, well_dictionaries c e -> naming c e nm ->
  available c table fs file num bs -> num <> firstn 5 num ++ tx "001" ->
  let r := get_entry e nm (retrieve (X4Entry e) table fs) fs (mkArguments (Some num) None file false true false false false false) in
  (forall b section, last_such (fun x => block_number x = num) bs b -> has_section "DATA" (concat b) section ->
     exists d, X4DataSection (tx "DATA") section = Ok d /\
       r = ([PText (tx "---------- Raw Data ----------"); PText (data_str d); PText (tx "---------- Errors ----------"); PErrors []], Ok tt)) /\
  ((~ exists b section, last_such (fun x => block_number x = num) bs b /\ has_section "DATA" (concat b) section) ->
     r = ([PText (tx "---------- Raw Data ----------")], Raise KeyError)).
Proof. intros c e nm table fs file num bs D N. exact (rawdata_printed c e nm D N table fs file num bs). Qed.
Print Assumptions C98_rawdata.

(** Subentry 001 with --data or --rawdata. *)
Theorem C98_main : forall c e nm table fs file num bs rawdata data, well_dictionaries c e -> naming c e nm ->
  available c table fs file num bs -> num = firstn 5 num ++ tx "001" -> rawdata || data = true ->
  get_entry e nm (retrieve (X4Entry e) table fs) fs (mkArguments (Some num) None file false rawdata data false false false) = ([], Raise ValueError).
Proof. intros c e nm table fs file num bs rawdata data D N. exact (main_printed c e nm D N table fs file num bs rawdata data). Qed.
Print Assumptions C98_main.

(** --doc: subentry 001, whichever subentry is asked for. *)
Theorem C98_doc : forall c e nm table fs file num bs, well_dictionaries c e -> naming c e nm -> available c table fs file num bs ->
  let acc := firstn 5 num in
  exists b1 t, last_such (fun x => block_number x = acc ++ tx "001") bs b1 /\ subentry_shown e nm (acc ++ tx "001") (concat b1) t /\
    get_entry e nm (retrieve (X4Entry e) table fs) fs (mkArguments (Some num) None file false false false false true false) =
      ([PText [ascii_of_N 10; ascii_of_N 10]; PText t], Ok tt).
Proof. intros c e nm table fs file num bs D N. exact (doc_printed c e nm D N table fs file num bs). Qed.
Print Assumptions C98_doc.

(** --rawdoc: likewise; AttributeError exactly if its authors are "not given". *)
Theorem C98_rawdoc : forall c e nm table fs file num bs, well_dictionaries c e -> naming c e nm -> available c table fs file num bs ->
  let acc := firstn 5 num in
  exists b1, last_such (fun x => block_number x = acc ++ tx "001") bs b1 /\
    let r := get_entry e nm (retrieve (X4Entry e) table fs) fs (mkArguments (Some num) None file false false false true false false) in
    (without_authors (concat b1) -> r = ([PText [ascii_of_N 10; ascii_of_N 10]], Raise AttributeError)) /\
    (~ without_authors (concat b1) -> exists s t, X4SubEntry e (concat b1) = Ok s /\ subentry_repr s = Ok t /\ r = ([PText [ascii_of_N 10; ascii_of_N 10]; PText t], Ok tt)).
Proof. intros c e nm table fs file num bs D N. exact (rawdoc_printed c e nm D N table fs file num bs). Qed.
Print Assumptions C98_rawdoc.

(** -e: the subentries that the index has of the entry, and subentry 001, in the order of the file. *)
Theorem C98_entry : forall c e nm table fs acc bs, well_dictionaries c e -> naming c e nm -> plain_text acc ->
  (exists r, In r table /\ r_entry r = Some acc) -> (forall r, In r table -> r_entry r = Some acc -> firstn 5 (r_subent r) = acc) -> well_file c fs acc bs ->
  exists nums, listed_numbers bs (fun x => x = acc ++ tx "001" \/ exists r, In r table /\ r_entry r = Some acc /\ r_subent r = x) nums /\
    get_entry e nm (retrieve (X4Entry e) table fs) fs (mkArguments None (Some acc) false false false false false false false) =
      (PText (tx "This ENTRY:       " ++ acc) :: map (fun num => PText (tx "    " ++ num)) nums, Ok tt).
Proof. intros c e nm table fs acc bs D N. exact (keys_printed c e nm D N table fs acc bs). Qed.
Print Assumptions C98_entry.

(** --raw: only the numbers of the two subentries. *)
Theorem C98_raw : forall c e nm table fs num bs, well_dictionaries c e -> naming c e nm -> available c table fs false num bs ->
  let acc := firstn 5 num in
  exists nums, listed_numbers bs (fun x => x = acc ++ tx "001" \/ x = num) nums /\
    get_entry e nm (retrieve (X4Entry e) table fs) fs (mkArguments (Some num) None false true false false false false false) =
      ([PText [ascii_of_N 10; ascii_of_N 10]; PText (Names.between [ascii_of_N 10] nums)], Ok tt).
Proof. intros c e nm table fs num bs D N. exact (raw_printed c e nm D N table fs num bs). Qed.
Print Assumptions C98_raw.

(** -f --raw: the texts of all subentries of the entry. *)
Theorem C98_raw_file : forall c e nm table fs num bs, length num = 8 -> well_file c fs (firstn 5 num) bs ->
  get_entry e nm (retrieve (X4Entry e) table fs) fs (mkArguments (Some num) None true true false false false false false) =
    ([PText [ascii_of_N 10; ascii_of_N 10]; PText (Names.between [ascii_of_N 10] (map (@concat ascii) bs))], Ok tt).
Proof. exact raw_file_printed. Qed.
Print Assumptions C98_raw_file.

(** A number that is not in the index, whichever of the options are given. *)
Theorem C98_absent : forall e nm table fs num rawdata data rawdoc doc, length num = 8 -> plain_text num -> ~ In num (map r_subent table) ->
  (rawdoc = true \/ doc = true \/ num <> firstn 5 num ++ tx "001") ->
  snd (get_entry e nm (retrieve (X4Entry e) table fs) fs (mkArguments (Some num) None false false rawdata data rawdoc doc false)) =
    if rawdata || data || rawdoc || doc then Raise IndexError else Ok tt.
Proof.
  intros e nm table fs num ad dd rd dc L P A M. rewrite (absent_printed e nm table fs num ad dd rd dc L P A).
  assert (E : rd || dc = true \/ endswith num (tx "001") = false).
  { destruct M as [->|[->|M]]; [now left|left; apply orb_true_r|right]. apply not_true_is_false. intro H. apply (endswith_main num L) in H. contradiction. }
  destruct rd, dc, ad, dd; try reflexivity; (destruct E as [E|E]; [discriminate E|]); rewrite E; reflexivity.
Qed.
Print Assumptions C98_absent.
Theorem C98_absent_entry : forall e nm table fs acc, length acc = 5 -> plain_text acc -> (forall r, In r table -> r_entry r <> Some acc) ->
  get_entry e nm (retrieve (X4Entry e) table fs) fs (mkArguments None (Some acc) false false false false false false false) = ([], Raise IndexError).
Proof. exact absent_entry. Qed.
Print Assumptions C98_absent_entry.

(** -c: whatever is to be printed, TypeError (C17). *)
Theorem C98_compressed : forall e nm mk table t cache fs num raw rawdata data rawdoc doc nada x ls,
  length num = 8 -> plain_text num -> In num (map r_subent table) -> snd (cache_getitem t (x4_path (firstn 5 num)) cache) = Ok (x :: ls) ->
  get_entry e nm (fun crit => snd (retrieve_cached mk table t crit cache)) fs (mkArguments (Some num) None false raw rawdata data rawdoc doc nada) = ([], Raise TypeError).
Proof. exact compressed_printed. Qed.
Print Assumptions C98_compressed.

(** ** Examples *)

Example C98_available : available shipped iron_table pointed_files false (tx "10001002") pointed_blocks /\
  available shipped iron_table pointed_files true (tx "10001002") pointed_blocks /\ available shipped iron_table pointed_files true (tx "10001001") pointed_blocks.
Proof.
  destruct C95_stored as (W & F & _). split; [|split]; constructor; try reflexivity; try exact W; try discriminate; try (repeat constructor; vm_compute; intuition discriminate).
Qed.
Example C98_index : let table := [iron_row "10001002" "N,2N"] in (exists r, In r table /\ r_entry r = Some (tx "10001")) /\
  (forall r, In r table -> r_entry r = Some (tx "10001") -> firstn 5 (r_subent r) = tx "10001") /\ well_file shipped pointed_files (tx "10001") pointed_blocks /\
  ~ In (tx "10001004") (map r_subent table).
Proof.
  split; [eexists; split; [now left|reflexivity]|]. split; [|split; [exact (proj1 C95_stored)|vm_compute; intuition discriminate]].
  intros r [<-|[]] _. reflexivity.
Qed.

Definition lines_of_print (p : printed) : list string :=
  match p with
  | PText s => map string_of_list_ascii (split_char nl s)
  | PErrors [] => ["{}"]
  | PErrors _ => ["{..}"]
  | PSets l => concat (map (fun kt => map string_of_list_ascii (split_char nl (snd kt))) l)
  end.
Definition running (a : arguments) : list string * option exn :=
  let r := get_entry P12_Names.e1 pointed_names (retrieve (X4Entry P12_Names.e1) [iron_row "10001002" "N,2N"] pointed_files) pointed_files a in
  (concat (map lines_of_print (fst r)), match snd r with Ok _ => None | Raise e => Some e end).

(** Pointer 1 of subentry 002, the third of the data sets that are printed. *)
Example C98_example : (firstn 12 (skipn 12 (fst (running (mkArguments (Some (tx "10001002")) None false false false true false false false)))),
                       running (mkArguments (Some (tx "10001002")) None false false true false false false false)) =
  (["Authors:   N, o, n, e"; "Title:     Cross Sections Of Iron"; "Year:      None"; "Institute: None"; "Reference: None"; "Subent:    10001002 ";
    "Reaction:  (26-FE-56(N,2N)26-FE-55,SIG)"; "[['EN-RSL','EN','DATA','DATA-ERR'],"; "['KEV','MEV','MB','PER-CENT'],";
    "[14700.0,14.0,440.0,5.0],"; "[14700.0,14.5,460.0,None]]"; "Authors:   N, o, n, e"],
   (["---------- Raw Data ----------"; "DATA                 7          2"; "EN         DATA      1DATA-ERR  1DATA      2DATA      3DATA      4ANG       3";
     "MEV        MB         PER-CENT   NO-DIM     MB/SR      MB/SR      ADEG       "; "14.0       440.0      5.0        2.5        None       1.0        30.0       ";
     "14.5       460.0      None       None       None       None       60.0       "; "ENDDATA              4"; "---------- Errors ----------"; "{}"], None)).
Proof. vm_compute. reflexivity. Qed.

(** The documentation of subentry 002 that is printed is that of subentry 001; the raw file of a subentry
    that is printed consists of two numbers. *)
Theorem C98_help_refuted : exists num1 num2 : str, num1 <> num2 /\
  running (mkArguments (Some num2) None true false false false false true false) = running (mkArguments (Some num1) None true false false false false true false) /\
  In "SUBENT     10001001   " (fst (running (mkArguments (Some num2) None true false false false false true false))) /\
  running (mkArguments (Some num2) None false true false false false false false) = ([""; ""; ""; "10001001"; "10001002"], None) /\
  length (fst (running (mkArguments (Some num2) None true true false false false false false))) = 35.
Proof. exists (tx "10001001"), (tx "10001002"). split; [discriminate|]. vm_compute. intuition. Qed.
Print Assumptions C98_help_refuted.

Example C98_numbers : running (mkArguments None (Some (tx "10001")) false false false false false false false) =
    (["This ENTRY:       10001"; "    10001001"; "    10001002"], None) /\
  running (mkArguments None (Some (tx "10002")) false false false false false false false) = ([], Some IndexError) /\
  running (mkArguments (Some (tx "10001004")) None false false false true false false false) = (["---------- Data ----------"], Some IndexError) /\
  running (mkArguments (Some (tx "10001001")) None true false false true false false false) = ([], Some ValueError).
Proof. vm_compute. intuition. Qed.

(** -c, with the tree of files of C17. *)
Example C98_compressed_example : let num := tx "10001001" in In num (map r_subent [w_row num]) /\
  (exists x ls, snd (cache_getitem (Some w_tree) (x4_path (firstn 5 num)) empty_cache) = Ok (x :: ls)) /\
  get_entry P12_Names.e1 pointed_names (fun crit => snd (retrieve_cached (fun _ => Raise KeyError) [w_row num] (Some w_tree) crit empty_cache)) pointed_files
    (mkArguments (Some num) None false false false true false false false) = ([], Raise TypeError).
Proof. split; [now left|]. split; [|vm_compute; reflexivity]. eexists _, _. vm_compute. reflexivity. Qed.
