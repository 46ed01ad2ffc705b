(** Property C95: from a search to the numbers. *)
From Coq Require Import String List Ascii NArith ZArith Bool Arith Sorted.
From Coq Require Import Floats.SpecFloat.
From Verif.Model Require Import Py PyFloat Dicts Storage Sql Manager Particle Reaction Field Section Entry Columns Dataset Print Pyparsing Grammars Shipped Library ShippedDicts.
From Verif.Spec Require Import Text Exfor Tables DataSets Merging Codes General Known GeneralKnown Query Files Document WellWritten Printable Stored Pointed Found.
From Verif.Spec Require Readings.
From Verif.Proofs Require Import StrLemmas ManagerLemmas DocumentCheck KnownCheck GeneralCheck WellCheck Decide LibraryLemmas RetrieveLemmas StoredCheck PointedLemmas PointedCheck FoundLemmas.
From Verif.Properties Require P11_Grammars P12_Names P23_WellWritten.
From Verif.Properties Require Import P15_Document P25_Library P26_General P28_Retrieved P30_Pointed.
Import ListNotations.
Local Open Scope string_scope.
Local Open Scope list_scope.
Local Open Scope nat_scope.

(** A search for entries and their data sets: the entries with a matching row; in each of them the
    matching subentries, with the reactions and the numbers that stand in the file. *)
Theorem C95_search : forall c e nm table fs crit, well_dictionaries c e -> naming c e nm -> clean_criteria crit -> used_values crit <> [] ->
  let hit num := exists r, In r table /\ row_matches crit r /\ r_subent r = num in
  (forall num, hit num -> exists bs, well_file c fs (firstn 5 num) bs) ->
  exists r, retrieve (X4Entry e) table fs crit = Ok r /\
    (forall acc, In acc (map fst r) <-> exists num, hit num /\ firstn 5 num = acc) /\
    forall acc n bs, In (acc, n) r -> well_file c fs acc bs ->
      let wanted num := num = acc ++ tx "001" \/ hit num /\ firstn 5 num = acc in
      entry_gives c nm acc bs wanted n /\
      forall acos mk, Forall (fun b => simple_subentry acos (concat b)) bs -> entry_gives_simplified c nm acos mk acc bs wanted n.
Proof. intros c e nm table fs crit D N. exact (search_numbers c e nm D N table fs crit). Qed.
Print Assumptions C95_search.

(** With the dictionaries that are shipped. *)
Theorem C95_shipped : forall depth e nm table fs crit, 0 < depth -> load shipped_dir depth = Ok (shipped, e, nm) ->
  clean_criteria crit -> used_values crit <> [] ->
  let hit num := exists r, In r table /\ row_matches crit r /\ r_subent r = num in
  (forall num, hit num -> exists bs, well_file shipped fs (firstn 5 num) bs) ->
  exists r, retrieve (X4Entry e) table fs crit = Ok r /\
    (forall acc, In acc (map fst r) <-> exists num, hit num /\ firstn 5 num = acc) /\
    forall acc n bs, In (acc, n) r -> well_file shipped fs acc bs ->
      let wanted num := num = acc ++ tx "001" \/ hit num /\ firstn 5 num = acc in
      entry_gives shipped nm acc bs wanted n /\
      forall acos mk, Forall (fun b => simple_subentry acos (concat b)) bs -> entry_gives_simplified shipped nm acos mk acc bs wanted n.
Proof.
  intros depth e nm table fs crit DP L. destruct (loaded_is _ _ _ DP L) as (D & N). exact (C95_search shipped e nm table fs crit D N).
Qed.
Print Assumptions C95_shipped.

(** One subentry, db[number]. *)
Theorem C95_subentry : forall c e nm table fs i bs, well_dictionaries c e -> naming c e nm ->
  let num := match i with KStr s => s | KInt z => z_to_str z end in
  let acc := firstn 5 num in
  length num = 8 -> plain_text num -> In num (map r_subent table) -> well_file c fs acc bs ->
  exists n, db_getitem (X4Entry e) table fs i = Ok [(acc, n)] /\
    let wanted x := x = acc ++ tx "001" \/ x = num in
    entry_gives c nm acc bs wanted n /\
    forall acos mk, Forall (fun b => simple_subentry acos (concat b)) bs -> entry_gives_simplified c nm acos mk acc bs wanted n.
Proof. intros c e nm table fs i bs D N. exact (subentry_numbers c e nm D N table fs i bs). Qed.
Print Assumptions C95_subentry.

(** A file by itself, x4EntryFactory(number). *)
Theorem C95_file : forall c e nm fs acc bs, well_dictionaries c e -> naming c e nm -> well_file c fs acc bs ->
  Forall (fun b => firstn 5 (block_number b) = acc) bs ->
  exists n, x4EntryFactory (X4Entry e) fs acc None = Ok n /\ entry_gives c nm acc bs (fun _ => True) n /\
    forall acos mk, Forall (fun b => simple_subentry acos (concat b)) bs -> entry_gives_simplified c nm acos mk acc bs (fun _ => True) n.
Proof. intros c e nm fs acc bs D N W. exact (file_numbers c e nm D N fs acc bs W). Qed.
Print Assumptions C95_file.

(** rawEntry=True and X4Entry afterwards: the same entries. *)
Theorem C95_raw : forall e table fs crit r, retrieve (X4Entry e) table fs crit = Ok r ->
  exists rr, retrieve (@Ok (list str)) table fs crit = Ok rr /\
    Forall2 (fun kn kt => fst kn = fst kt /\ X4Entry e (snd kt) = Ok (snd kn)) r rr.
Proof. intros e. exact (raw_entries entry (X4Entry e)). Qed.
Print Assumptions C95_raw.

(** X4Entry of what is an entry already (as examples/plotX4.py has it): a dict yields its keys, which are
    not subentries. *)
Theorem C95_twice : forall c e nm table fs crit, well_dictionaries c e -> naming c e nm -> clean_criteria crit -> used_values crit <> [] ->
  (forall r, In r table -> row_matches crit r -> exists bs, well_file c fs (firstn 5 (r_subent r)) bs) ->
  exists r, retrieve (X4Entry e) table fs crit = Ok r /\
    forall acc n, In (acc, n) r -> exists keys, map fst (n_subs n) = map Some keys /\ X4Entry e keys = Raise KeyError.
Proof. intros c e nm table fs crit D N. exact (search_twice c e nm D N table fs crit). Qed.
Print Assumptions C95_twice.

(** ** Examples *)

(** The file of the entry of C94, and an index with its two subentries. *)
Definition pointed_blocks : list (list str) := [lines_in pointed_main; lines_in pointed_text].
Definition pointed_lines : list str := terminated (tx "ENTRY            10001   20200101") :: concat pointed_blocks ++ [terminated (tx "ENDENTRY             2")].
Definition pointed_files (dir name : str) : option str :=
  if str_eqb dir (tx "100") && str_eqb name (tx "10001") then Some (concat pointed_lines) else None.

Example C95_stored : well_file shipped pointed_files (tx "10001") pointed_blocks /\
  Forall (fun b => firstn 5 (block_number b) = tx "10001") pointed_blocks /\
  (forall acos, (forall x, cosine x -> acos x <> None) -> Forall (fun b => simple_subentry acos (concat b)) pointed_blocks).
Proof.
  split; [constructor; [reflexivity| | |]|split].
  - exists (concat pointed_lines), pointed_lines. split; [vm_compute; reflexivity|]. split.
    + replace pointed_lines with (map terminated (tx "ENTRY            10001   20200101" :: (split_char nl pointed_main ++ split_char nl pointed_text) ++ [tx "ENDENTRY             2"]))
        by (vm_compute; reflexivity). apply stored_terminated. vm_compute. reflexivity.
    + apply file_ok; vm_compute; reflexivity.
  - repeat (apply Forall_cons; [apply block_check; [apply subentry_okb_ok; vm_compute; reflexivity|vm_compute; reflexivity]|]). constructor.
  - exists (lines_in pointed_main), (nth 0 (sections_in pointed_main) []). split.
    + apply (lastb_ok _ _ (fun b => str_eqb (block_number b) (tx "10001001"))); [intros y; symmetry; apply str_eqb_eq|vm_compute; reflexivity].
    + apply has_sectionb. vm_compute. reflexivity.
  - repeat (apply Forall_cons; [vm_compute; reflexivity|]). constructor.
  - intros acos A. repeat (apply Forall_cons; [apply simple_subentry_check; [exact A|vm_compute; reflexivity]|]). constructor.
Qed.

(** Pointer 1 is written in full. *)
Example C95_written : block_written shipped (tx "10001") pointed_blocks (tx "10001002") "1" (One iron_2n) [] CrossSection
  (pointed_set "1" [("EN-RSL", "KEV")] [] resolution [] pointed_heads pointed_rows).
Proof.
  split; [discriminate|]. exists (lines_in pointed_text), (lines_in pointed_main).
  split; [apply (lastb_ok _ _ (fun b => str_eqb (block_number b) (tx "10001002"))); [intros y; symmetry; apply str_eqb_eq|vm_compute; reflexivity]|].
  split; [apply (lastb_ok _ _ (fun b => str_eqb (block_number b) (tx "10001001"))); [intros y; symmetry; apply str_eqb_eq|vm_compute; reflexivity]|].
  split.
  - eexists _, [tx "SIG"]. split; [left; apply stated_check; vm_compute; reflexivity|]. destruct C94_reactions as ((code & _ & X) & _ & _ & Q & _ & _ & K & _).
    split; [|split; [exact Q|exact K]]. split; [apply good_generalb_ok; vm_compute; reflexivity|]. split; [apply known_generalb_ok; vm_compute; reflexivity|].
    apply (in_fieldb_ok _ (tx "(26-FE-56(N,2N)26-FE-55,,SIG)") []). vm_compute. reflexivity.
  - exists pointed_data, [("EN-RSL", "KEV")], [], resolution, [], pointed_heads, pointed_rows. split.
    { apply common_pointed. right. exists (nth 1 (sections_in pointed_main) []). split; [apply has_sectionb; vm_compute; reflexivity|].
      apply (writtenb_ok _ _ [[tx "1.4700E+04"]] 3); [vm_compute; reflexivity|].
      apply Forall2_cons; [|constructor]. apply Forall2_cons; [|constructor]. apply value_ok. vm_compute. reflexivity. }
    split; [apply common_pointed; left; split; [reflexivity|split; [reflexivity|apply no_sectionb; vm_compute; reflexivity]]|].
    split; [apply has_sectionb; vm_compute; reflexivity|]. split; [|reflexivity]. apply (pointedb_ok _ _ _ 2). vm_compute. reflexivity.
Qed.

(** It has values, so db['10001002'] gives its cross section in MeV and barns. *)
Example C95_values : wanted_columns CrossSection <> [] /\
  forallb (Readings.has_values (fun x => Some x) (pointed_set "1" [("EN-RSL", "KEV")] [] resolution [] pointed_heads pointed_rows)) (Readings.quantities CrossSection) = true /\
  match db_getitem (X4Entry P12_Names.e1) iron_table pointed_files (KInt 10001002) with
  | Ok [(acc, n)] => acc = tx "10001" /\
      match getSimplifiedDataSets pointed_names (fun x => Some x) false n [] store0 with
      | Ok (ds, _, _, _) =>
          option_map (fun d => (map string_of_list_ascii (t_labels (ds_table d)), map (option_map string_of_list_ascii) (t_units (ds_table d)),
                                map (fun r => firstn 2 r) (t_data (ds_table d)))) (dget key_eqb (tx "10001", Some (tx "10001002"), "1"%char) ds) =
          Some (["Energy"; "Data"; "d(Energy)"; "d(Data)"], [Some "MeV"; Some "barns"; Some "MeV"; Some "barns"],
                [[VFloat (fl 14 0); VFloat (fmul (fl 440 0) (fl 1 (-3)))]; [VFloat (fl 145 (-1)); VFloat (fmul (fl 460 0) (fl 1 (-3)))]])
      | Raise _ => False
      end /\ X4Entry P12_Names.e1 [tx "10001001"; tx "10001002"] = Raise KeyError
  | _ => False
  end.
Proof. split; [discriminate|]. vm_compute. auto. Qed.
