(** Property C92: what a search finds in the files is read, is what was asked for, and can be
    printed. *)
From Coq Require Import String List Ascii NArith ZArith Bool Arith Sorted.
From Verif.Model Require Import Py PyFloat Dicts Storage Sql Manager Particle Reaction Field Section Entry Columns Dataset Print Pyparsing Grammars Shipped Library ShippedDicts.
From Verif.Spec Require Import Text Exfor Codes Query Files Document WellWritten Printable Stored.
From Verif.Proofs Require Import StrLemmas FieldLemmas ManagerLemmas DocumentCheck WellCheck LibraryLemmas RetrieveLemmas StoredCheck.
From Verif.Properties Require Import P15_Document P23_WellWritten P25_Library.
Import ListNotations.
Local Open Scope string_scope.
Local Open Scope list_scope.
Local Open Scope nat_scope.

(** A file by itself: x4EntryFactory(enum). *)
Theorem C92_file : forall c e nm fs acc bs, well_dictionaries c e -> naming c e nm -> well_file c fs acc bs ->
  Forall (fun b => firstn 5 (block_number b) = acc) bs ->
  exists n, x4EntryFactory (X4Entry e) fs acc None = Ok n /\ entry_holding e acc bs (fun _ => True) n /\ entry_usable nm acc (fun _ => True) n.
Proof. intros c e nm fs acc bs D N W. exact (file_entry c e nm D N fs acc bs W). Qed.
Print Assumptions C92_file.

(** A search: if the files of the entries that the index names keep to the format, the answer has
    exactly the entries with a matching row, each with subentry 001 and exactly the matching
    subentries, and every data set of them can be had and printed. *)
Theorem C92_search : forall c e nm table fs crit, well_dictionaries c e -> naming c e nm -> clean_criteria crit -> used_values crit <> [] ->
  let hit num := exists r, In r table /\ row_matches crit r /\ r_subent r = num in
  (forall num, hit num -> exists bs, well_file c fs (firstn 5 num) bs) ->
  exists r, retrieve (X4Entry e) table fs crit = Ok r /\ StronglySorted str_lt (map fst r) /\
    (forall acc, In acc (map fst r) <-> exists num, hit num /\ firstn 5 num = acc) /\
    forall acc n bs, In (acc, n) r -> well_file c fs acc bs ->
      let wanted num := num = acc ++ tx "001" \/ hit num /\ firstn 5 num = acc in
      entry_holding e acc bs wanted n /\ entry_usable nm acc wanted n.
Proof.
  intros c e nm table fs crit D N C U hit H. destruct (search_entries c e nm D N table fs crit C U H) as (r & R & S & K & V).
  exists r. split; [exact R|]. split; [exact S|]. split; [exact K|]. intros acc n bs I W. destruct (V acc n bs I W) as (A & B & _). split; assumption.
Qed.
Print Assumptions C92_search.

(** With the dictionaries that are shipped. *)
Theorem C92_shipped : forall depth e nm table fs crit, 0 < depth -> load shipped_dir depth = Ok (shipped, e, nm) ->
  clean_criteria crit -> used_values crit <> [] ->
  let hit num := exists r, In r table /\ row_matches crit r /\ r_subent r = num in
  (forall num, hit num -> exists bs, well_file shipped fs (firstn 5 num) bs) ->
  exists r, retrieve (X4Entry e) table fs crit = Ok r /\ StronglySorted str_lt (map fst r) /\
    (forall acc, In acc (map fst r) <-> exists num, hit num /\ firstn 5 num = acc) /\
    forall acc n bs, In (acc, n) r -> well_file shipped fs acc bs ->
      let wanted num := num = acc ++ tx "001" \/ hit num /\ firstn 5 num = acc in
      entry_holding e acc bs wanted n /\ entry_usable nm acc wanted n.
Proof.
  intros depth e nm table fs crit DP L. destruct (loaded_is _ _ _ DP L) as (D & N). exact (C92_search shipped e nm table fs crit D N).
Qed.
Print Assumptions C92_shipped.

(** ** Examples *)

(** The file of the entry of C87, with a third subentry. *)
Definition lines_in (text : str) : list str := map terminated (split_char nl text).
Definition third : str := text_of
  ["SUBENT        10001003   20200101";
   "NOBIB                0          0";
   "ENDSUBENT            1"].
Definition iron_blocks : list (list str) := [lines_in rich_main; lines_in rich_data; lines_in third].
Definition iron_lines : list str := terminated (tx "ENTRY            10001   20200101") :: concat iron_blocks ++ [terminated (tx "ENDENTRY             3")].
Definition iron_files (dir name : str) : option str :=
  if str_eqb dir (tx "100") && str_eqb name (tx "10001") then Some (concat iron_lines) else None.
Definition iron_row (num reaction : string) : row :=
  mkRow (Some (tx "10001")) (tx num) None (Some (tx "Doe")) (Some (tx reaction)) (Some (tx "N")) (Some (tx "FE-56")) (Some (tx "SIG")).
Definition iron_table : list row := [iron_row "10001002" "N,2N"; iron_row "10001003" "N,P"; iron_row "20002002" "P,G"].

Example C92_iron : well_file shipped iron_files (tx "10001") iron_blocks.
Proof.
  destruct C87_hypotheses as (_ & [_ W _] & _). pose proof (Forall_inv W) as W1. pose proof (Forall_inv (Forall_inv_tail W)) as W2.
  constructor; [reflexivity| | |].
  - exists (concat iron_lines), iron_lines. split; [vm_compute; reflexivity|]. split.
    + replace iron_lines with (map terminated (tx "ENTRY            10001   20200101" :: (split_char nl rich_main ++ split_char nl rich_data ++ split_char nl third) ++ [tx "ENDENTRY             3"]))
        by (vm_compute; reflexivity). apply stored_terminated. vm_compute. reflexivity.
    + apply file_ok; vm_compute; reflexivity.
  - assert (X : forall text text' num, numberedb num text' = true -> sections_in text' = sections_in text -> Forall (well_section shipped) (sections_in text) -> well_subentry shipped text').
    { intros text text' num Nb E F. apply (well_subentry_check _ num); [exact Nb|]. now rewrite E. }
    apply Forall_cons; [|apply Forall_cons; [|apply Forall_cons; [|constructor]]]; (apply block_check; [|vm_compute; reflexivity]).
    + apply (X rich_main _ (tx "10001001")); [vm_compute; reflexivity|vm_compute; reflexivity|exact (sections_of _ _ W1)].
    + apply (X rich_data _ (tx "10001002")); [vm_compute; reflexivity|vm_compute; reflexivity|exact (sections_of _ _ W2)].
    + apply (X third _ (tx "10001003")); [vm_compute; reflexivity|vm_compute; reflexivity|constructor].
  - exists (lines_in rich_main), main_bib. split.
    + apply (lastb_ok _ _ (fun b => str_eqb (block_number b) (tx "10001001"))); [intros y; symmetry; apply str_eqb_eq|vm_compute; reflexivity].
    + apply has_sectionb. vm_compute. reflexivity.
Qed.

(** A search for (n,2n) reactions on iron finds it, with subentries 001 and 002, not 003. *)
Definition wanting (reaction : string) : criteria := mkCriteria None (Some (tx reaction)) (Some (tx "fe-56")) None None None None None None None None None None.
Example C92_clean : clean_criteria (wanting "n,2n") /\ used_values (wanting "n,2n") <> [] /\
  forall num, (exists r, In r iron_table /\ row_matches (wanting "n,2n") r /\ r_subent r = num) -> exists bs, well_file shipped iron_files (firstn 5 num) bs.
Proof.
  split; [split|split; [discriminate|]].
  - repeat constructor; vm_compute; intuition discriminate.
  - intros v E. vm_compute in E. injection E as <-. intros I. vm_compute in I. intuition discriminate.
  - intros num (r & I & (_ & _ & M & _) & <-). destruct (M _ eq_refl) as [M1 _].
    assert (M' : r_reaction r = Some (tx "N,2N")) by (apply M1; vm_compute; intuition discriminate).
    destruct I as [<-|[<-|[<-|[]]]]; [|vm_compute in M'; discriminate|vm_compute in M'; discriminate].
    exists iron_blocks. exact C92_iron.
Qed.
Example C92_found :
  match retrieve (X4Entry P12_Names.e1) iron_table iron_files (wanting "n,2n") with
  | Ok [(acc, n)] => acc = tx "10001" /\ map fst (n_subs n) = [Some (tx "10001001"); Some (tx "10001002")] /\
      match getDataSets nm1 n [] with
      | Ok (ds, errs, _) => map fst ds = [(tx "10001", Some (tx "10001002"), " "%char)] /\ errs = []
      | Raise _ => False
      end
  | _ => False
  end.
Proof. vm_compute. auto. Qed.
(** One entry of the answer whose file is missing, and there is no answer at all. *)
Example C92_missing : retrieve (X4Entry P12_Names.e1) iron_table iron_files (by_subent (tx "20002002")) = Raise OSError.
Proof. vm_compute. reflexivity. Qed.
