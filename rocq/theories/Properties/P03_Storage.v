(** Properties of entry retrieval from files, of the in-memory copy of the database and of
    its download: C16, C17, C18, C61.  Statements only; the proofs are in StorageLemmas. *)
From Coq Require Import String List Ascii NArith Bool Arith.
From Verif.Model Require Import Py Utilities Sql Manager Storage.
From Verif.Spec Require Import Text Query Files.
From Verif.Proofs Require Import StorageLemmas.
Import ListNotations.
Local Open Scope list_scope.

(** C16: one entry file. *)
Theorem C16_entry_file_raw : forall fs enum sel content ls bs,
  length enum = 5 -> fs (firstn 3 enum) enum = Some content -> stored content ls -> entry_file ls bs ->
  x4EntryFactory (@Ok (list str)) fs enum sel =
  Ok (map (@concat ascii)
       (filter (fun b => match sel with None => true | Some l => smem (block_number b) l end) bs)).
Proof. intros fs enum sel content ls bs. exact (factory_spec (list str) (@Ok (list str)) fs enum sel content ls bs). Qed.
Print Assumptions C16_entry_file_raw.

(** C16: a whole retrieve, rawEntry=True: the entries of the query in its order, each with
    exactly the selected blocks of its file. *)
Theorem C16_retrieve_raw : forall table fs c m,
  query table c = Ok m ->
  (forall e l, In (e, l) m -> length e = 5 /\ exists content ls bs,
     fs (firstn 3 e) e = Some content /\ stored content ls /\ entry_file ls bs) ->
  exists r, retrieve (@Ok (list str)) table fs c = Ok r /\ map fst r = map fst m /\
    forall e l text content ls bs, In (e, l) m -> In (e, text) r ->
      fs (firstn 3 e) e = Some content -> stored content ls -> entry_file ls bs ->
      text = map (@concat ascii) (filter (fun b => smem (block_number b) l) bs).
Proof. exact retrieve_raw. Qed.
Print Assumptions C16_retrieve_raw.

Theorem C16_bad_number : forall (E : Type) (mk : list str -> res E) fs enum sel,
  length enum <> 5 -> x4EntryFactory mk fs enum sel = Raise ValueError.
Proof. exact factory_bad_length. Qed.
Print Assumptions C16_bad_number.

Definition ex_line (s : string) : str := lit s ++ [ascii_of_N 10].
Definition ex_block1 := [ex_line "SUBENT        10001001   20000101"; ex_line "BIB"; ex_line "ENDSUBENT"].
Definition ex_block2 := [ex_line "SUBENT        10001002   20000101"; ex_line "DATA"; ex_line "ENDSUBENT"].
Definition ex_lines := ex_line "ENTRY            10001   20000101" ::
  ex_block1 ++ ex_line "NOSUBENT      10001003" :: ex_block2 ++ [ex_line "ENDENTRY"].

Ltac no_start := intros (r & E); vm_compute in E; discriminate E.
Ltac no_frame := intros [(r & E)|[(r & E)|(r & E)]]; vm_compute in E; discriminate E.

Example C16_example : entry_file ex_lines [ex_block1; ex_block2] /\
  stored (concat ex_lines) ex_lines /\
  x4EntryFactory (@Ok (list str)) (fun _ _ => Some (concat ex_lines)) (lit "10001") (Some [lit "10001002"])
  = Ok [concat ex_block2].
Proof.
  split; [|split].
  - unfold ex_lines. apply ef_frame; [left; eexists; vm_compute; reflexivity|].
    apply ef_block.
    { exists (ex_line "SUBENT        10001001   20000101"), [ex_line "BIB"], (ex_line "ENDSUBENT").
      split; [reflexivity|]. split; [eexists; vm_compute; reflexivity|]. split; [eexists; vm_compute; reflexivity|].
      repeat constructor; [no_frame|no_start|no_start]. }
    apply ef_frame; [right; right; eexists; vm_compute; reflexivity|].
    apply (ef_block ex_block2 [ex_line "ENDENTRY"] []).
    { exists (ex_line "SUBENT        10001002   20000101"), [ex_line "DATA"], (ex_line "ENDSUBENT").
      split; [reflexivity|]. split; [eexists; vm_compute; reflexivity|]. split; [eexists; vm_compute; reflexivity|].
      repeat constructor; [no_frame|no_start|no_start]. }
    apply ef_frame; [right; left; eexists; vm_compute; reflexivity|]. constructor.
  - unfold ex_lines, ex_block1, ex_block2, ex_line. cbn [app concat]. rewrite <- !app_assoc.
    repeat (apply st_line; [vm_compute; intuition discriminate|vm_compute; intuition discriminate|now left|]).
    constructor.
  - vm_compute. reflexivity.
Qed.

(** C17: REFUTED.  On the same files the plain manager returns the entry and the in-memory
    one raises TypeError. *)
Theorem C17_memory_equals_plain_refuted : exists table t fs c content text,
  tree_files t = Some [(lit "100/10001.x4", content)] /\
  fs (lit "100") (lit "10001") = Some content /\
  retrieve (@Ok (list str)) table fs c = Ok [(lit "10001", [text])] /\
  snd (retrieve_cached (@Ok (list pytext)) table (Some t) c empty_cache) = Raise TypeError.
Proof. exact memory_refuted. Qed.
Print Assumptions C17_memory_equals_plain_refuted.

(** The failure is general: the first matching entry whose file is not empty. *)
Theorem C17_memory_always_fails : forall (E : Type) (mk : list pytext -> res E) table t cr c e l m x ls,
  query table cr = Ok ((e, l) :: m) -> length e = 5 ->
  snd (cache_getitem t (x4_path e) c) = Ok (x :: ls) ->
  snd (retrieve_cached mk table t cr c) = Raise TypeError.
Proof. exact cached_type_error. Qed.
Print Assumptions C17_memory_always_fails.

(** What is left of the property: queries without a match. *)
Theorem C17_memory_equals_plain_partial :
  forall (E : Type) (mk : list pytext -> res E) (mk' : list str -> res E) table t fs cr c,
  query table cr = Ok [] ->
  snd (retrieve_cached mk table t cr c) = Ok [] /\ retrieve mk' table fs cr = Ok [].
Proof. exact cached_no_match. Qed.
Print Assumptions C17_memory_equals_plain_partial.

Example C17_example : query [] (by_entry (lit "10001")) = Ok [] /\
  query [w_row (lit "10001001")] (by_entry (lit "10001")) = Ok [(lit "10001", [lit "10001001"])] /\
  snd (cache_getitem (Some w_tree) (x4_path (lit "10001")) empty_cache) = Ok (readlines w_file).
Proof. repeat split; vm_compute; reflexivity. Qed.

(** C18: the first lookup that finds the whole database readable fixes the contents, whatever
    the disk is at the other lookups.  Keys that earlier, failing loads had come across are
    left out of the KeyError clause. *)
Theorem C18_lazy_cache_partial : forall before t0 k0 after t k files,
  (forall t' k', In (t', k') before -> disk_files t' = None) ->
  disk_files t0 = Some files -> NoDup (map fst files) ->
  let c := run_lookups (before ++ (t0, k0) :: after) empty_cache in
  (forall content, In (k, content) files -> snd (cache_getitem t k c) = Ok (readlines content)) /\
  (~ In k (map fst files) -> (forall t' k', In (t', k') before -> ~ mentions t' k) ->
     snd (cache_getitem t k c) = Raise KeyError).
Proof. exact cache_history. Qed.
Print Assumptions C18_lazy_cache_partial.

(** While nothing has been loaded, an unreadable database is an error at every lookup. *)
Theorem C18_failed_load_retried : forall h t k,
  (forall t' k', In (t', k') h -> disk_files t' = None) -> disk_files t = None ->
  snd (cache_getitem t k (run_lookups h empty_cache)) = Raise OSError.
Proof. exact cache_unreadable. Qed.
Print Assumptions C18_failed_load_retried.

(** REFUTED in full: a file seen by a failed load and deleted before the successful one is
    still served. *)
Theorem C18_lazy_cache_refuted : exists h t k files, disk_files t = Some files /\ NoDup (map fst files) /\
  ~ In k (map fst files) /\
  (forall t' k', In (t', k') h -> disk_files t' = None) /\
  snd (cache_getitem t k (run_lookups h empty_cache)) <> Raise KeyError.
Proof. exact stale_key. Qed.
Print Assumptions C18_lazy_cache_refuted.

Example C18_example :
  let t := Some [(lit "100", Some [(lit "a.x4", Some (lit "x" ++ [ascii_of_N 10] ++ lit "y"))])] in
  let c := run_lookups [(None, lit "100/a.x4"); (t, lit "zzz"); (None, lit "q")] empty_cache in
  disk_files t = Some [(lit "100/a.x4", lit "x" ++ [ascii_of_N 10] ++ lit "y")] /\
  snd (cache_getitem None (lit "100/a.x4") c) = Ok [lit "x" ++ [ascii_of_N 10]; lit "y"] /\
  snd (cache_getitem None (lit "zzz") c) = Raise KeyError.
Proof. repeat split; vm_compute; reflexivity. Qed.

(** C61: at whatever point the download stops, if all names exist then nothing was touched or
    everything is new and complete. *)
Theorem C61_interrupted_download : forall members d n, complete_archive members ->
  all_exist (stopped members n d) = true ->
  (forall x, stopped members n d x = d x) \/ (forall x, stopped members n d x = New).
Proof. exact download_safe. Qed.
Print Assumptions C61_interrupted_download.

(** The same after any number of interrupted attempts, from a disk that was not complete. *)
Theorem C61_interrupted_attempts : forall members ns d, complete_archive members ->
  (all_exist d = true -> forall x, d x = New) ->
  all_exist (fold_left (fun d n => stopped members n d) ns d) = true ->
  forall x, fold_left (fun d n => stopped members n d) ns d x = New.
Proof. exact attempts_safe. Qed.
Print Assumptions C61_interrupted_attempts.

(** An attempt that is not interrupted installs everything. *)
Theorem C61_download_completes : forall members d, complete_archive members ->
  forall x, stopped members (length (download_ops members d)) d x = New.
Proof. exact download_finishes. Qed.
Print Assumptions C61_download_completes.

(** The tag file alone does not imply completeness. *)
Theorem C61_tag_alone_insufficient : exists members n d, complete_archive members /\
  stopped members n d Tag <> Absent /\ stopped members n d Index = Absent /\ stopped members n d Db = Absent.
Proof. exact tag_alone. Qed.
Print Assumptions C61_tag_alone_insufficient.

Example C61_example :
  let members := [(Db, false); (Index, true); (Errors, true); (Coupled, true); (Monitored, true); (ReactionCount, true); (Db, true)] in
  let d := fun n => match n with Index => Absent | _ => Old end in
  all_exist (stopped members 3 d) = false /\ all_exist (stopped members 20 d) = false /\
  all_exist (stopped members 21 d) = false /\ all_exist (stopped members 22 d) = true.
Proof. vm_compute. auto. Qed.
