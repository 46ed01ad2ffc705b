(** Property C89: the tables that are loaded from the dictionary files, and those shipped. *)
From Coq Require Import String List Ascii NArith ZArith Bool Arith.
From Verif.Model Require Import Py PyFloat Dicts Particle Reaction Field Section Entry Columns Dataset Pyparsing Grammars Shipped ShippedDicts Library Print.
From Verif.Spec Require Import Text Exfor Tables Codes Names References Document WellWritten Printable.
From Verif.Proofs Require Import StrLemmas LibraryLemmas.
From Verif.Properties Require Import P23_WellWritten P24_Printable.
Import ListNotations.
Local Open Scope string_scope.
Local Open Scope list_scope.
Local Open Scope nat_scope.

(** Whatever the files are: if they load, the grammar knows the particles and compounds of the
    files and no others, every compound it knows has a row to take its name from, and quantities,
    modifiers and institutes are looked up in the files of these names. *)
Theorem C89_directory : forall dir depth c e nm, load dir depth = Ok (c, e, nm) ->
  e_g e = x4grammars c /\ e_depth e = depth /\ getAllDictionaries dir = Ok (e_dicts e) /\
  (exists d, server_getDictionary dir (DName (lit "Particles")) = Ok (Some d) /\ forall k, In k (c_particles c) <-> exists row, dget str_eqb k d = Some row) /\
  (exists d, server_getDictionary dir (DName (lit "Compounds")) = Ok (Some d) /\ nm_compounds nm = d /\ e_compounds e = d /\
     forall k, In k (c_compounds c) <-> exists row, dget str_eqb k d = Some row) /\
  server_getDictionary dir (DName (lit "Quantities")) = Ok (Some (nm_quantities nm)) /\
  server_getDictionary dir (DName (lit "Modifiers")) = Ok (Some (nm_modifiers nm)) /\
  server_getDictionary dir (DName (lit "Institutes")) = Ok (Some (e_institutes e)) /\
  (rows_filled (nm_compounds nm) -> rows_filled (nm_quantities nm) -> rows_filled (nm_modifiers nm) -> naming c e nm).
Proof. exact load_directory. Qed.
Print Assumptions C89_directory.

(** The files that are shipped load, with the particles and compounds listed in Model/Shipped.v,
    and they fulfil what C86, C87 and C88 ask of dictionaries. *)
Theorem C89_shipped : forall depth, 0 < depth -> exists e nm, load shipped_dir depth = Ok (shipped, e, nm) /\ e_depth e = depth /\
  well_dictionaries shipped e /\ naming shipped e nm.
Proof. exact shipped_loaded. Qed.
Print Assumptions C89_shipped.

(** So with the shipped files an entry that keeps to the format is read, and every data set of it
    is printed. *)
Theorem C89_entries : forall depth e nm acc raw errs, 0 < depth -> load shipped_dir depth = Ok (shipped, e, nm) -> well_entry shipped acc raw ->
  exists n ds errs' n', X4Entry e raw = Ok n /\ n_accnum n = acc /\ getDataSets nm n errs = Ok (ds, errs', n') /\
    forall k d, dget key_eqb k ds = Some d -> (exists t, dataset_str nm d = Ok t) /\ exists t, dataset_repr nm d = Ok t.
Proof.
  intros depth e nm acc raw errs DP L W. destruct (loaded_is _ _ _ DP L) as (D & N). exact (C88_well_written shipped e nm acc raw errs D N W).
Qed.
Print Assumptions C89_entries.

Theorem C89_simplified : forall depth e nm acos mk acc raw errs s, 0 < depth -> load shipped_dir depth = Ok (shipped, e, nm) ->
  well_entry shipped acc raw -> Forall (simple_subentry acos) raw ->
  exists n ds errs' n' s', X4Entry e raw = Ok n /\ getSimplifiedDataSets nm acos mk n errs s = Ok (ds, errs', n', s') /\
    forall k d, dget key_eqb k ds = Some d -> (exists t, dataset_str nm d = Ok t) /\ exists t, dataset_repr nm d = Ok t.
Proof.
  intros depth e nm acos mk acc raw errs s DP L W S. destruct (loaded_is _ _ _ DP L) as (D & N).
  exact (C88_well_simplified shipped e nm acos mk acc raw errs s D N W S).
Qed.
Print Assumptions C89_simplified.

(** ** Examples *)

(** The entry of C87. *)
Example C89_entry : exists e nm n ds errs n', load shipped_dir 50 = Ok (shipped, e, nm) /\ X4Entry e [rich_main; rich_data] = Ok n /\
  getDataSets nm n [] = Ok (ds, errs, n').
Proof.
  destruct (C89_shipped 50 (Nat.lt_0_succ _)) as (e & nm & L & _). destruct C87_hypotheses as (_ & W & _).
  destruct (C89_entries 50 e nm _ _ [] (Nat.lt_0_succ _) L W) as (n & ds & errs & n' & E & _ & H & _). exists e, nm, n, ds, errs, n'. auto.
Qed.
(** A small directory: C89_directory is not about the shipped files only. *)
Definition few (name : str) : option str :=
  let file l := Some (join [nl] (map tx ("Title = ""few""" :: "NumFields = 2" :: "FieldBreaks = [10]" :: l))) in
  if str_eqb name (tx "dict33.txt") then file ["N         neutron"; "P         proton"]
  else if str_eqb name (tx "dict09.txt") then file ["1-H-WTR   light water"]
  else if str_eqb name (tx "dict03.txt") then file ["LRL       Livermore"]
  else if str_eqb name (tx "dict34.txt") then file ["RAT       Ratio"]
  else if str_eqb name (tx "dict36.txt") then file ["SIG       Cross section"]
  else None.
Example C89_few : match load few 50 with
  | Ok (c, e, nm) => c = mkCodes [tx "N"; tx "P"] [tx "1-H-WTR"] /\ nm = mkNames [(tx "1-H-WTR", [tx "light water"])] [(tx "SIG", [tx "Cross section"])] [(tx "RAT", [tx "Ratio"])] /\
      (ml <- reaction_of_text e (tx "(1-H-WTR(N,TOT),,SIG)") ;; m_str nm (fst ml)) = Ok (tx "Cross section for light water(n,Total)") /\
      (ml <- reaction_of_text e (tx "(2-HE-CMP(N,TOT),,SIG)") ;; m_str nm (fst ml)) = Raise ReactionParsingError
  | Raise _ => False
  end.
Proof. vm_compute. repeat split. Qed.
(** Without the file of quantities nothing of x4i3 can be imported. *)
Example C89_missing : load (fun name => if str_eqb name (tx "dict36.txt") then None else few name) 50 = Raise KeyError.
Proof. vm_compute. reflexivity. Qed.
