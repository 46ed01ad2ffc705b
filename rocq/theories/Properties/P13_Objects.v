(** Properties C74 and C75: data sets as objects with lists of their own. *)
From Coq Require Import String List Ascii NArith ZArith Bool Arith.
From Verif.Model Require Import Py PyFloat Utilities Dicts Particle Reaction Field Section Entry Columns Dataset Heap.
From Verif.Spec Require Import Tables DataSets Sharing.
From Verif.Proofs Require Import HeapLemmas.
Import ListNotations.
Local Open Scope string_scope.
Local Open Scope list_scope.
Local Open Scope nat_scope.

(** ** C74: a simplified data set is independent of the original *)

(** Whatever happened to the data sets before, and whatever a program does with the new one
    afterwards.  [length (h_sets h)] is the number of the new data set. *)
Theorem C74_independent : forall acos nm ds before h mk fl k d h',
  hrun acos nm before (read_sets ds) = Some h -> see h k = Some d -> ds_simplified d = false -> wanted_columns (ds_class_of d) <> [] ->
  hstep acos nm (Simplify mk fl k) h = Done h' ->
  (exists d', fst (run (getSimplified acos mk fl d) (h_parsers h)) = Ok d' /\ see h' (length (h_sets h)) = Some d') /\
  (forall i, i < length (h_sets h) -> see h' i = see h i) /\
  (forall ops h'', Forall (changes_only (length (h_sets h))) ops -> hrun acos nm ops h' = Some h'' ->
     forall i, i <> length (h_sets h) -> see h'' i = see h' i) /\
  (forall ops h'', Forall (avoids (length (h_sets h))) ops -> hrun acos nm ops h' = Some h'' ->
     see h'' (length (h_sets h)) = see h' (length (h_sets h))).
Proof. exact simplified_independent. Qed.
Print Assumptions C74_independent.

(** Data sets of 92-U-235(N,F),,SIG for the examples. *)
Definition a_cell (m : N) (e : Z) : dcell := VFloat (fl m e).
Definition a_tree : ptree :=
  PGroup [PGroup [PGroup [PTok (lit "92"); PTok (lit "U"); PTok (lit "235")]; PTok (lit "N"); PTok (lit "F")]; PTok (lit "SIG")].
Definition a_grammar : grammars :=
  mkGrammars (fun s => Some [PTok s]) (fun _ => None) (fun _ => None) (fun _ => None) (fun _ => None)
             (fun _ => None) (fun _ => None) (fun _ => None) (fun _ => None) (fun _ => None) (fun _ => None).
Definition a_reaction : reaction :=
  match X4Reaction a_grammar [] false a_tree with Ok r => r | Raise _ => mkReaction (mkProcess RNone RNone [] RNone []) [] end.
Definition some_names : names := mkNames [] [(lit "SIG", [lit "Cross section"])] [].
Definition a_set (c : ds_class) (rows : list (list dcell)) : dataset :=
  mkDS c no_meta (Some (MRxn a_reaction, PTok [])) None
       (mkTable (map lit ["EN"; "DATA"]) (map (fun u => Some (lit u)) ["MEV"; "B"]) rows) false false None.
Definition two_rows : list (list dcell) := [[a_cell 1 0; a_cell 10 0]; [a_cell 2 0; a_cell 20 0]].
Definition no_cosines : float -> option float := fun _ => None.
Definition table_of (h : option heap) (k : nat) : option (list (list dcell)) :=
  match h with Some h => option_map (fun d => t_data (ds_table d)) (see h k) | None => None end.
Definition backwards (rows : list (list dcell)) : list nat := rev (seq 0 (length rows)).

Example C74_example : exists h', hstep no_cosines some_names (Simplify false false 0) (read_sets [a_set CrossSection two_rows]) = Done h' /\
  table_of (hrun no_cosines some_names [Sort backwards 1; SetCell 1 0 0 VNone] h') 1 = Some [[VNone; a_cell 20 0]; [a_cell 1 0; a_cell 10 0]] /\
  table_of (hrun no_cosines some_names [Sort backwards 1; SetCell 1 0 0 VNone] h') 0 = Some two_rows.
Proof. eexists. split; [vm_compute; reflexivity|]. split; vm_compute; reflexivity. Qed.

(** Not so for data sets of a kind without simplification, and for data sets simplified before:
    getSimplified returns a second object with the same lists. *)
Theorem C74_independent_refuted :
  (exists h', hstep no_cosines some_names (Simplify false false 0) (read_sets [a_set DataSet two_rows]) = Done h' /\
     table_of (Some h') 0 = Some two_rows /\
     table_of (hrun no_cosines some_names [Sort backwards 1] h') 0 = Some (rev two_rows)) /\
  (exists h', hrun no_cosines some_names [Simplify false false 0; Simplify false false 1] (read_sets [a_set CrossSection two_rows]) = Some h' /\
     table_of (Some h') 1 = Some two_rows /\
     table_of (hrun no_cosines some_names [SetCell 2 0 1 VNone] h') 1 = Some [[a_cell 1 0; VNone]; [a_cell 2 0; a_cell 20 0]]).
Proof. split; eexists; (split; [vm_compute; reflexivity|]); split; vm_compute; reflexivity. Qed.
Print Assumptions C74_independent_refuted.

(** ** C75: append on objects *)

(** As long as nothing was simplified, append to another data set does what C48 says to that data
    set and nothing to all others. *)
Theorem C75_append : forall acos nm ds before h same k j self other r,
  hrun acos nm before (read_sets ds) = Some h -> Forall not_simplify before -> k <> j ->
  see h k = Some self -> see h j = Some other -> append nm same self other = Ok r ->
  exists h', hstep acos nm (Append same k j) h = Done h' /\ see h' k = Some r /\ forall i, i <> k -> see h' i = see h i.
Proof. exact append_objects. Qed.
Print Assumptions C75_append.
Example C75_example :
  table_of (hrun no_cosines some_names [Append true 0 1; Append true 0 1] (read_sets [a_set DataSet two_rows; a_set DataSet [[VNone; VZero]]])) 0
    = Some (two_rows ++ [[VNone; VZero]; [VNone; VZero]]).
Proof. vm_compute. reflexivity. Qed.

(** A data set with rows appended to itself: the call never returns. *)
Theorem C75_append_to_itself : forall acos nm h same k self text, see h k = Some self -> t_data (ds_table self) <> [] ->
  reaction_text nm self = Ok text -> hstep acos nm (Append same k k) h = Loops.
Proof. exact self_append. Qed.
Print Assumptions C75_append_to_itself.
(** Nor does it for the answer of getSimplified when that shares its list; and rows given to an
    empty data set stay those of the other one. *)
Theorem C75_append_refuted :
  (exists text, reaction_text some_names (a_set DataSet two_rows) = Ok text) /\
  hrun no_cosines some_names [Append true 0 0] (read_sets [a_set DataSet two_rows]) = None /\
  hrun no_cosines some_names [Simplify false false 0; Append true 1 0] (read_sets [a_set DataSet two_rows]) = None /\
  table_of (hrun no_cosines some_names [Append true 0 1; SetCell 0 0 0 VNone]
              (read_sets [empty_dataset DataSet [] None None; a_set DataSet two_rows])) 1
    = Some [[VNone; a_cell 10 0]; [a_cell 2 0; a_cell 20 0]].
Proof. split; [eexists; vm_compute; reflexivity|]. repeat split; vm_compute; reflexivity. Qed.
Print Assumptions C75_append_refuted.
