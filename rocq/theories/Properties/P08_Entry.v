(** Properties C20-C22, C26, C27 and C62: subentries and entries. *)
From Coq Require Import String List Ascii NArith ZArith Bool Arith.
From Verif.Model Require Import Py PyFloat Utilities Dicts Particle Reaction Field Section Entry.
From Verif.Spec Require Import Text Exfor.
From Verif.Proofs Require Import StrLemmas EntryLemmas.
Import ListNotations.
Local Open Scope string_scope.
Local Open Scope list_scope.
Local Open Scope nat_scope.

Definition text (l : list string) : str := join [nl] (map lit l).

(** An entry of two subentries, without TITLE. *)
Definition entry_texts : list str :=
  [text ["SUBENT        10001001   19700101";
         "BIB                  2          2";
         "HISTORY    (19700101D) ENTRY DELETED";
         "COMMENT    Nothing to say";
         "ENDBIB               2";
         "ENDSUBENT            4"];
   text ["SUBENT        10001002   19700101";
         "DATA                 2          1";
         "EN         DATA";
         "MEV        MB";
         "1.0        100.";
         "ENDDATA              3";
         "ENDSUBENT            4"]].

(** C20.  An int, a number of one to three digits, or the full number: the same subentry. *)
Theorem C20_getitem_int : forall n k, k < 1000 -> length (n_accnum n) = 5 ->
  entry_getitem n (EInt (Z.of_nat k)) = entry_getitem n (EStr (n_accnum n ++ three_digits k)).
Proof. exact getitem_int. Qed.
Print Assumptions C20_getitem_int.

Theorem C20_getitem_digits : forall n ds, is_digits ds -> ds <> [] -> length ds <= 3 -> length (n_accnum n) = 5 ->
  entry_getitem n (EStr (digits_text ds)) = entry_getitem n (EStr (n_accnum n ++ three_digits (N.to_nat (value10 ds)))).
Proof. exact getitem_short. Qed.
Print Assumptions C20_getitem_digits.

Theorem C20_getitem_other_lengths : forall n s, length s <> 8 -> 3 < length s -> entry_getitem n (EStr s) = Raise KeyError.
Proof. exact getitem_other. Qed.
Print Assumptions C20_getitem_other_lengths.

(** A full number finds the last of the given subentries that carries it ... *)
Theorem C20_getitem_full : forall e raw n k s, X4Entry e raw = Ok n -> length k = 8 ->
  entry_getitem n (EStr k) = Ok s <->
  exists x, last_such (fun x => exists s', X4SubEntry e x = Ok s' /\ s_accnum s' = Some k) raw x /\ X4SubEntry e x = Ok s.
Proof. exact entry_lookup. Qed.
Print Assumptions C20_getitem_full.

(** ... in columns 15-22 of its SUBENT line. *)
Theorem C20_subentry_number : forall lines a, extractX4SubEntryIndex lines = Some a <->
  exists pre l post, lines = pre ++ l :: post /\ Forall (fun x => ~ subent_line x) pre /\ subent_line l /\ a = columns 14 22 l.
Proof. exact subentry_index. Qed.
Print Assumptions C20_subentry_number.

Theorem C20_subentry_accnum : forall e text s, X4SubEntry e text = Ok s ->
  s_accnum s = extractX4SubEntryIndex (split_char nl text).
Proof. exact subentry_accnum. Qed.
Print Assumptions C20_subentry_accnum.

Definition no_parser : env :=
  mkEnv (mkGrammars (fun _ => None) (fun _ => None) (fun _ => None) (fun _ => None) (fun _ => None)
             (fun _ => None) (fun _ => None) (fun _ => None) (fun _ => None) (fun _ => None) (fun _ => None)) [] [] [] 10.

Example C20_example : exists n s, X4Entry no_parser entry_texts = Ok n /\ length (n_accnum n) = 5 /\
  entry_getitem n (EInt 2) = Ok s /\ entry_getitem n (EStr (lit "02")) = Ok s /\ entry_getitem n (EStr (lit "10001002")) = Ok s /\
  entry_getitem n (EStr (lit "0002")) = Raise KeyError /\ s_accnum s = Some (lit "10001002").
Proof. do 2 eexists. split; [vm_compute; reflexivity|]. repeat split; vm_compute; reflexivity. Qed.

(** C21 *)
Theorem C21_entry_chunkify : forall lines bs,
  entry_chunkify lines = bs <-> blocks (keyword_line "SUBENT") (keyword_line "ENDSUBENT") lines bs.
Proof. exact entry_chunkify_iff. Qed.
Print Assumptions C21_entry_chunkify.

Example C21_example :
  entry_chunkify (map lit ["ENTRY            10001"; "SUBENT        10001001"; "BIB"; "ENDBIB"; "ENDSUBENT            4"; "NOSUBENT";
                           "SUBENT        10001002"; "ENDSUBENT            1"; "ENDENTRY"])
  = [map lit ["SUBENT        10001001"; "BIB"; "ENDBIB"; "ENDSUBENT            4"];
     map lit ["SUBENT        10001002"; "ENDSUBENT            1"]].
Proof. vm_compute. reflexivity. Qed.

(** C22.  deleted() is never True, not even when the HISTORY says so. *)
Theorem C22_never_deleted : forall n, deleted n <> Ok true.
Proof. exact never_deleted. Qed.
Print Assumptions C22_never_deleted.

Theorem C22_deleted_refuted : exists raw, forall e, exists n, X4Entry e raw = Ok n /\
  (exists x, In x raw /\ mentions x (lit "HISTORY    (19700101D) ENTRY DELETED")) /\ deleted n = Ok false.
Proof.
  exists entry_texts. intro e. eexists. split; [vm_compute; reflexivity|]. split; [|vm_compute; reflexivity].
  eexists. split; [left; reflexivity|].
  exists (text ["SUBENT        10001001   19700101"; "BIB                  2          2"; ""]).
  exists ([nl] ++ text ["COMMENT    Nothing to say"; "ENDBIB               2"; "ENDSUBENT            4"]).
  vm_compute. reflexivity.
Qed.
Print Assumptions C22_deleted_refuted.

(** C26.  If subentry 001 has a TITLE, asking for the metadata changes nothing ... *)
Theorem C26_meta_keeps_entry_partial : forall n r n' s b, X4EntryMetaData n = Ok (r, n') ->
  entry_getitem n (EInt 1) = Ok s -> sub_bib s = Ok b -> bib_field b "TITLE" <> None -> n' = n.
Proof. exact meta_keeps_entry. Qed.
Print Assumptions C26_meta_keeps_entry_partial.

Example C26_example : exists n r s b,
  X4Entry no_parser [text ["SUBENT        10001001   19700101"; "BIB                  1          1"; "TITLE      Of the entry";
                           "ENDBIB               1"; "ENDSUBENT            4"]] = Ok n /\
  X4EntryMetaData n = Ok (r, n) /\ entry_getitem n (EInt 1) = Ok s /\ sub_bib s = Ok b /\ bib_field b "TITLE" <> None.
Proof.
  do 4 eexists. split; [vm_compute; reflexivity|]. split; [vm_compute; reflexivity|]. split; [vm_compute; reflexivity|].
  split; [vm_compute; reflexivity|]. vm_compute. discriminate.
Qed.

(** In any case only TITLE can change: the other fields and the order of printing stay. *)
Theorem C26_meta_other_fields : forall b subent m b', X4BibMetaData b subent = Ok (m, b') ->
  b_keys b' = b_keys b /\
  forall k, k <> Some (list_ascii_of_string "TITLE") -> dget tag_eqb k (b_dict b') = dget tag_eqb k (b_dict b).
Proof. exact meta_other_fields. Qed.
Print Assumptions C26_meta_other_fields.
Example C26_other_example :
  match X4BibMetaData (mkBib [(Some (lit "STATUS"), None)] [Some (lit "STATUS")]) [] with
  | Ok (_, b') => b_keys b' = [Some (lit "STATUS")] /\ bib_field b' "TITLE" = Some None /\ bib_field b' "STATUS" = Some None
  | Raise _ => False
  end.
Proof. vm_compute. auto. Qed.

(** ... and if not, the entry can no longer be printed. *)
Theorem C26_meta_keeps_entry_refuted : exists raw, forall e, exists n r n' t, X4Entry e raw = Ok n /\
  entry_repr n = Ok t /\ X4EntryMetaData n = Ok (r, n') /\ entry_repr n' = Raise AttributeError.
Proof.
  exists entry_texts. intro e. do 4 eexists. split; [vm_compute; reflexivity|]. split; [vm_compute; reflexivity|].
  split; vm_compute; reflexivity.
Qed.
Print Assumptions C26_meta_keeps_entry_refuted.

(** C27 *)
Theorem C27_subentry_chunkify : forall lines bs,
  subentry_chunkify lines = bs <->
  blocks (fun l => keyword_line "BIB" l \/ keyword_line "DATA" l \/ keyword_line "COMMON" l)
         (fun l => columns 0 3 l = list_ascii_of_string "END") lines bs.
Proof. exact subentry_chunkify_iff. Qed.
Print Assumptions C27_subentry_chunkify.

Example C27_example :
  subentry_chunkify (map lit ["SUBENT        10001001"; "BIB                  1"; "COMMENT    DATA"; "ENDBIB               1";
                              "NOCOMMON"; "DATA                 1          1"; "EN"; "MEV"; "1."; "ENDDATA"; "ENDSUBENT"])
  = [map lit ["BIB                  1"; "COMMENT    DATA"; "ENDBIB               1"];
     map lit ["DATA                 1          1"; "EN"; "MEV"; "1."; "ENDDATA"]].
Proof. vm_compute. reflexivity. Qed.

(** C62.  What repr prints cannot be read back: the number of a subentry comes back shifted by
    three columns, and an entry is refused. *)
Theorem C62_subentry_number_refuted : forall e s a t s', subentry_repr s = Ok t -> s_accnum s = Some a -> length a = 8 ->
  ~ In nl a -> ~ blank a -> X4SubEntry e t = Ok s' ->
  s_accnum s' = Some (skipn 3 a ++ lit "   ") /\ s_accnum s' <> Some a.
Proof. exact subentry_repr_number. Qed.
Print Assumptions C62_subentry_number_refuted.

Theorem C62_entry_repr_refuted : forall e n t, entry_repr n = Ok t -> length (n_accnum n) = 5 -> ~ In nl (n_accnum n) ->
  X4Entry e (split_char nl t) = Raise KeyError.
Proof. exact entry_repr_refused. Qed.
Print Assumptions C62_entry_repr_refuted.

Example C62_example : exists n s t s',
  X4Entry no_parser entry_texts = Ok n /\ entry_getitem n (EInt 2) = Ok s /\ s_accnum s = Some (lit "10001002") /\
  subentry_repr s = Ok t /\ X4SubEntry no_parser t = Ok s' /\ s_accnum s' = Some (lit "01002   ") /\
  s_dict s' = s_dict s.
Proof.
  do 4 eexists. split; [vm_compute; reflexivity|]. split; [vm_compute; reflexivity|]. split; [vm_compute; reflexivity|].
  split; [vm_compute; reflexivity|]. split; [vm_compute; reflexivity|]. split; vm_compute; reflexivity.
Qed.
