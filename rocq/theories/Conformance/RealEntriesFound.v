(** Entries of the library have their data written in full, in the sense of Spec/Found.v: the
    hypotheses of C94 and C95 are met by them, and what these theorems say holds of them. *)
From Coq Require Import String List Ascii NArith ZArith Bool Arith.
From Verif.Model Require Import Py PyFloat Entry Columns Dataset Print Grammars Library Shipped ShippedDicts.
From Verif.Spec Require Import Text Exfor Codes DataSets Document WellWritten Printable Pointed Found.
From Verif.Proofs Require Import StrLemmas ReactionLemmas LibraryLemmas WellLemmas EntryDataLemmas WellSimple PointedLemmas RetrieveLemmas Decide DocumentCheck FoundCheck.
From Verif.Properties Require Import P25_Library.
From Verif.Conformance Require Import RealEntries RealEntriesWell.
Import ListNotations.
Local Open Scope string_scope.
Local Open Scope list_scope.
Local Open Scope nat_scope.

(** Pointer 1 of 12917002 is a ratio of unlike quantities (C94_unlike).  The others have a column of another
    pointer in COMMON (C94_common_refuted). *)
Definition excepted : list (string * ascii) :=
  [("12917002", "1"%char); ("13150002", "1"%char); ("13150003", "1"%char); ("13150004", "1"%char); ("30679003", " "%char)].

Definition text_passes (text1 : str) (text : str) : bool :=
  match lastb (keywordb (tx "DATA")) (sections_in text) with
  | None => true
  | Some _ => forallb (fun p => written_in_full shipped text text1 p || existsb (fun x => numberedb (tx (fst x)) text && Ascii.eqb p (snd x)) excepted)
                      (nodup ascii_dec (pointers_in text ++ pointers_in text1))
  end.
Definition full_passes (x : string * list string) : bool :=
  let raw := map tx (snd x) in
  match lastb (numberedb (tx (fst x) ++ tx "001")) raw with
  | None => false
  | Some text1 => forallb (fun text => numberedb (tx (fst x) ++ tx "001") text || text_passes text1 text) raw
  end.
Lemma real_full_pass : forallb full_passes real_entries = true.
Proof. vm_compute. reflexivity. Qed.

Theorem real_written : Forall (fun x => let raw := map tx (snd x) in forall num text text1 data p code,
  last_such (numbered num) raw text -> last_such (numbered (tx (fst x) ++ tx "001")) raw text1 -> num <> tx (fst x) ++ tx "001" ->
  has_section "DATA" text data -> stated_for text text1 p code -> (forall y, In y excepted -> num = tx (fst y) -> p <> snd y) ->
  exists rx line k t, data_written shipped text text1 p rx line k t) real_entries.
Proof.
  apply Forall_forall. intros x I raw num text text1 data p code T T1 N D S X. pose proof real_full_pass as P. rewrite forallb_forall in P. specialize (P x I).
  unfold full_passes in P. fold raw in P. rewrite (lastb_back _ _ _ _ _ (fun y => numbered_iff (tx (fst x) ++ tx "001") y) T1) in P.
  rewrite forallb_forall in P. destruct T as (a & b & E & NT & _). specialize (P text). rewrite E in P. specialize (P (in_or_app _ (text :: b) text (or_intror (or_introl eq_refl)))).
  apply orb_true_iff in P. destruct P as [P|P].
  - exfalso. apply numbered_iff in P. apply N. exact (numbered_one _ _ _ NT P).
  - unfold text_passes in P. rewrite (has_section_back _ _ _ D) in P. rewrite forallb_forall in P. specialize (P p).
    assert (J : In p (nodup ascii_dec (pointers_in text ++ pointers_in text1))).
    { apply nodup_In, in_or_app. destruct S as [S|[_ S]]; [left|right]; exact (stated_pointer _ _ _ S). }
    specialize (P J). apply orb_true_iff in P. destruct P as [P|P]; [now apply written_in_full_ok|]. exfalso.
    apply existsb_exists in P. destruct P as (y & Iy & P). apply andb_true_iff in P. destruct P as [P1 P2]. apply numbered_iff in P1.
    apply (X y Iy); [exact (numbered_one _ _ _ NT P1)|now apply Ascii.eqb_eq].
Qed.
Print Assumptions real_written.

(** So every such data set comes out with the reaction and the numbers that stand in the entry. *)
Theorem real_numbers : forall depth e nm errs, 0 < depth -> load shipped_dir depth = Ok (shipped, e, nm) ->
  Forall (fun x => let raw := map tx (snd x) in let acc := tx (fst x) in
    exists n ds errs' n', X4Entry e raw = Ok n /\ getDataSets nm n errs = Ok (ds, errs', n') /\
    forall num text text1 data p code,
      last_such (numbered num) raw text -> last_such (numbered (acc ++ tx "001")) raw text1 -> num <> acc ++ tx "001" ->
      has_section "DATA" text data -> stated_for text text1 p code -> (forall y, In y excepted -> num = tx (fst y) -> p <> snd y) ->
      exists rx line k t d, data_written shipped text text1 p rx line k t /\ dget key_eqb (acc, Some num, p) ds = Some d /\
        of_reaction rx line k d /\ ds_simplified d = false /\ ds_table d = t) real_entries.
Proof.
  intros depth e nm errs DP L. destruct (loaded_is _ _ _ DP L) as (D & N). destruct N as [_ NC FQ FM]. apply Forall_forall. intros x I raw acc.
  pose proof real_well as W. rewrite Forall_forall in W. specialize (W x I). fold raw acc in W.
  pose proof real_written as F. rewrite Forall_forall in F. specialize (F x I). cbv zeta in F. fold raw acc in F.
  destruct (data_sets_total shipped e D nm NC FQ FM acc raw errs W) as (n & ds & errs' & n' & E & A & G). exists n, ds, errs', n'. split; [exact E|]. split; [exact G|].
  intros num text text1 data p code T T1 NE HD S X. destruct (F num text text1 data p code T T1 NE HD S X) as (rx & line & k & t & DW).
  pose proof DW as ((code' & q & SF & CT & CQ & KD) & data' & h1 & h2 & r1 & r2 & hd & rows & C1 & C2 & HD' & P & Et).
  destruct (pointed_full shipped e D nm acc raw num text text1 data' p code' line rx q k h1 h2 r1 r2 hd rows NC FQ FM W T T1 NE SF CT CQ KD C1 C2 HD' P errs)
    as (n0 & ds0 & errs0 & n0' & d & E0 & _ & G0 & H & O & DS & DT).
  assert (n0 = n) by congruence. subst n0. assert (ds0 = ds) by congruence. subst ds0. exists rx, line, k, t, d.
  split; [exact DW|]. split; [exact H|]. split; [exact O|]. split; [exact DS|congruence].
Qed.
Print Assumptions real_numbers.
