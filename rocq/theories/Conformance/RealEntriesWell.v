(** Entries of the library are well-written in the sense of Spec/WellWritten.v: the hypotheses of
    C87-C89 are met by them, and what these theorems say holds of them.  Of the 122 different entries
    among the project's test data, 120 pass the check [entry_okb] (done once for the long ones, which
    are not part of the build).  The two that do not: the MONITOR of 12909 goes on with =2*(...)
    after its reaction, that of 40121 has a remark with an unbalanced parenthesis. *)
From Coq Require Import String List Ascii NArith ZArith Bool Arith.
From Verif.Model Require Import Py PyFloat Entry Columns Dataset Print Grammars Library Shipped ShippedDicts.
From Verif.Spec Require Import Text Codes DataSets WellWritten.
From Verif.Proofs Require Import Guess Decide DocumentCheck WellCheck.
From Verif.Properties Require Import P25_Library.
From Verif.Conformance Require Import RealEntries.
Import ListNotations.
Local Open Scope string_scope.
Local Open Scope list_scope.
Local Open Scope nat_scope.

Definition passes (x : string * list string) : bool := entry_okb shipped (tx (fst x)) (map tx (snd x)).
Lemma real_pass : forallb passes real_entries = true.
Proof. vm_compute. reflexivity. Qed.

Theorem real_well : Forall (fun x => well_entry shipped (tx (fst x)) (map tx (snd x))) real_entries.
Proof. apply Forall_forall. intros x I. apply entry_okb_ok. pose proof real_pass as P. rewrite forallb_forall in P. exact (P x I). Qed.

(** So each of them is read with the shipped dictionaries, and all its data sets can be printed. *)
Theorem real_read : forall depth e nm errs, 0 < depth -> load shipped_dir depth = Ok (shipped, e, nm) ->
  Forall (fun x => exists n ds errs' n', X4Entry e (map tx (snd x)) = Ok n /\ n_accnum n = tx (fst x) /\
    getDataSets nm n errs = Ok (ds, errs', n') /\
    forall k d, dget key_eqb k ds = Some d -> (exists t, dataset_str nm d = Ok t) /\ exists t, dataset_repr nm d = Ok t) real_entries.
Proof.
  intros depth e nm errs D L. eapply Forall_impl; [|exact real_well]. intros x W. exact (C89_entries depth e nm _ _ errs D L W).
Qed.
Print Assumptions real_read.

(** All but two of them can be simplified with any inverse cosine that is defined between -1 and 1.
    The two, 13150 and 30679, have pointers in the headings of COMMON. *)
Definition simple_text (t : str) : bool := forallb (fun b => keywordb (tx "BIB") b || simple_check b) (sections_in t).
Definition simple_passes (x : string * list string) : bool :=
  existsb (String.eqb (fst x)) ["13150"; "30679"]%string || forallb (fun t => simple_text (tx t)) (snd x).
Lemma real_simple_pass : forallb simple_passes real_entries = true.
Proof. vm_compute. reflexivity. Qed.
Theorem real_simplified : forall depth e nm acos mk errs s, 0 < depth -> load shipped_dir depth = Ok (shipped, e, nm) ->
  (forall x, cosine x -> acos x <> None) ->
  Forall (fun x => fst x <> "13150"%string -> fst x <> "30679"%string ->
    exists n ds errs' n' s', X4Entry e (map tx (snd x)) = Ok n /\ getSimplifiedDataSets nm acos mk n errs s = Ok (ds, errs', n', s') /\
    forall k d, dget key_eqb k ds = Some d -> (exists t, dataset_str nm d = Ok t) /\ exists t, dataset_repr nm d = Ok t) real_entries.
Proof.
  intros depth e nm acos mk errs s D L A. apply Forall_forall. intros x I N1 N2. pose proof real_well as W. rewrite Forall_forall in W. specialize (W x I).
  apply (C89_simplified depth e nm acos mk _ _ errs s D L W). pose proof real_simple_pass as P. rewrite forallb_forall in P. specialize (P x I).
  unfold simple_passes in P. apply orb_true_iff in P. destruct P as [P|P].
  - cbn [existsb] in P. rewrite !orb_true_iff in P. destruct P as [P|[P|P]]; [apply String.eqb_eq in P; congruence|apply String.eqb_eq in P; congruence|discriminate].
  - rewrite forallb_forall in P. apply Forall_forall. intros t It. apply in_map_iff in It. destruct It as (u & <- & Iu). apply simple_subentry_check; [exact A|exact (P u Iu)].
Qed.
Print Assumptions real_simplified.
