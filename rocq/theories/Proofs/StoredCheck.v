(** Deciding that a text is an entry file with given subentries. *)
From Coq Require Import String List Ascii NArith ZArith Bool Arith Lia.
From Verif.Model Require Import Py Storage Sql Manager Pyparsing Grammars Field Section Entry.
From Verif.Spec Require Import Text Exfor Codes Files Document WellWritten Stored.
From Verif.Proofs Require Import StrLemmas StorageLemmas EntryLemmas DocumentLemmas DocumentCheck DataLemmas.
Import ListNotations.
Local Open Scope string_scope.
Local Open Scope list_scope.
Local Open Scope nat_scope.

Definition terminated (l : str) : str := l ++ [ascii_of_N 10].
Lemma stored_terminated : forall ls, forallb (fun l => forallb (fun x => negb (Ascii.eqb x (ascii_of_N 10)) && negb (Ascii.eqb x (ascii_of_N 13))) l) ls = true ->
  stored (concat (map terminated ls)) (map terminated ls).
Proof.
  induction ls as [|l ls IH]; intros H; [constructor|]. cbn [forallb] in H. apply andb_true_iff in H. destruct H as [A B].
  cbn [map concat]. unfold terminated at 1 3. rewrite <- app_assoc. rewrite forallb_forall in A.
  apply st_line; [| |now left|now apply IH]; intros I; apply A in I; cbn in I; discriminate.
Qed.

Definition blockb (b : list str) : bool :=
  match b with
  | first :: rest => match rev rest with
      | last :: mid => startswith first (lit "SUBENT") && startswith last (lit "ENDSUBENT") &&
          forallb (fun l => negb (startswith l (lit "ENTRY") || startswith l (lit "ENDENTRY") || startswith l (lit "NOSUBENT")
                                  || startswith l (lit "SUBENT") || startswith l (lit "ENDSUBENT"))) (rev mid)
      | [] => false
      end
  | [] => false
  end.
Lemma blockb_ok : forall b, blockb b = true -> subentry_block b.
Proof.
  intros [|first rest] H; [discriminate|]. cbn [blockb] in H. destruct (rev rest) as [|last mid] eqn:R; [discriminate|].
  apply andb_true_iff in H. destruct H as [H M]. apply andb_true_iff in H. destruct H as [F L].
  assert (E : rest = rev mid ++ [last]) by (rewrite <- (rev_involutive rest), R; reflexivity).
  exists first, (rev mid), last. rewrite E. split; [reflexivity|]. split; [now apply startswith_begins|]. split; [now apply startswith_begins|].
  apply Forall_forall. intros l I. rewrite forallb_forall in M. apply M in I. apply negb_true_iff in I. rewrite !orb_false_iff in I.
  destruct I as [[[[I1 I2] I3] I4] I5]. unfold Files.frame_line. rewrite <- !startswith_begins. rewrite I1, I2, I3, I4, I5. intuition discriminate.
Qed.

(** A head line, subentries, a last line. *)
Lemma file_ok : forall h t bs, startswith h (lit "ENTRY") = true -> startswith t (lit "ENDENTRY") = true -> forallb blockb bs = true ->
  entry_file (h :: concat bs ++ [t]) bs.
Proof.
  intros h t bs H T B. apply ef_frame; [left; now apply startswith_begins|]. induction bs as [|b bs IH]; cbn [concat app].
  - apply ef_frame; [right; left; now apply startswith_begins|constructor].
  - cbn [forallb] in B. apply andb_true_iff in B. destruct B as [B1 B2]. rewrite <- app_assoc. apply ef_block; [now apply blockb_ok|now apply IH].
Qed.

Lemma block_check : forall c b, well_subentry c (concat b) ->
  match split_char nl (concat b) with
  | l :: _ => match split_ws l with w :: _ => str_eqb w (lit "SUBENT") | [] => false end && str_eqb (block_number b) (columns 14 22 l) && (length (block_number b) =? 8)
  | [] => false
  end = true -> well_block c b.
Proof.
  intros c b W H. constructor; [exact W|]. destruct (split_char nl (concat b)) as [|l rest] eqn:E; [discriminate|].
  apply andb_true_iff in H. destruct H as [H L]. apply andb_true_iff in H. destruct H as [S Q].
  exists l, rest. split; [rewrite <- E; apply split_lines|]. split; [|split; [now apply str_eqb_eq|now apply Nat.eqb_eq]].
  pose proof (DataLemmas.split_words l) as X. destruct (split_ws l) as [|w ws]; [discriminate|]. apply str_eqb_eq in S. subst w. exists ws. exact X.
Qed.

Lemma sections_of : forall c text, well_subentry c text -> Forall (well_section c) (sections_in text).
Proof.
  intros c text (_ & lines & bs & L & S & W). apply lines_split in L. subst lines. apply EntryLemmas.subentry_chunkify_iff in S.
  unfold sections_in. rewrite S. exact W.
Qed.
