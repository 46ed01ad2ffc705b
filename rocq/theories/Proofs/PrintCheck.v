(** Deciding, for examples, the conditions of the properties about printing. *)
From Coq Require Import String List Ascii NArith ZArith Bool Arith Lia.
From Coq Require Import Floats.SpecFloat.
From Verif.Model Require Import Py PyFloat Particle Reaction Field Section Columns Dataset Repr Print.
From Verif.Spec Require Import Text Exfor Doubles Printing.
From Verif.Proofs Require Import StrLemmas DataLemmas AuthorLemmas PrintLemmas.
Import ListNotations.
Local Open Scope string_scope.
Local Open Scope list_scope.
Local Open Scope nat_scope.

Definition one_lineb (s : str) : bool := negb (existsb (Ascii.eqb newline) s).
Lemma one_lineb_ok : forall s, one_lineb s = true -> one_line s.
Proof.
  intros s H I. unfold one_lineb in H. apply Bool.negb_true_iff in H.
  assert (E : existsb (Ascii.eqb newline) s = true) by (apply existsb_exists; exists newline; split; [exact I|apply Ascii.eqb_refl]).
  congruence.
Qed.
Lemma one_linesb_ok : forall l, forallb one_lineb l = true -> Forall one_line l.
Proof. intros l H. rewrite forallb_forall in H. apply Forall_forall. intros s I. apply one_lineb_ok, H, I. Qed.

Definition doubleb (x : float) : bool :=
  match x with
  | S754_finite _ m e => ((Zpos m <? 2 ^ 53) && (-1074 <=? e) && (e <=? 971) && ((2 ^ 52 <=? Zpos m) || (e =? -1074)))%Z
  | _ => true
  end.
Lemma doubleb_ok : forall x, doubleb x = true -> double x.
Proof.
  intros [s|s| |s m e] H; try exact I. unfold doubleb in H. rewrite !andb_true_iff, orb_true_iff, !Z.leb_le, Z.ltb_lt, Z.eqb_eq in H.
  unfold double. intuition.
Qed.

Definition header_okb (nm : names) (d : dataset) : bool :=
  forallb one_lineb (meta_texts (ds_meta d)) &&
  match ds_reaction d with
  | Some (m, t) => match m_str nm m with Ok s => one_lineb s && one_lineb (tree_str t) | Raise _ => true end
  | None => true
  end &&
  match ds_monitor d with
  | Some l => forallb (fun x => match monitor_str nm x with Ok s => one_lineb s | Raise _ => true end) l
  | None => true
  end &&
  match ds_frame d with Some f => one_lineb f | None => true end.
Lemma header_okb_ok : forall nm d, header_okb nm d = true -> header_ok nm d.
Proof.
  intros nm d H. unfold header_okb in H. rewrite !andb_true_iff in H. destruct H as [[[A B] C] D].
  split; [apply one_linesb_ok, A|]. split; [|split].
  - intros m t s E F. rewrite E, F in B. apply andb_true_iff in B. split; apply one_lineb_ok; apply B.
  - intros l x s E I F. rewrite E in C. rewrite forallb_forall in C. specialize (C x I). rewrite F in C. apply one_lineb_ok, C.
  - intros f E. rewrite E in D. apply one_lineb_ok, D.
Qed.

Definition table_okb (t : table) : bool :=
  forallb one_lineb (t_labels t) && forallb (fun u => match u with Some u => one_lineb u | None => true end) (t_units t).
Lemma table_okb_ok : forall t, table_okb t = true -> table_ok t.
Proof.
  intros t H. apply andb_true_iff in H. destruct H as [A B]. split; [apply one_linesb_ok, A|].
  intros u I. rewrite forallb_forall in B. apply one_lineb_ok. exact (B _ I).
Qed.

Definition cellsb (w : nat) (t : table) : bool :=
  forallb (forallb (fun c => match c with VFloat x => doubleb x && (length (cell_str (VFloat x)) <? w) | _ => true end)) (t_data t).
Lemma cellsb_ok : forall w t, cellsb w t = true ->
  forall row x, In row (t_data t) -> In (VFloat x) row -> double x /\ length (cell_str (VFloat x)) < w.
Proof.
  intros w t H row x I J. unfold cellsb in H. rewrite forallb_forall in H. specialize (H row I). rewrite forallb_forall in H.
  specialize (H _ J). cbv beta iota in H. apply andb_true_iff in H. destruct H as [A B]. split; [apply doubleb_ok, A|apply Nat.ltb_lt, B].
Qed.

(** Lines that are comments or have fewer than [n] words *)
Definition gluedb (n : nat) (l : str) : bool :=
  match l with "#"%char :: _ => true | _ => length (split_ws l) <? n end.
Lemma gluedb_ok : forall n l, gluedb n l = true -> comment_line l \/ (forall ws, words l ws -> length ws < n).
Proof.
  intros n l H.
  assert (G : length (split_ws l) < n -> forall ws, words l ws -> length ws < n).
  { intros L ws W. apply words_split in W. subst ws. exact L. }
  destruct l as [|c l]; [right; apply G, Nat.ltb_lt, H|].
  destruct (Ascii.eqb c "#") eqn:E.
  - apply Ascii.eqb_eq in E. subst c. left. eexists. reflexivity.
  - right. apply G, Nat.ltb_lt. destruct c as [[] [] [] [] [] [] [] []]; try exact H; discriminate.
Qed.
Definition linesb (text : str) (ls : list str) : bool :=
  match ls with [] => false | _ => forallb one_lineb ls && str_eqb text (join [nl] ls) end.
Lemma linesb_ok : forall text ls, linesb text ls = true -> text_lines text ls.
Proof.
  intros text ls H. unfold linesb in H. destruct ls as [|l ls]; [discriminate|]. apply andb_true_iff in H. destruct H as [A B].
  split; [discriminate|]. split; [apply one_linesb_ok, A|]. apply str_eqb_eq in B. rewrite B. apply between_join.
Qed.
