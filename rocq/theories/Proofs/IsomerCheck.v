(** Checks that reactions to several states meet the hypotheses, for the examples. *)
From Coq Require Import String List Ascii NArith ZArith Bool Arith Lia.
From Verif.Model Require Import Py Dicts Particle Reaction.
From Verif.Spec Require Import Text Codes General Balance Known GeneralKnown IsomerMath.
From Verif.Proofs Require Import StrLemmas GeneralCheck.
Import ListNotations.
Local Open Scope string_scope.
Local Open Scope list_scope.
Local Open Scope nat_scope.

Definition inb (d : ascii) (s : string) : bool := existsb (Ascii.eqb d) (tx s).
Lemma inb_ok : forall d s, inb d s = true -> In d (tx s).
Proof. intros d s H. apply existsb_exists in H. destruct H as (x & I & E). apply Ascii.eqb_eq in E. now subst. Qed.
Definition several_statesb (l : list isomer) : bool :=
  existsb (fun a => existsb (fun b => negb (a =? b) &&
    match nth_error l a, nth_error l b with Some i, Some j => Ascii.eqb (i_letter i) "M" && inb (i_letter j) "MGT" | _, _ => false end)
    (seq 0 (length l))) (seq 0 (length l)).
Lemma several_statesb_ok : forall l, several_statesb l = true -> several_states l.
Proof.
  intros l H. apply existsb_exists in H. destruct H as (a & _ & H). apply existsb_exists in H. destruct H as (b & _ & H).
  apply andb_prop in H. destruct H as [N H]. destruct (nth_error l a) as [i|] eqn:EA; [|discriminate]. destruct (nth_error l b) as [j|] eqn:EB; [|discriminate].
  apply andb_prop in H. destruct H as [H1 H2]. exists a, b, i, j. split; [|split; [exact EA|split; [exact EB|split; [now apply Ascii.eqb_eq|now apply inb_ok]]]].
  intros ->. now rewrite Nat.eqb_refl in N.
Qed.
Definition state_mathb (r : gcode) (n : nuclide) (q : list ascii) : bool :=
  several_statesb (n_iso n) && forallb (fun i => inb (i_op i) "+-/") (tl (n_iso n)) &&
  forallb (fun i => match i_number i with [] => true | [d] => inb d "012345" | _ => false end) (n_iso n) &&
  match gc_target r with
  | Nucleus t => match n_iso t with [] => true | [i] => Ascii.eqb (i_op i) "-" | _ => false end
  | Compound _ => true
  | Sum _ => false
  end &&
  match gc_projectile r with CNuclide p => match n_iso p with [] => true | _ => false end | _ => true end &&
  forallb (fun o => match o with Out (CWord _) | Out (CMany _ _) => true | _ => false end) (gc_products r) &&
  match general_quantities r with q' :: _ => str_eqb q q' | [] => false end &&
  forallb (fun i => known_generalb (single r n q i)) (n_iso n).
Lemma forallb_impl : forall (A : Type) (f : A -> bool) (P : A -> Prop) l, (forall x, f x = true -> P x) -> forallb f l = true -> Forall P l.
Proof. intros A f P l I H. rewrite forallb_forall in H. apply Forall_forall. auto. Qed.
Lemma state_mathb_ok : forall r n q, gc_residual r = Some (Nucleus n) -> state_mathb r n q = true -> state_math r n q.
Proof.
  intros r n q R H. unfold state_mathb in H. rewrite !andb_true_iff in H. destruct H as [[[[[[[H1 H2] H3] H4] H5] H6] H7] H8]. constructor.
  - exact R.
  - now apply several_statesb_ok.
  - revert H2. apply forallb_impl. intros i. apply inb_ok.
  - revert H3. apply forallb_impl. intros i H. destruct (i_number i) as [|d [|]]; [now left|right|discriminate]. exists d. split; [reflexivity|now apply inb_ok].
  - destruct (gc_target r) as [t|k|w]; [|exact I|discriminate]. destruct (n_iso t) as [|i [|]]; [now left|right|discriminate]. exists i. split; [reflexivity|now apply Ascii.eqb_eq].
  - destruct (gc_projectile r) as [p|w|k w]; [|exact I|exact I]. destruct (n_iso p); [reflexivity|discriminate].
  - revert H6. apply forallb_impl. intros [[m|w|k w]|w] H; try exact I; discriminate.
  - destruct (general_quantities r) as [|q' more]; [discriminate|]. apply str_eqb_eq in H7. subst. now exists more.
  - revert H8. apply forallb_impl. intros i. apply known_generalb_ok.
Qed.
