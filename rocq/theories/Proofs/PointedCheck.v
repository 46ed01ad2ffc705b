(** Deciding, for given texts, the relations of Spec/Pointed.v. *)
From Coq Require Import String List Ascii NArith ZArith Bool Arith Lia.
From Coq Require Import Floats.SpecFloat.
From Verif.Model Require Import Py PyFloat Utilities Dicts Particle Reaction Field Section Entry Columns Dataset Pyparsing Grammars.
From Verif.Spec Require Import Text Exfor Tables DataSets Codes General Balance Known GeneralKnown IsomerMath Document WellWritten Pointed.
From Verif.Proofs Require Import StrLemmas FieldLemmas BibLemmas DataLemmas EntryLemmas ShippedLemmas TextTableLemmas DocumentLemmas DocumentCheck KnownCheck WellCheck GeneralCheck Guess Decide.
Import ListNotations.
Local Open Scope string_scope.
Local Open Scope list_scope.
Local Open Scope nat_scope.

(** Numbers. *)
Definition value_of (t : string) : option float := match parseFORTRANNumber (tx t) with Ok x => x | Raise _ => None end.
Lemma value_ok : forall t, number_okb (tx t) = true -> number_text (tx t) (value_of t).
Proof.
  intros t H. destruct (number_okb_ok _ H) as (x & X). unfold value_of. rewrite (number_parsed _ _ X). exact X.
Qed.

(** Tables. *)
Definition pointer_eqb (a b : option ascii) : bool :=
  match a, b with Some x, Some y => Ascii.eqb x y | None, None => true | _, _ => false end.
Definition heading_of (h : phead) : str :=
  match ph_pointer h with None => tx (ph_label h) | Some p => tx (ph_label h) ++ repeat " "%char (10 - String.length (ph_label h)) ++ [p] end.
Definition headb (h : phead) : bool :=
  (String.length (ph_label h) <=? 10) && match ph_pointer h with None => true | Some _ => str_eqb (strip (tx (ph_label h))) (tx (ph_label h)) end.
Lemma headb_ok : forall h, headb h = true -> heading_cell h (heading_of h).
Proof.
  intros h H. unfold headb in H. apply andb_true_iff in H. destruct H as [A B]. apply Nat.leb_le in A. unfold heading_cell, heading_of.
  destruct (ph_pointer h) as [p|]; [|auto]. split; [now apply strip_iff, str_eqb_eq|]. exists (10 - String.length (ph_label h)). split; [lia|reflexivity].
Qed.
Definition pointedb (lines : list str) (heads : list phead) (texts : list (list string)) (m : nat) : bool :=
  let k := lines_per_row (length heads) in
  negb (length heads =? 0) && forallb cardb lines &&
  match lines with
  | l0 :: _ => match split_ws (columns 0 33 l0) with
               | _ :: w1 :: w2 :: _ => numberb w1 (Z.of_nat (length heads)) && numberb w2 (Z.of_nat m)
               | _ => false
               end
  | [] => false
  end &&
  existsb (Nat.eqb m) [length texts; length texts + 2; (length texts + 2) * k] &&
  (length lines =? 2 + (length texts + 2) * k) &&
  forallb (fun p => headb (snd p) && cellb lines 1 (fst p) (heading_of (snd p)) &&
                    (String.length (ph_unit (snd p)) <=? 10) && cellb lines (1 + k) (fst p) (tx (ph_unit (snd p)))) (indexed heads) &&
  forallb (fun p => forallb (fun q => match ph_pointer (snd p) with None => true | Some _ =>
     negb (pointer_eqb (ph_pointer (snd p)) (ph_pointer (snd q)) && String.eqb (ph_label (snd p)) (ph_label (snd q))) || (fst p =? fst q) end) (indexed heads)) (indexed heads) &&
  forallb (fun r => length r =? length heads) texts &&
  forallb (fun p => forallb (fun q => cellb lines (1 + (2 + fst p) * k) (fst q) (tx (snd q)) && number_okb (tx (snd q))) (indexed (snd p))) (indexed texts).
Lemma pointedb_ok : forall lines heads texts m, pointedb lines heads texts m = true -> pointed_table lines heads (map (map value_of) texts).
Proof.
  intros lines heads texts m H. unfold pointedb in H. cbv zeta in H. set (k := lines_per_row (length heads)) in *.
  rewrite !andb_true_iff in H. destruct H as [[[[[[[[H1 H2] H3] H4] H5] H6] H7] H8] H9].
  unfold pointed_table. fold k. rewrite map_length. split; [destruct heads; [discriminate|discriminate]|]. split.
  { revert H2. apply forallb_Forall. exact cardb_ok. }
  split.
  { destruct lines as [|l0 rest]; [discriminate|]. pose proof (split_words (columns 0 33 l0)) as W.
    destruct (split_ws (columns 0 33 l0)) as [|w0 [|w1 [|w2 ws]]]; try discriminate.
    apply andb_true_iff in H3. destruct H3 as [A B]. exists l0, rest, w0, w1, w2, ws. split; [reflexivity|]. split; [exact W|].
    split; [now apply numberb_ok|]. exists m. split; [now apply numberb_ok|]. apply existsb_exists in H4. destruct H4 as (x & I & E).
    apply Nat.eqb_eq in E. now subst x. }
  split; [now apply Nat.eqb_eq|]. split.
  { intros j h N. rewrite forallb_forall in H6. specialize (H6 _ (indexed_In _ _ _ _ N)). cbn [fst snd] in H6.
    rewrite !andb_true_iff in H6. destruct H6 as [[[A B] C] D]. apply Nat.leb_le in C. exists (heading_of h).
    split; [now apply headb_ok|]. split; [now apply cellb_ok|]. split; [exact C|now apply cellb_ok]. }
  split.
  { intros i j h h' N N' P E L. rewrite forallb_forall in H7. specialize (H7 _ (indexed_In _ _ _ _ N)). cbn [fst snd] in H7.
    rewrite forallb_forall in H7. specialize (H7 _ (indexed_In _ _ _ _ N')). cbn [fst snd] in H7. destruct (ph_pointer h) as [p|]; [|congruence].
    rewrite <- E, L in H7. cbn [pointer_eqb] in H7. rewrite Ascii.eqb_refl, String.eqb_refl in H7. cbn [andb negb orb] in H7. now apply Nat.eqb_eq. }
  split.
  { apply Forall_map. revert H8. apply forallb_Forall. intros r E. rewrite map_length. now apply Nat.eqb_eq. }
  intros i row j x N Nx. rewrite nth_error_map in N. destruct (nth_error texts i) as [ts|] eqn:Nt; [|discriminate]. injection N as <-.
  rewrite nth_error_map in Nx. destruct (nth_error ts j) as [t|] eqn:Ntx; [|discriminate]. injection Nx as <-.
  rewrite forallb_forall in H9. specialize (H9 _ (indexed_In _ _ _ _ Nt)). cbn [fst snd] in H9.
  rewrite forallb_forall in H9. specialize (H9 _ (indexed_In _ _ _ _ Ntx)). cbn [fst snd] in H9. apply andb_true_iff in H9. destruct H9 as [A B].
  exists (tx t). split; [now apply cellb_ok|now apply value_ok].
Qed.

(** Reactions. *)
Lemma get_pointer_lines : forall fld p ls, dget Ascii.eqb p (field_lines fld) = Some ls -> pointer_lines fld p ls.
Proof.
  intros fld p ls H. unfold field_lines in H. destruct (X4PlainField fld) as [f|x] eqn:P; [|discriminate].
  destruct (plain_field_spec _ _ P) as (_ & (texts & T & D) & _). rewrite D in H. exists texts. split; [exact T|].
  destruct (marked p (marks " " fld) texts) as [|l ls'] eqn:E; [discriminate|]. injection H as <-. split; [reflexivity|discriminate].
Qed.
Definition bib_okb (bib : list str) : bool := existsb (fun l => negb (is_frame l)) bib.
Lemma bib_fields : forall bib, bib_okb bib = true -> fields bib (bib_chunkify bib).
Proof.
  intros bib H. destruct (bib_chunkify bib) as [|f fs] eqn:E.
  - destruct (bib_chunkify_spec bib) as (f & r & _ & Q & _). congruence.
  - apply fields_ok; [exact E|]. apply existsb_exists in H. destruct H as (l & I & F). exists l. split; [exact I|].
    intro X. apply is_frame_iff in X. rewrite X in F. discriminate.
Qed.
Lemma pointer_textb : forall ls, pointer_text ls (blank_separated (map strip ls)).
Proof. intros ls. exists (map strip ls). split; [|reflexivity]. induction ls as [|l ls IH]; cbn; constructor; [apply strip_trimmed|exact IH]. Qed.
Definition reaction_lines (text : str) (p : ascii) : option (list str) :=
  match lastb (keywordb (tx "BIB")) (sections_in text) with
  | Some bib => if bib_okb bib then match lastb (keywordb (tx "REACTION")) (bib_chunkify bib) with
                                    | Some fld => dget Ascii.eqb p (field_lines fld) | None => None end else None
  | None => None
  end.
Lemma stated_check : forall text p ls, reaction_lines text p = Some ls -> stated text p (blank_separated (map strip ls)).
Proof.
  intros text p ls H. unfold reaction_lines in H. destruct (lastb (keywordb (tx "BIB")) (sections_in text)) as [bib|] eqn:B; [|discriminate].
  destruct (bib_okb bib) eqn:O; [|discriminate]. destruct (lastb (keywordb (tx "REACTION")) (bib_chunkify bib)) as [fld|] eqn:F; [|discriminate].
  exists bib, (bib_chunkify bib), fld, ls. split; [now apply has_sectionb|]. split; [now apply bib_fields|].
  split; [exact (lastb_ok _ _ _ _ _ (fun y => keyword_iff (tx "REACTION") y) F)|]. split; [now apply get_pointer_lines|apply pointer_textb].
Qed.
Definition unstatedb (text : str) (p : ascii) : bool :=
  match lastb (keywordb (tx "BIB")) (sections_in text) with
  | Some bib => bib_okb bib && match lastb (keywordb (tx "REACTION")) (bib_chunkify bib) with
                               | Some fld => match dget Ascii.eqb p (field_lines fld) with None => true | Some _ => false end | None => true end
  | None => true
  end.
Lemma unstated_check : forall text p, unstatedb text p = true -> unstated text p.
Proof.
  intros text p H. unfold unstatedb in H. destruct (lastb (keywordb (tx "BIB")) (sections_in text)) as [bib|] eqn:B; [|left; now apply no_sectionb].
  apply andb_true_iff in H. destruct H as [O H]. right. exists bib, (bib_chunkify bib). split; [now apply has_sectionb|]. split; [now apply bib_fields|].
  destruct (lastb (keywordb (tx "REACTION")) (bib_chunkify bib)) as [fld|] eqn:F.
  - right. exists fld. split; [exact (lastb_ok _ _ _ _ _ (fun y => keyword_iff (tx "REACTION") y) F)|]. intros ls L. apply pointer_lines_get in L. now rewrite L in H.
  - left. apply lastb_none in F. eapply Forall_impl; [|exact F]. intros y E K. apply keyword_iff in K. congruence.
Qed.
