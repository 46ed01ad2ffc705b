(** Deciding, for given texts, the relations of Spec/Document.v. *)
From Coq Require Import String List Ascii NArith ZArith Bool Arith Lia.
From Coq Require Import Floats.SpecFloat.
From Verif.Model Require Import Py PyFloat Utilities Dicts Particle Reaction Field Section Entry Columns Dataset.
From Verif.Spec Require Import Text Exfor Tables Codes Balance Document.
From Verif.Proofs Require Import StrLemmas BibLemmas DataLemmas EntryLemmas ShippedLemmas DocumentLemmas.
Import ListNotations.
Local Open Scope string_scope.
Local Open Scope list_scope.
Local Open Scope nat_scope.

Definition digit_of (c : ascii) : N := (N_of_ascii c - 48)%N.
Definition numberb (w : str) (n : Z) : bool :=
  negb (length w =? 0) && forallb (fun c => Ascii.eqb c (digit_char (digit_of c)) && (digit_of c <? 10)%N) w &&
  (n =? Z.of_N (value10 (map digit_of w)))%Z.
Lemma numberb_ok : forall w n, numberb w n = true -> number_is w n.
Proof.
  intros w n H. unfold numberb in H. rewrite !andb_true_iff in H. destruct H as [[H1 H2] H3]. exists (map digit_of w).
  rewrite forallb_forall in H2. split; [|split; [|split]].
  - unfold digits_text. rewrite map_map. rewrite <- (map_id w) at 1. apply map_ext_in. intros c I. specialize (H2 c I).
    apply andb_true_iff in H2. destruct H2 as [H2 _]. now apply Ascii.eqb_eq in H2.
  - apply Forall_forall. intros d I. apply in_map_iff in I. destruct I as (c & <- & I). specialize (H2 c I).
    apply andb_true_iff in H2. destruct H2 as [_ H2]. now apply N.ltb_lt.
  - destruct w; [discriminate|discriminate].
  - now apply Z.eqb_eq.
Qed.

Definition cellb (lines : list str) (first j : nat) (t : str) : bool :=
  match nth_error lines (first + j / 6) with
  | Some l => str_eqb (strip (columns (11 * (j mod 6)) (11 * (j mod 6) + 11) l)) t
  | None => false
  end.
Lemma cellb_ok : forall lines first j t, cellb lines first j t = true -> table_cell lines first j t.
Proof.
  intros lines first j t H. unfold cellb in H. destruct (nth_error lines (first + j / 6)) as [l|] eqn:E; [|discriminate].
  exists l. split; [exact E|]. apply str_eqb_eq in H. now apply strip_iff.
Qed.

Definition indexed {A} (l : list A) : list (nat * A) := combine (seq 0 (length l)) l.
Lemma indexed_In : forall (A : Type) (l : list A) j x, nth_error l j = Some x -> In (j, x) (indexed l).
Proof.
  intros A l j x H. unfold indexed.
  enough (G : forall l k j x, nth_error l j = Some x -> In (k + j, x) (combine (seq k (length l)) l)) by exact (G l 0 j x H).
  clear. induction l as [|y l IH]; intros k j x H; [destruct j; discriminate|]. destruct j as [|j]; cbn [length seq combine].
  - injection H as ->. left. f_equal. lia.
  - right. replace (k + S j) with (S k + j) by lia. now apply IH.
Qed.

Definition cardb (l : str) : bool := (length l <=? 66) && negb (cmem nl l).
Lemma cardb_ok : forall l, cardb l = true -> card l.
Proof.
  intros l H. unfold cardb in H. apply andb_true_iff in H. destruct H as [H1 H2]. split; [now apply Nat.leb_le|].
  intros I. apply (proj2 (cmem_In nl l)) in I. rewrite I in H2. discriminate.
Qed.

Definition writtenb (lines : list str) (heads : list heading) (texts : list (list str)) (m : nat) : bool :=
  let k := lines_per_row (length heads) in
  negb (length heads =? 0) && forallb cardb lines &&
  match lines with
  | l0 :: _ => match split_ws (columns 0 33 l0) with
               | _ :: w1 :: w2 :: _ => numberb w1 (Z.of_nat (length heads)) && numberb w2 (Z.of_nat m)
               | _ => false
               end
  | [] => false
  end &&
  existsb (Nat.eqb m) [length texts; length texts + 2; (length texts + 2) * k] &&
  (length lines =? 2 + (length texts + 2) * k) &&
  forallb (fun p => (String.length (fst (snd p)) <=? 10) && (String.length (snd (snd p)) <=? 10) &&
                    cellb lines 1 (fst p) (tx (fst (snd p))) && cellb lines (1 + k) (fst p) (tx (snd (snd p)))) (indexed heads) &&
  forallb (fun r => length r =? length heads) texts &&
  forallb (fun p => forallb (fun q => cellb lines (1 + (2 + fst p) * k) (fst q) (snd q)) (indexed (snd p))) (indexed texts).

Lemma Forall2_nth : forall (A B : Type) (P : A -> B -> Prop) l l', Forall2 P l l' -> forall i y, nth_error l' i = Some y ->
  exists x, nth_error l i = Some x /\ P x y.
Proof.
  induction 1 as [|x y l l' H F IH]; intros i z E; [destruct i; discriminate|]. destruct i as [|i]; cbn in *.
  - injection E as <-. eauto.
  - now apply IH.
Qed.

Lemma writtenb_as : forall {X} (reads : str -> X -> Prop) lines heads texts m rows, writtenb lines heads texts m = true ->
  Forall2 (Forall2 reads) texts rows -> written_as reads lines heads rows.
Proof.
  intros X reads lines heads texts m rows H F. unfold writtenb in H. cbv zeta in H. set (k := lines_per_row (length heads)) in *.
  rewrite !andb_true_iff in H. destruct H as [[[[[[[H1 H2] H3] H4] H5] H6] H7] H8].
  assert (L : length texts = length rows) by exact (Forall2_len _ _ _ _ _ F).
  rewrite L in H4, H5. unfold written_as. fold k. split; [destruct heads; [discriminate|discriminate]|]. split.
  { revert H2. apply forallb_Forall. exact cardb_ok. }
  split.
  { destruct lines as [|l0 rest]; [discriminate|]. pose proof (split_words (columns 0 33 l0)) as W.
    destruct (split_ws (columns 0 33 l0)) as [|w0 [|w1 [|w2 ws]]]; try discriminate.
    apply andb_true_iff in H3. destruct H3 as [A B]. exists l0, rest, w0, w1, w2, ws. split; [reflexivity|]. split; [exact W|].
    split; [now apply numberb_ok|]. exists m. split; [now apply numberb_ok|]. apply existsb_exists in H4. destruct H4 as (x & I & E).
    apply Nat.eqb_eq in E. now subst x. }
  split; [now apply Nat.eqb_eq|]. split.
  { intros j l u N. rewrite forallb_forall in H6. specialize (H6 _ (indexed_In _ _ _ _ N)). cbn [fst snd] in H6.
    rewrite !andb_true_iff in H6. destruct H6 as [[[A B] C] D]. apply Nat.leb_le in A, B. split; [exact A|]. split; [exact B|].
    split; now apply cellb_ok. }
  split.
  { apply Forall_forall. intros row I. destruct (In_nth_error _ _ I) as [i N]. destruct (Forall2_nth _ _ _ _ _ F i row N) as (ts & Nt & F1).
    rewrite forallb_forall in H7. specialize (H7 _ (nth_error_In _ _ Nt)). apply Nat.eqb_eq in H7. rewrite <- (Forall2_len _ _ _ _ _ F1). exact H7. }
  intros i row j x N Nx. destruct (Forall2_nth _ _ _ _ _ F i row N) as (ts & Nt & F1). destruct (Forall2_nth _ _ _ _ _ F1 j x Nx) as (t & Ntx & T).
  exists t. split; [|exact T]. rewrite forallb_forall in H8. specialize (H8 _ (indexed_In _ _ _ _ Nt)). cbn [fst snd] in H8.
  rewrite forallb_forall in H8. specialize (H8 _ (indexed_In _ _ _ _ Ntx)). now apply cellb_ok.
Qed.
Lemma writtenb_ok : forall lines heads texts m rows, writtenb lines heads texts m = true ->
  Forall2 (Forall2 number_text) texts rows -> written_table lines heads rows.
Proof. intros lines heads texts m rows. apply writtenb_as. Qed.

(** Subentries and sections. *)
Definition numberedb (num text : str) : bool :=
  match extractX4SubEntryIndex (split_char nl text) with Some a => str_eqb a num | None => false end.
Lemma numbered_iff : forall num text, numbered num text <-> numberedb num text = true.
Proof.
  intros num text. unfold numberedb. split.
  - intros (lines & pre & l & post & L & Q & A & B & C). rewrite <- (lines_split _ _ L) in Q.
    rewrite (proj2 (subentry_index (split_char nl text) num)) by eauto 10. apply str_eqb_refl.
  - destruct (extractX4SubEntryIndex (split_char nl text)) as [a|] eqn:E; [|discriminate]. intros H. apply str_eqb_eq in H. subst a.
    apply subentry_index in E. destruct E as (pre & l & post & Q & A & B & C). exists (split_char nl text), pre, l, post.
    split; [apply split_lines|auto].
Qed.

Definition keywordb (kw : str) (fld : list str) : bool :=
  match fld with l :: _ => str_eqb (strip (columns 0 10 l)) kw | [] => false end.
Lemma keyword_iff : forall kw fld, field_keyword kw fld <-> keywordb kw fld = true.
Proof.
  intros kw fld. unfold keywordb. split.
  - intros (l & r & -> & K). apply str_eqb_eq. now apply trimmed_unique.
  - destruct fld as [|l r]; [discriminate|]. intros H. apply str_eqb_eq in H. exists l, r. split; [reflexivity|]. now apply strip_iff.
Qed.

(** The last element that passes a test. *)
Fixpoint lastb {A} (f : A -> bool) (l : list A) : option A :=
  match l with
  | [] => None
  | x :: l' => match lastb f l' with Some y => Some y | None => if f x then Some x else None end
  end.
Lemma lastb_none : forall (A : Type) (f : A -> bool) l, lastb f l = None -> Forall (fun x => f x = false) l.
Proof.
  induction l as [|x l IH]; intros H; [constructor|]. cbn in H. destruct (lastb f l); [discriminate|]. destruct (f x) eqn:E; [discriminate|].
  constructor; auto.
Qed.
Lemma lastb_ok : forall (A : Type) (P : A -> Prop) f l x, (forall y, P y <-> f y = true) -> lastb f l = Some x -> last_such P l x.
Proof.
  intros A P f l x I. induction l as [|y l IH]; intros H; [discriminate|]. cbn in H. destruct (lastb f l) as [z|] eqn:E.
  - injection H as ->. destruct (IH eq_refl) as (a & b & -> & Px & F). exists (y :: a), b. auto.
  - destruct (f y) eqn:Fy; [|discriminate]. injection H as ->. exists [], l. split; [reflexivity|]. split; [now apply I|].
    apply lastb_none in E. eapply Forall_impl; [|exact E]. intros z Fz Pz. apply I in Pz. congruence.
Qed.

Definition sections_in (text : str) : list (list str) := subentry_chunkify (split_char nl text).
Lemma sections_in_ok : forall text, sections (split_char nl text) (sections_in text).
Proof. intros text. now apply subentry_chunkify_iff. Qed.
Lemma has_sectionb : forall name text b, lastb (keywordb (tx name)) (sections_in text) = Some b -> has_section name text b.
Proof.
  intros name text b H. exists (split_char nl text), (sections_in text). split; [apply split_lines|]. split; [apply sections_in_ok|].
  apply (lastb_ok _ _ (keywordb (tx name))); [intros y; apply keyword_iff|exact H].
Qed.
Lemma no_sectionb : forall name text, lastb (keywordb (tx name)) (sections_in text) = None -> no_section name text.
Proof.
  intros name text H. exists (split_char nl text), (sections_in text). split; [apply split_lines|]. split; [apply sections_in_ok|].
  apply lastb_none in H. eapply Forall_impl; [|exact H]. intros b E K. apply keyword_iff in K. congruence.
Qed.
Lemma sections_namedb : forall text,
  forallb (fun b => existsb (fun n => keywordb (tx n) b) ["BIB"; "DATA"; "COMMON"]) (sections_in text) = true -> sections_named text.
Proof.
  intros text H. exists (split_char nl text), (sections_in text). split; [apply split_lines|]. split; [apply sections_in_ok|].
  revert H. apply forallb_Forall. intros b H. apply existsb_exists in H. destruct H as (n & I & H). exists n. split; [exact I|]. now apply keyword_iff.
Qed.

(** Fields. *)
Lemma fields_ok : forall lines first rest, bib_chunkify lines = first :: rest -> (exists l, In l lines /\ ~ frame_line l) ->
  fields lines (first :: rest).
Proof.
  intros lines first rest E (l & I & N). destruct (bib_chunkify_spec lines) as (f & r & kept & Q & M & C & _ & O & K).
  rewrite E in Q. injection Q as <- <-. exists first, rest. split; [reflexivity|].
  assert (kept <> []).
  { intros ->. apply omits_filter in M. assert (J : In l []); [|destruct J]. rewrite M. apply filter_In. split; [exact I|].
    apply negb_true_iff. destruct (is_frame l) eqn:Q; [|reflexivity]. apply is_frame_iff in Q. contradiction. }
  split; [now apply O|]. split; [exact K|]. rewrite C. exact M.
Qed.
Lemma field_textb : forall fld, field_text fld (blank_separated (map (fun l => strip (columns 11 66 l)) fld)).
Proof.
  intros fld. exists (map (fun l => strip (columns 11 66 l)) fld). split; [|reflexivity].
  induction fld as [|l fld IH]; cbn; constructor; auto. apply strip_trimmed.
Qed.
