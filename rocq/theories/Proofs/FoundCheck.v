(** Deciding, for given texts, whether a data set is written in full (Spec/Found.v). *)
From Coq Require Import String List Ascii NArith ZArith Bool Arith Lia.
From Coq Require Import Floats.SpecFloat.
From Verif.Model Require Import Py PyFloat Utilities Dicts Particle Reaction Field Section Entry Columns Dataset Pyparsing Grammars.
From Verif.Spec Require Import Text Exfor Tables DataSets Merging Codes General Balance Known GeneralKnown IsomerMath Document WellWritten Pointed Found.
From Verif.Proofs Require Import StrLemmas FieldLemmas BibLemmas DataLemmas EntryLemmas MergeLemmas ShippedLemmas TextTableLemmas DocumentLemmas DocumentCheck KnownCheck WellCheck GeneralCheck IsomerCheck DatasetLemmas Guess Decide PointedCheck.
Import ListNotations.
Local Open Scope string_scope.
Local Open Scope list_scope.
Local Open Scope nat_scope.

Definition string_of (s : str) : string := string_of_list_ascii s.

(** Tables: what the cells contain. *)
Definition cell_at (lines : list str) (first j : nat) : str :=
  match nth_error lines (first + j / 6) with
  | Some l => strip (columns (11 * (j mod 6)) (11 * (j mod 6) + 11) l)
  | None => []
  end.
Definition head_at (lines : list str) (k j : nat) : phead :=
  let t := cell_at lines 1 j in
  let u := string_of (cell_at lines (1 + k) j) in
  if length t =? 11 then mkPhead (string_of (strip (firstn 10 t))) (nth_error t 10) u
  else mkPhead (string_of t) None u.
Definition columns_of (lines : list str) : nat :=
  match lines with
  | l0 :: _ => match split_ws (columns 0 33 l0) with _ :: w1 :: _ => match numeral w1 with Some z => Z.to_nat z | None => 0 end | _ => 0 end
  | [] => 0
  end.
Definition counted (lines : list str) : nat :=
  match lines with
  | l0 :: _ => match split_ws (columns 0 33 l0) with _ :: _ :: w2 :: _ => match numeral w2 with Some z => Z.to_nat z | None => 0 end | _ => 0 end
  | [] => 0
  end.
Definition heads_in (lines : list str) : list phead := map (head_at lines (lines_per_row (columns_of lines))) (seq 0 (columns_of lines)).
Definition texts_in (lines : list str) : list (list string) :=
  let n := columns_of lines in let k := lines_per_row n in
  map (fun i => map (fun j => string_of (cell_at lines (1 + (2 + i) * k) j)) (seq 0 n)) (seq 0 ((length lines - 2) / k - 2)).
Definition data_ok (lines : list str) : bool := pointedb lines (heads_in lines) (texts_in lines) (counted lines).

Lemma data_ok_ok : forall lines, data_ok lines = true -> pointed_table lines (heads_in lines) (map (map value_of) (texts_in lines)).
Proof. intros lines. apply pointedb_ok. Qed.

Definition common_ok (p : ascii) (text : str) : bool :=
  match lastb (keywordb (tx "COMMON")) (sections_in text) with
  | None => true
  | Some lines => data_ok lines && (length (texts_in lines) =? 1) && forallb (belongs p) (heads_in lines)
  end.
Lemma common_ok_ok : forall p text, common_ok p text = true -> exists heads row, pointed_common p text heads row.
Proof.
  intros p text H. unfold common_ok in H. destruct (lastb (keywordb (tx "COMMON")) (sections_in text)) as [lines|] eqn:L.
  - rewrite !andb_true_iff in H. destruct H as [[A B] C]. apply data_ok_ok in A. destruct (texts_in lines) as [|t [|? ?]]; try discriminate. cbn [map] in A.
    exists (map (fun h => (ph_label h, ph_unit h)) (heads_in lines)), (map value_of t). right. exists lines, (heads_in lines).
    split; [now apply has_sectionb|]. split; [exact A|]. split; [|reflexivity]. apply Forall_forall. now rewrite forallb_forall in C.
  - exists [], []. left. split; [reflexivity|]. split; [reflexivity|now apply no_sectionb].
Qed.

(** Reactions. *)
Fixpoint codes_in (x : ct) : list gcode :=
  match x with Rx r => [r] | Par e => codes_in e | Bin _ a b => codes_in a ++ codes_in b end.
Definition words_eqb (a b : list str) : bool := if list_eq_dec (list_eq_dec ascii_dec) a b then true else false.
Definition quantity_ok (x : ct) : bool :=
  match x with
  | Rx _ => true
  | _ => match codes_in x with
         | r :: rs => let q := general_quantities r in
             forallb (fun r' => words_eqb (general_quantities r') q) rs && ((length q =? 1) || forallb known_generalb (r :: rs))
         | [] => false
         end
  end.
Definition code_ok (c : codes) (text : str) : bool :=
  match factor_of c (length text) text with
  | Some (x, rest) => code_found c text (Some (x, rest)) && quantity_ok x
  | None => false
  end.
Lemma words_eqb_eq : forall a b, words_eqb a b = true -> a = b.
Proof. intros a b. unfold words_eqb. destruct (list_eq_dec _ a b); [auto|discriminate]. Qed.
Lemma codes_trees : forall x q, In (PGroup q) (ctrees x) <-> exists r, In r (codes_in x) /\ q = general_tree r.
Proof.
  induction x as [r|e IH|op a IHa b IHb]; intros q; cbn [ctrees codes_in].
  - split; [intros [E|[]]; exists r; split; [now left|congruence]|]. intros (r' & [<-|[]] & ->). now left.
  - rewrite <- IH. split; [intros [E|I]; [discriminate|]; apply in_app_or in I; destruct I as [I|[E|[]]]; [exact I|discriminate]|].
    intros I. right. apply in_or_app. now left.
  - split.
    + intros I. apply in_app_or in I. destruct I as [I|[E|I]]; [|discriminate|].
      * apply IHa in I. destruct I as (r & I & ->). exists r. split; [apply in_or_app; now left|reflexivity].
      * apply IHb in I. destruct I as (r & I & ->). exists r. split; [apply in_or_app; now right|reflexivity].
    + intros (r & I & ->). apply in_app_or in I. apply in_or_app. destruct I as [I|I]; [left; apply IHa; eauto|right; right; apply IHb; eauto].
Qed.
Lemma codes_good : forall c x, ct_ok c x = true -> forall r, In r (codes_in x) -> good_general (c_particles c) (c_compounds c) r.
Proof.
  intros c. induction x as [r|e IH|op a IHa b IHb]; intros H r' I; cbn [ct_ok codes_in] in *.
  - destruct I as [<-|[]]. apply andb_true_iff in H. destruct H as [H _]. now apply good_generalb_ok.
  - now apply IH.
  - rewrite !andb_true_iff in H. destruct H as [[A B] _]. apply in_app_or in I. destruct I; auto.
Qed.
Lemma code_ok_ok : forall c text, code_ok c text = true -> exists x line q, code_text c x line text /\ code_quantity c x q.
Proof.
  intros c text H. unfold code_ok in H. destruct (factor_of c (length text) text) as [[x rest]|]; [|discriminate]. cbn [code_found] in H.
  rewrite !andb_true_iff in H. destruct H as [[[F K] T] Q]. destruct (in_text_ok _ _ _ T) as [line L]. destruct x as [r|e|]; [| |discriminate].
  - clear Q. cbn [ct_ok ctokens] in *. apply andb_true_iff in K. destruct K as [G K]. apply good_generalb_ok in G. apply orb_true_iff in K. destruct K as [K|K].
    + exists (One r), line, (general_quantities r). split; [|reflexivity]. split; [exact G|]. split; [now apply known_generalb_ok|exact L].
    + destruct (gc_residual r) as [[n| |]|] eqn:R; try discriminate. destruct (general_quantities r) as [|q qs]; [discriminate|].
      exists (States r n q), line, [q]. split; [|reflexivity]. split; [exact G|]. split; [now apply state_mathb_ok|exact L].
  - cbn [ct_ok ctokens quantity_ok codes_in] in *. pose proof (codes_trees e) as CT. pose proof (codes_good c e K) as CG.
    destruct (codes_in e) as [|r rs]; [discriminate|]. apply andb_true_iff in Q. destruct Q as [Q1 Q2].
    exists (Several (ctrees e)), line, (general_quantities r). split.
    + exists (ctokens e). split; [now apply ct_written|]. split; [exact L|now apply ct_pieces].
    + split; [exists (general_tree r); apply CT; exists r; split; [now left|reflexivity]|]. split.
      * intros piece I. apply CT in I. destruct I as (r' & I & ->). cbn [general_tree tl]. f_equal. destruct I as [<-|I]; [reflexivity|].
        rewrite forallb_forall in Q1. now apply words_eqb_eq, Q1.
      * apply orb_true_iff in Q2. destruct Q2 as [Q2|Q2]; [left; now apply Nat.eqb_eq|right]. intros piece I. apply CT in I. destruct I as (r' & I & ->).
        exists r'. split; [now apply CG|]. split; [|reflexivity]. rewrite forallb_forall in Q2. now apply known_generalb_ok, Q2.
Qed.
Definition code_at (text text1 : str) (p : ascii) : option str :=
  match reaction_lines text p with
  | Some ls => Some (blank_separated (map strip ls))
  | None => if unstatedb text p then match reaction_lines text1 p with Some ls => Some (blank_separated (map strip ls)) | None => None end else None
  end.

Definition written_in_full (c : codes) (text text1 : str) (p : ascii) : bool :=
  match code_at text text1 p with Some code => code_ok c code | None => false end &&
  common_ok p text1 && common_ok p text &&
  match lastb (keywordb (tx "DATA")) (sections_in text) with Some lines => data_ok lines | None => false end.

Lemma code_at_ok : forall text text1 p code, code_at text text1 p = Some code -> stated_for text text1 p code.
Proof.
  intros text text1 p code H. unfold code_at in H. destruct (reaction_lines text p) as [ls|] eqn:R.
  - left. assert (code = blank_separated (map strip ls)) as -> by congruence. now apply stated_check.
  - right. destruct (unstatedb text p) eqn:U; [|discriminate]. destruct (reaction_lines text1 p) as [ls|] eqn:R1; [|discriminate].
    assert (code = blank_separated (map strip ls)) as -> by congruence. split; [now apply unstated_check|now apply stated_check].
Qed.
Lemma written_in_full_ok : forall c text text1 p, written_in_full c text text1 p = true -> exists x line k t, data_written c text text1 p x line k t.
Proof.
  intros c text text1 p H. unfold written_in_full in H. rewrite !andb_true_iff in H. destruct H as [[[H1 H2] H3] H4].
  destruct (code_at text text1 p) as [code|] eqn:C; [|discriminate]. apply code_at_ok in C. apply code_ok_ok in H1. destruct H1 as (x & line & q & T & Q).
  apply common_ok_ok in H2, H3. destruct H2 as (h1 & r1 & C1). destruct H3 as (h2 & r2 & C2).
  destruct (lastb (keywordb (tx "DATA")) (sections_in text)) as [lines|] eqn:L; [|discriminate].
  exists x, line, (class_of_quantity (PGroup (map PTok q))), (pointed_set p h1 h2 r1 r2 (heads_in lines) (map (map value_of) (texts_in lines))). split.
  - exists code, q. split; [exact C|]. split; [exact T|]. split; [exact Q|]. apply kind_of_class.
  - exists lines, h1, h2, r1, r2, (heads_in lines), (map (map value_of) (texts_in lines)). split; [exact C1|]. split; [exact C2|].
    split; [now apply has_sectionb|]. split; [now apply data_ok_ok|reflexivity].
Qed.

(** Back: what is stated is found. *)
Lemma lastb_back : forall (A : Type) (P : A -> Prop) f l x, (forall y, P y <-> f y = true) -> last_such P l x -> lastb f l = Some x.
Proof.
  intros A P f l x I (a & b & -> & Px & F). assert (N : lastb f b = None).
  { clear a. induction F as [|y b Ny F IH]; [reflexivity|]. cbn [lastb]. rewrite IH. destruct (f y) eqn:E; [|reflexivity]. apply I in E. contradiction. }
  induction a as [|y a IH]; cbn [app lastb]; [|now rewrite IH]. rewrite N. apply I in Px. now rewrite Px.
Qed.
Lemma has_section_back : forall name text b, has_section name text b -> lastb (keywordb (tx name)) (sections_in text) = Some b.
Proof.
  intros name text b (lines & bs & L & S & La). unfold sections_in. rewrite (lines_split _ _ L), (sections_chunkify _ _ S).
  apply (lastb_back _ _ _ _ _ (fun y => keyword_iff (tx name) y) La).
Qed.
Definition pointers_in (text : str) : list ascii :=
  match lastb (keywordb (tx "BIB")) (sections_in text) with
  | Some bib => match lastb (keywordb (tx "REACTION")) (bib_chunkify bib) with Some fld => map fst (field_lines fld) | None => [] end
  | None => []
  end.
Lemma stated_pointer : forall text p code, stated text p code -> In p (pointers_in text).
Proof.
  intros text p code (bib & fs & fld & ls & HB & F & La & PL & _). unfold pointers_in. rewrite (has_section_back _ _ _ HB).
  destruct F as (first & rest & -> & O & KF & Om). rewrite (bib_chunkify_fields _ _ _ O KF Om).
  rewrite (lastb_back _ _ _ _ _ (fun y => keyword_iff (tx "REACTION") y) La). apply in_map_iff. exists (p, ls). split; [reflexivity|now apply pointer_lines_in].
Qed.
