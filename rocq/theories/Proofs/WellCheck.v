(** Deciding, for given texts, the relations of Spec/WellWritten.v. *)
From Coq Require Import String List Ascii NArith ZArith Bool Arith Lia.
From Coq Require Import Floats.SpecFloat.
From Verif.Model Require Import Py PyFloat Utilities Dicts Particle Reaction Field Section Entry Columns Dataset Pyparsing Grammars.
From Verif.Spec Require Import Text Exfor Tables DataSets Codes Balance Known Names References Document WellWritten.
From Verif.Proofs Require Import StrLemmas NumLemmas IntLemmas BalanceLemmas FieldLemmas BibLemmas MonitorLemmas DataLemmas EntryLemmas ShippedLemmas TextTableLemmas DocumentLemmas DocumentCheck NamesExamples.
Import ListNotations.
Local Open Scope string_scope.
Local Open Scope list_scope.
Local Open Scope nat_scope.

(** The lines of the pointers are those of the field that is read. *)
Definition field_lines (fld : list str) : list (ascii * list str) :=
  match X4PlainField fld with Ok f => f_dict f | Raise _ => [] end.
Lemma pointer_lines_get : forall fld p ls, pointer_lines fld p ls -> dget Ascii.eqb p (field_lines fld) = Some ls.
Proof.
  intros fld p ls (texts & T & E & N). assert (fld <> []) by (intros ->; cbn in *; inversion T; subst; now elim N).
  destruct (plain_field_total fld H) as (f & P). unfold field_lines. rewrite P. destruct (plain_field_spec _ _ P) as (_ & (texts' & T' & D) & _).
  assert (texts' = texts) as ->.
  { clear - T T'. revert texts T. induction T' as [|x y xs ys R _ IH]; intros texts T; inversion T as [|? z ? zs R2 T2]; subst; [reflexivity|].
    f_equal; [|now apply IH]. apply right_trimmed_unique in R, R2. congruence. }
  rewrite D. destruct (marked p (marks " " fld) texts); [congruence|]. congruence.
Qed.
Lemma pointer_lines_in : forall fld p ls, pointer_lines fld p ls -> In (p, ls) (field_lines fld).
Proof. intros fld p ls L. apply (StrLemmas.dget_In _ Ascii.eqb_eq). now apply pointer_lines_get. Qed.

Lemma reactions_check : forall c fld, (forall p ls, In (p, ls) (field_lines fld) -> forall text, pointer_text ls text -> reaction_code c text) ->
  written_reactions c fld.
Proof. intros c fld H p ls text L T. exact (H p ls (pointer_lines_in _ _ _ L) text T). Qed.
Lemma pointer_text_is : forall ls text, pointer_text ls text -> text = blank_separated (map strip ls).
Proof.
  intros ls text (parts & F & ->). f_equal. induction F as [|l p ls ps T _ IH]; [reflexivity|]. cbn [map]. f_equal; [|exact IH].
  symmetry. now apply strip_iff.
Qed.

(** Tables. *)
Lemma written_numeric : forall b hd rows, written_table b hd rows -> numeric_table b.
Proof.
  intros b hd rows (N & C & HD & L & _ & R & V). exists (length hd), (length rows). cbv zeta.
  split; [destruct hd; [congruence|cbn [length]; lia]|]. split; [exact C|]. split; [exact HD|]. split; [exact L|].
  intros i j I J. destruct (nth_error rows i) as [row|] eqn:E; [|apply nth_error_None in E; lia].
  rewrite Forall_forall in R. pose proof (R row (nth_error_In _ _ E)) as LR.
  destruct (nth_error row j) as [x|] eqn:Q; [|apply nth_error_None in Q; lia]. destruct (V i row j x E Q) as (t & T & X). eauto.
Qed.

Definition cosineb (x : float) : bool := SFleb (SFopp (fl 1 0)) x && SFleb x (fl 1 0).
Definition angleb (x : float) : bool := cosineb (fadd (fmul x (fl 1 0)) (S754_zero false)) && cosineb (fadd (fmul x (fl 5 (-1))) (S754_zero false)).
Definition cell_in (l : str) (j : nat) : str := strip (columns (11 * (j mod 6)) (11 * (j mod 6) + 11) l).
(** Column [j] of the numbers holds cosines. *)
Definition cosines_check (section : list str) (k j : nat) : bool :=
  forallb (fun i => if 1 + (3 + i) * k <? length section then
                      match nth_error section (1 + (2 + i) * k + j / 6) with
                      | Some a => match parseFORTRANNumber (cell_in a j) with Ok (Some x) => angleb x | _ => true end
                      | None => true
                      end
                    else true) (seq 0 (length section)).
Definition simple_check (section : list str) : bool :=
  match section with
  | [] => true
  | l0 :: _ =>
      match split_ws (columns 0 33 l0) with
      | _ :: w1 :: _ =>
          match int_of_str w1 with
          | Some n => let cols := Z.to_nat n in
              forallb (fun j => match nth_error section (1 + j / 6), nth_error section (1 + lines_per_row cols + j / 6) with
                                | Some a, Some b =>
                                    let t := cell_in a j in let u := cell_in b j in
                                    (negb (contains (tx "COS") t) || cosines_check section (lines_per_row cols) j) &&
                                    negb (contains (tx "B*RT-EV") u) && (negb (keywordb (tx "COMMON") section) || (length t <? 11))
                                | _, _ => false
                                end) (seq 0 cols)
          | None => false
          end
      | _ => true
      end
  end.

Lemma angleb_ok : forall acos x, (forall y, cosine y -> acos y <> None) -> angleb x = true -> has_angle acos x.
Proof.
  intros acos x A H. unfold angleb, cosineb in H. rewrite !andb_true_iff in H. split; apply A; split; tauto.
Qed.
Lemma simple_check_ok : forall acos section, (forall y, cosine y -> acos y <> None) -> simple_check section = true -> simple_headings acos section.
Proof.
  intros acos section A H.
  assert (X : forall j t u, table_heading section j t u ->
    (mentions t (tx "COS") -> forall i w x, table_entry section i j w -> number_text w (Some x) -> has_angle acos x) /\
    ~ mentions u (tx "B*RT-EV") /\ (field_keyword (tx "COMMON") section -> length t < 11)).
  { intros j t u (cols & l0 & rest & w0 & w1 & ws & E & W & N & J & (a & TA & A1) & (b & TB & B1)). pose proof H as H0. rewrite E in H0. cbn [simple_check] in H0. rewrite <- E in H0.
    rewrite (words_split _ _ W), (number_int _ _ N) in H0. rewrite Nat2Z.id in H0. cbv zeta in H0. rewrite forallb_forall in H0.
    assert (I : In j (seq 0 cols)) by (apply in_seq; lia). specialize (H0 j I). rewrite TA, TB in H0. unfold cell_in in H0.
    apply strip_iff in A1, B1. rewrite A1, B1 in H0. rewrite !andb_true_iff, !orb_true_iff, !negb_true_iff in H0. destruct H0 as [[H1 H2] H3].
    split; [|split].
    - intros M i w x (cols' & l0' & rest' & w0' & w1' & ws' & E' & W' & N' & J' & LT & (d & TD & D1)) NT.
      destruct H1 as [H1|H1]; [apply contains_intro in M; congruence|].
      assert (cols' = cols).
      { rewrite E in E'. assert (l0' = l0) by congruence. subst l0'. assert (w1' = w1) by (apply words_split in W, W'; congruence). subst w1'.
        apply number_int in N, N'. apply Nat2Z.inj. congruence. }
      subst cols'. unfold cosines_check in H1. rewrite forallb_forall in H1.
      assert (KP : 0 < lines_per_row cols) by (apply lpr_pos; lia).
      specialize (H1 i ltac:(apply in_seq; nia)). apply Nat.ltb_lt in LT. rewrite LT in H1. rewrite TD in H1.
      unfold cell_in in H1. apply strip_iff in D1. rewrite D1, (number_parsed _ _ NT) in H1. now apply angleb_ok.
    - intro M. apply contains_intro in M. congruence.
    - intro K. destruct H3 as [H3|H3]; [apply keyword_iff in K; congruence|now apply Nat.ltb_lt]. }
  constructor.
  - intros j h u _ _. apply angleb_ok; [exact A|vm_compute; reflexivity].
  - intros i j h u t x T M E NT. exact (proj1 (X j h u T) M i t x E NT).
  - intros j t u T. exact (proj1 (proj2 (X j t u T))).
  - intros K j t u T. exact (proj2 (proj2 (X j t u T)) K).
Qed.
Lemma simple_subentry_check : forall acos text, (forall y, cosine y -> acos y <> None) ->
  forallb (fun b => keywordb (tx "BIB") b || simple_check b) (sections_in text) = true -> simple_subentry acos text.
Proof.
  intros acos text A H. exists (split_char nl text), (sections_in text). split; [apply split_lines|]. split; [apply sections_in_ok|].
  revert H. apply forallb_Forall. intros b H N. apply orb_true_iff in H. destruct H as [H|H]; [elim N; now apply keyword_iff|now apply simple_check_ok].
Qed.
(** Subentries. *)
Lemma well_subentry_check : forall c num text, numberedb num text = true -> Forall (well_section c) (sections_in text) -> well_subentry c text.
Proof.
  intros c num text N W. split; [exists num; now apply numbered_iff|]. exists (split_char nl text), (sections_in text).
  split; [apply split_lines|]. split; [apply sections_in_ok|exact W].
Qed.
(** Fields of other keywords are not looked into. *)
Lemma other_field : forall c fld, forallb (fun kw => negb (keywordb (tx kw) fld)) ["REACTION"; "MONITOR"; "REFERENCE"; "AUTHOR"; "INSTITUTE"] = true ->
  well_field c fld.
Proof.
  intros c fld H. cbn [forallb] in H. rewrite !andb_true_iff, !negb_true_iff in H. destruct H as (A & B & C & D & F & _).
  constructor; intro K; apply keyword_iff in K; congruence.
Qed.
Lemma only_keyword : forall c fld, (exists kw, In kw ["REACTION"; "MONITOR"; "REFERENCE"; "AUTHOR"; "INSTITUTE"] /\ field_keyword (tx kw) fld /\
    match kw with
    | "REACTION" => written_reactions c fld | "MONITOR" => written_monitors c fld | "REFERENCE" => written_references fld
    | "AUTHOR" => written_authors fld | _ => written_institutes fld
    end) -> well_field c fld.
Proof.
  intros c fld (kw & I & K & W).
  assert (U : forall kw', field_keyword (tx kw') fld -> tx kw' = tx kw).
  { intros kw' (l & r & E & T). destruct K as (l' & r' & E' & T'). rewrite E in E'. injection E' as <- <-.
    apply strip_iff in T, T'. congruence. }
  cbn [In] in I. destruct I as [<-|[<-|[<-|[<-|[<-|[]]]]]]; constructor; intro Q; try exact W; apply U in Q; discriminate Q.
Qed.
