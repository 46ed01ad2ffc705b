(** Lemmas on references and authors, whole fields. *)
From Coq Require Import String List Ascii NArith ZArith Bool Arith Lia.
From Verif.Model Require Import Py Particle Dicts Pyparsing Grammars Reaction Field.
From Verif.Spec Require Import Text Codes Exfor Names References.
From Verif.Proofs Require Import StrLemmas ReactionLemmas NumLemmas DataLemmas ParseLemmas GrammarFields DictLemmas BibLemmas ErrorLemmas BalanceLemmas NestedLemmas CommaLemmas AuthorLemmas.
Import ListNotations.
Local Open Scope list_scope.
Local Open Scope nat_scope.

(** * Authors *)

Lemma family_name : forall n, after_last_dot n (last (split_char "."%char n) []).
Proof.
  intros n. destruct (in_dec ascii_dec "."%char n) as [I|I].
  - assert (H : exists a b, n = a ++ "."%char :: b /\ ~ In "."%char b).
    { clear -I. induction n as [|c n IH]; [contradiction|]. destruct (in_dec ascii_dec "."%char n) as [J|J].
      - destruct (IH J) as (a & b & -> & B). exists (c :: a), b. split; [reflexivity|exact B].
      - destruct I as [E|I]; [|contradiction]. exists [], n. subst c. split; [reflexivity|exact J]. }
    destruct H as (a & b & -> & B). rewrite split_char_app by exact B. split; [exact B|]. right. now exists a.
  - assert (E : split_char "."%char n = [n]).
    { clear -I. induction n as [|c n IH]; [reflexivity|]. cbn [split_char].
      destruct (Ascii.eqb c "."%char) eqn:E; [apply Ascii.eqb_eq in E; subst; exfalso; apply I; now left|].
      rewrite IH by (intro J; apply I; now right). reflexivity. }
    rewrite E. cbn [last]. split; [exact I|]. now left.
Qed.

Lemma author_field : forall c e lines f nss, e_g e = x4grammars c -> X4PlainField lines = Ok f ->
  ~ author_missing lines ->
  Forall2 (fun names pl => author_list names (concat (map strip (snd pl)))) nss (f_dict f) ->
  exists a, X4AuthorField e lines = Ok a /\ a_plain a = f /\ a_authors a = map title (concat nss) /\
    Forall2 after_last_dot (a_authors a) (a_family_names a).
Proof.
  intros c e lines f nss G P M F. unfold X4AuthorField. cbv zeta.
  destruct (contains (lit "No author given") (join [nl] lines) || contains (lit ".NOT GIVEN.") (join [nl] lines)) eqn:O.
  { exfalso. apply M, no_author_missing. apply orb_true_iff in O. exact O. }
  rewrite P. cbn [bind].
  assert (E : map_res (fun pl => authors_of e (snd pl)) (f_dict f) = Ok (map (map title) nss)).
  { clear P. induction F as [|names pl nss pls N F IH]; [reflexivity|]. cbn [map_res map].
    rewrite (authors_read c e names _ G N). cbn [bind]. rewrite IH. reflexivity. }
  rewrite E. cbn [bind]. eexists. split; [reflexivity|]. cbn [a_plain a_authors a_family_names].
  split; [reflexivity|]. split; [symmetry; apply concat_map|].
  induction (concat (map (map title) nss)) as [|a l IH]; [constructor|]. cbn [map]. constructor; [apply family_name|exact IH].
Qed.

(** * Lines of references *)

Lemma but_last_snoc : forall (A : Type) (l : list A) x, but_last (l ++ [x]) = l.
Proof. intros A l x. unfold but_last. rewrite app_length, Nat.add_sub. rewrite firstn_app, Nat.sub_diag, firstn_all. apply app_nil_r. Qed.

Lemma not_opening : forall l, ~ opening l -> str_eqb (slice_to l 2) (lit "((") = false /\ str_eqb (slice_to l 1) (lit "(") = false.
Proof.
  intros l N. destruct l as [|c l]; [split; reflexivity|].
  destruct (Ascii.eqb c "("%char) eqn:E; [apply Ascii.eqb_eq in E; subst; exfalso; apply N; now exists l|].
  split.
  - destruct l; cbn; now rewrite ?E.
  - cbn. now rewrite E.
Qed.
Lemma strip_newlines : forall l, ~ In nl l -> replace_char nl [] l = l.
Proof. intros l H. now apply replace_char_notin. Qed.

Lemma last_line : forall (acc : list str) a l (has inside : bool), ~ In nl l -> str_eqb (slice_to l 2) (lit "((") = false ->
  negb inside && str_eqb (slice_to l 1) (lit "(") = false ->
  ref_step (acc ++ [a], inside, has) l = Ok (acc ++ [a ++ l], if contains (lit "))") l then false else inside, has).
Proof.
  intros acc a l has inside N E1 E2. unfold ref_step. cbv zeta. rewrite E1, E2. rewrite strip_newlines by assumption.
  destruct (acc ++ [a]) as [|x y] eqn:E; [destruct acc; discriminate|]. rewrite <- E. cbn [bind].
  rewrite but_last_snoc, last_last. reflexivity.
Qed.
Lemma more_lines : forall more acc a has, Forall (fun l => ~ opening l) more -> Forall (fun l => ~ In nl l) more ->
  fold_res ref_step more (acc ++ [a], false, has) = Ok (acc ++ [a ++ concat more], false, has).
Proof.
  induction more as [|l more IH]; intros acc a has O N; [cbn [concat fold_res]; now rewrite app_nil_r|].
  inversion O as [|? ? O1 O2]; inversion N as [|? ? N1 N2]; subst. cbn [fold_res].
  destruct (not_opening l O1) as [E1 E2]. rewrite last_line by (auto; rewrite E2; apply andb_false_r). cbn [bind].
  replace (if contains (lit "))") l then false else false) with false by now destruct (contains _ _).
  rewrite IH by assumption. cbn [concat]. now rewrite app_assoc.
Qed.
Lemma closing_is : forall l, closing l <-> contains (lit "))") l = true.
Proof.
  intros l. split.
  - intros (a & b & ->). exact (mentions_contains (lit "))") a b).
  - intros H. apply contains_mentions in H. destruct H as (a & b & ->). exists a, b. reflexivity.
Qed.
Lemma twice_is : forall l, twice l <-> str_eqb (slice_to l 2) (lit "((") = true.
Proof.
  intros l. split; [now intros (s & ->)|]. destruct l as [|c [|d l]]; try discriminate.
  - intros H. cbn in H. now rewrite andb_false_r in H.
  - intros H. change (slice_to (c :: d :: l) 2) with [c; d] in H. apply str_eqb_eq in H. assert (c = "("%char /\ d = "("%char) as [-> ->] by (unfold lit in H; cbn in H; split; congruence).
    now exists l.
Qed.
Lemma not_twice : forall l, ~ twice l -> str_eqb (slice_to l 2) (lit "((") = false.
Proof. intros l N. destruct (str_eqb (slice_to l 2) (lit "((")) eqn:E; [|reflexivity]. now apply twice_is in E. Qed.
Lemma going_lines : forall b more, goes_on b more -> Forall (fun l => ~ In nl l) more -> forall acc a has,
  fold_res ref_step more (acc ++ [a], b, has) = Ok (acc ++ [a ++ concat more], false, has).
Proof.
  induction 1 as [|l ls O G IH|l ls T C G IH|l ls T C G IH]; intros N acc a has; [cbn [concat fold_res]; now rewrite app_nil_r|..];
    inversion N as [|? ? N1 N2]; subst; cbn [fold_res].
  - destruct (not_opening l O) as [E1 E2]. rewrite last_line by (auto; rewrite E2; apply andb_false_r). cbn [bind].
    replace (if contains (lit "))") l then false else false) with false by now destruct (contains _ _).
    rewrite IH by assumption. cbn [concat]. now rewrite app_assoc.
  - rewrite last_line by (auto using not_twice). apply closing_is in C. rewrite C. cbn [bind]. rewrite IH by assumption. cbn [concat]. now rewrite app_assoc.
  - rewrite last_line by (auto using not_twice).
    destruct (contains (lit "))") l) eqn:E; [apply closing_is in E; contradiction|]. cbn [bind]. rewrite IH by assumption. cbn [concat]. now rewrite app_assoc.
Qed.
Lemma plain_start : forall first more, ~ opening first -> Forall (fun l => ~ opening l) more -> ~ twice ("("%char :: first ++ concat more).
Proof.
  intros first more O M (s & E). assert (Q : opening (first ++ concat more)) by (exists s; congruence). clear E s.
  destruct first as [|c first]; [|destruct Q as (s & E); apply O; exists first; cbn [app] in E; congruence].
  cbn [app] in Q. induction M as [|l more L M IH]; [destruct Q as (s & E); discriminate|]. cbn [concat] in Q. destruct l as [|c l]; [now apply IH|].
  destruct Q as (s & E). apply L. exists l. cbn [app] in E. congruence.
Qed.
Lemma all_lines : forall lines texts, one_by_one lines texts -> Forall (fun l => ~ In nl l) lines ->
  forall acc has, exists has', fold_res ref_step lines (acc, false, has) = Ok (acc ++ texts, false, has') /\
    (has' = true <-> has = true \/ Exists twice texts).
Proof.
  induction 1 as [|first more lines texts O M S IH|first more lines texts TW G S IH]; intros N acc has.
  - exists has. cbn [fold_res]. rewrite app_nil_r. split; [reflexivity|]. split; [now left|]. intros [H|H]; [exact H|inversion H].
  - inversion N as [|? ? N1 N2]; subst. apply Forall_app in N2 as [N2 N3]. cbn [fold_res]. unfold ref_step at 1. cbv zeta.
    rewrite strip_newlines by assumption.
    assert (E1 : str_eqb (slice_to ("("%char :: first) 2) (lit "((") = false).
    { apply not_twice. intros (s & E). apply O. exists s. congruence. }
    rewrite E1. replace (str_eqb (slice_to ("("%char :: first) 1) (lit "(")) with true by reflexivity. cbn [negb andb bind].
    replace (if contains (lit "))") ("("%char :: first) then false else false) with false by now destruct (contains _ _).
    cbn [bind]. rewrite fold_res_app, more_lines by assumption. cbn [bind].
    destruct (IH N3 (acc ++ [("("%char :: first) ++ concat more]) has) as (has' & E & H). exists has'. rewrite E, <- app_assoc. split; [reflexivity|].
    rewrite H. split; (intros [X|X]; [now left|]); [right; now right|]. inversion X as [? ? X1|? ? X1]; subst; [|now right].
    exfalso. exact (plain_start first more O M X1).
  - inversion N as [|? ? N1 N2]; subst. apply Forall_app in N2 as [N2 N3]. cbn [fold_res]. unfold ref_step at 1. cbv zeta.
    rewrite strip_newlines by assumption. pose proof TW as TW'. apply twice_is in TW'. rewrite TW'. cbn [bind].
    assert (GO : goes_on (if contains (lit "))") first then false else true) more).
    { destruct G as [[C G]|[C G]]; [apply closing_is in C; now rewrite C|]. destruct (contains (lit "))") first) eqn:E; [apply closing_is in E; contradiction|exact G]. }
    rewrite fold_res_app, (going_lines _ _ GO N2). cbn [bind].
    destruct (IH N3 (acc ++ [first ++ concat more]) true) as (has' & E & H). exists has'. rewrite E, <- app_assoc. split; [reflexivity|].
    rewrite H. split; [|now left]. intros _. right. left. destruct TW as (s & ->). now exists (s ++ concat more).
Qed.

(** * One reference *)

Definition par (x : ptree) : res str :=
  match x with
  | PTok s => Ok s
  | PGroup (PTok s :: _) => Ok (lit "(" ++ s ++ lit ")")
  | PGroup (PGroup _ :: _) => Raise TypeError
  | PGroup [] => Raise IndexError
  end.

Lemma inner_wordy : forall c, plain_mark c \/ c = ","%char -> wordy c.
Proof. intros c [H| ->]; [now apply plain_wordy|split; reflexivity]. Qed.

Lemma blanks_nest : forall s t, blanks_in s t -> exists l ss, nest l t /\ map_res par l = Ok ss /\ concat ss = s.
Proof.
  induction 1 as [|c s t G B (l & ss & N & M & E)|c s t C B (l & ss & N & M & E)|w s t [W0 W] B (l & ss & N & M & E)].
  - exists [], []. split; [constructor; constructor|]. split; reflexivity.
  - exists l, ss. split; [|auto]. clear -N G. inversion N; subst.
    + constructor. now constructor.
    + change (c :: w ++ c0 :: t0 ++ s) with ((c :: w) ++ c0 :: t0 ++ s). constructor; [now constructor|assumption..].
    + change (c :: w ++ "("%char :: s1 ++ ")"%char :: s2) with ((c :: w) ++ "("%char :: s1 ++ ")"%char :: s2). constructor; [now constructor|assumption..].
  - apply inner_wordy in C as C'. destruct t as [|d t].
    + exists [PTok [c]], [[c]]. inversion B; subst. split; [|split; reflexivity].
      apply (nest_word [] c [] [] []); [constructor|now constructor|constructor; constructor|exact I].
    + destruct (nested_stop d) eqn:D.
      * exists (PTok [c] :: l), ([c] :: ss). split; [apply (nest_word [] c [] l (d :: t)); [constructor|now constructor|exact N|exact D]|].
        split; [cbn [map_res par bind]; now rewrite M|]. cbn [concat app]. now rewrite E.
      * (* the word goes on *)
        remember (d :: t) as dt eqn:Q. destruct N as [w G|w c0 t0 l s0 G W N F|w inner l s1 s2 G N1 N2].
        -- exfalso. subst. inversion G as [|? ? G1 _]; subst. apply gap_white in G1. unfold nested_stop in D. rewrite G1, !orb_true_r in D. discriminate.
        -- destruct w as [|x w].
           ++ cbn [app] in *. injection Q as Q1 Q2. subst c0 t. cbn [map_res par bind] in M. apply bind_ok in M as (ss' & M & X). injection X as <-.
              exists (PTok (c :: d :: t0) :: l), ((c :: d :: t0) :: ss'). split.
              { apply (nest_word [] c (d :: t0) l s0); [constructor|now constructor|exact N|exact F]. }
              split; [cbn [map_res par bind]; now rewrite M|]. cbn [concat app] in *. now rewrite <- E.
           ++ exfalso. cbn [app] in Q. injection Q as Q _. subst x. inversion G as [|? ? G1 _]; subst. apply gap_white in G1. unfold nested_stop in D. rewrite G1, !orb_true_r in D. discriminate.
        -- exfalso. destruct w as [|x w]; cbn [app] in Q; injection Q as Q _; [subst d; discriminate|]. subst x.
           inversion G as [|? ? G1 _]; subst. apply gap_white in G1. unfold nested_stop in D. rewrite G1, !orb_true_r in D. discriminate.
  - destruct w as [|c w]; [contradiction|].
    exists (PGroup [PTok (c :: w)] :: l), ((lit "(" ++ (c :: w) ++ lit ")") :: ss). split.
    + apply (nest_group [] [PTok (c :: w)] l (c :: w) t); [constructor| |exact N].
      rewrite <- (app_nil_r w) at 2. apply (nest_word [] c w [] []); [constructor| |constructor; constructor|exact I].
      eapply Forall_impl; [|exact W]. intros d. apply inner_wordy.
    + split; [cbn [map_res par bind]; now rewrite M|]. cbn [concat]. rewrite E. cbn [lit list_ascii_of_string app].
      now rewrite <- app_assoc.
Qed.

Lemma flatten_reads : forall c r body, blanks_in (c :: r) body -> c <> "("%char ->
  exists l, nest l body /\ flatten l = Ok (c :: r).
Proof.
  intros c r body B N. destruct (blanks_nest _ _ B) as (l & ss & NE & M & E). exists l. split; [exact NE|].
  assert (G : (ss <- map_res par l ;; Ok (concat ss)) = Ok (c :: r)) by (rewrite M; cbn [bind]; now rewrite E).
  destruct l as [|x [|y l]]; [exact G| |destruct x; exact G].
  destruct x as [s|l].
  - cbn [map_res par bind] in M. injection M as <-. cbn [concat] in E. rewrite app_nil_r in E. cbn [flatten]. now rewrite E.
  - exfalso. cbn [map_res par bind] in M. destruct l as [|[s|] l]; try discriminate. injection M as <-. cbn in E. injection E as E _. congruence.
Qed.

Lemma digit_mark : forall d, (d < 10)%N -> mark (digit_char d).
Proof.
  intros d H. apply mark_is.
  assert (F : forallb (fun d => is_mark (digit_char d)) [0;1;2;3;4;5;6;7;8;9]%N = true) by reflexivity.
  rewrite forallb_forall in F. apply F. cbn [In].
  assert (C : (d = 0 \/ d = 1 \/ d = 2 \/ d = 3 \/ d = 4 \/ d = 5 \/ d = 6 \/ d = 7 \/ d = 8 \/ d = 9)%N) by lia.
  intuition.
Qed.
Lemma marks_item : forall w, Forall mark w -> item_text w w.
Proof.
  intros w M. destruct w as [|c w]; [left; auto|]. right. exists [], [c :: w].
  split; [constructor|]. split; [discriminate|]. split; [|split; reflexivity]. constructor; [|constructor].
  split; [discriminate|]. eapply Forall_impl; [|exact M]. intros d. apply mark_is.
Qed.
Lemma refl_items : forall l, Forall (Forall mark) l -> Forall2 item_text l l.
Proof. induction 1; constructor; auto. now apply marks_item. Qed.

Lemma blanks_count : forall q s t, is_white q = false -> blanks_in s t -> count_occ ascii_dec s q = count_occ ascii_dec t q.
Proof.
  intros q s t W. induction 1 as [|c s t G B IH|c s t C B IH|w s t _ B IH].
  - reflexivity.
  - cbn [count_occ]. destruct (ascii_dec c q) as [ -> |_]; [apply gap_white in G; congruence|exact IH].
  - cbn [count_occ]. rewrite IH. reflexivity.
  - cbn [count_occ]. rewrite !count_occ_app. cbn [count_occ]. now rewrite IH.
Qed.
Lemma blanks_in_sub : forall s t, blanks_in s t -> incl s t.
Proof.
  induction 1 as [|c s t G B IH|c s t C B IH|w s t _ B IH]; intros x X.
  - exact X.
  - right. now apply IH.
  - destruct X as [<-|X]; [now left|right; now apply IH].
  - destruct X as [<-|X]; [now left|]. right. apply in_or_app. apply in_app_or in X. destruct X as [X|[<-|X]]; [now left|right; now left|].
    right. right. now apply IH.
Qed.

Lemma cell_table : forall dicts dictionary n key column, wide_rows dicts dictionary n -> column < n ->
  dict_cell dicts dictionary key column = match table_of dicts dictionary key column with Some t => Ok t | None => Raise KeyError end.
Proof.
  intros dicts dictionary n key column W L. unfold dict_cell, table_of. destruct (dget str_eqb (lit dictionary) dicts) as [d|] eqn:D; [|reflexivity].
  cbn [of_option bind]. destruct (dget str_eqb key d) as [row|] eqn:R; [|reflexivity]. cbn [of_option bind]. specialize (W _ _ _ D R).
  unfold idx. destruct (nth_error row column) eqn:E; [reflexivity|]. apply nth_error_None in E. lia.
Qed.

Lemma name_found : forall dicts ty name, rows_ok dicts -> In ty (publication_types ++ numbered_types) ->
  exists pretty, match getRefName dicts [ty] name with Raise KeyError => Ok ([ty] ++ lit "," ++ name) | r => r end = Ok pretty /\
    pretty_name capitalize (table_of dicts) ty name pretty.
Proof.
  intros dicts ty name (W1 & W2 & W3) I. unfold getRefName.
  rewrite (cell_table _ _ 1 _ _ W1) by lia. rewrite (cell_table _ _ 1 _ _ W2) by lia. rewrite !(cell_table _ _ 2 _ _ W3) by lia.
  change (publication_types ++ numbered_types) with (list_ascii_of_string "ABCJKPRSTWX034") in I. cbn [list_ascii_of_string In] in I.
  set (t1 := table_of dicts "ConferencesAndBooks" name 0). set (t2 := table_of dicts "Journals" name 0).
  remember (table_of dicts "ReferenceTypes" [ty] 1) as t3 eqn:E3.
  repeat (destruct I as [<-|I]; [
    cbn [smem existsb str_eqb lit list_ascii_of_string Ascii.eqb Bool.eqb andb orb];
    (destruct t1 eqn:E1; destruct t2 eqn:E2; destruct t3; cbn [bind]);
    (eexists; split; [reflexivity|]); unfold pretty_name; cbv zeta; rewrite <- ?E3; fold t1; fold t2; rewrite ?E1, ?E2;
    (split; [|split; [|split]]); intro J; cbn [list_ascii_of_string In] in J;
    try (exfalso; intuition discriminate); cbn [list_ascii_of_string lit app]; try reflexivity; rewrite ?app_nil_r, <- ?app_assoc; reflexivity|]).
  contradiction.
Qed.

Lemma middle_slice : forall (A : Type) (a b : A) l z, zslice (a :: b :: l ++ [z]) 2 (-1) = l.
Proof.
  intros A a b l z. unfold zslice. cbv zeta.
  set (n := Z.of_nat (length (a :: b :: l ++ [z]))).
  assert (N : n = (Z.of_nat (length l) + 3)%Z) by (unfold n; cbn [length]; rewrite app_length; cbn [length]; lia).
  assert (C1 : clamp n 2 = 2%Z) by (unfold clamp; change (2 <? 0)%Z with false; lia).
  assert (C2 : clamp n (-1) = (Z.of_nat (length l) + 2)%Z) by (unfold clamp; change (-1 <? 0)%Z with true; lia).
  rewrite C1, C2. replace (Z.to_nat (Z.of_nat (length l) + 2 - 2)) with (length l) by lia.
  change (Z.to_nat 2) with 2. cbn [skipn]. rewrite firstn_app, Nat.sub_diag, firstn_all. cbn [firstn]. apply app_nil_r.
Qed.

Definition ref_marks (r : ref) : Prop := Forall (Forall mark) (rt_name r :: rt_details r) /\ rt_date r <> [] /\ is_digits (rt_date r).
Lemma code_reads : forall c e r body, e_g e = x4grammars c -> rows_ok (e_dicts e) -> blanks_in (ref_code r) body -> quiet body ->
  ~ In (ascii_of_N 9) body -> ref_marks r -> In (rt_type r) (publication_types ++ numbered_types) ->
  exists l x, nest l body /\ reference_code e (PGroup l) = Ok x /\ ref_read (e_dicts e) r (x, PTok (rt_comment r)).
Proof.
  intros c e r body G D B Q T (M & N & I) TY.
  assert (TP : rt_type r <> "("%char).
  { intro E. rewrite E in TY. cbn in TY. intuition discriminate. }
  assert (RC : exists rest, ref_code r = rt_type r :: rest).
  { unfold ref_code. eexists. cbn [between app]. reflexivity. }
  destruct RC as (rest & RC). pose proof B as B'. rewrite RC in B. destruct (flatten_reads _ _ _ B TP) as (l & NE & FL). rewrite <- RC in *.
  exists l. assert (X : exists x, reference_code e (PGroup l) = Ok x /\ ref_read (e_dicts e) r (x, PTok (rt_comment r))); [|destruct X as (x & X); exists x; auto].
  unfold reference_code. rewrite FL. cbn [bind]. rewrite G. unfold X4ReferenceCode.
  assert (TM : Forall mark [rt_type r]).
  { constructor; [|constructor]. apply mark_is. clear -TY.
    assert (F : forallb is_mark (publication_types ++ numbered_types) = true) by reflexivity. rewrite forallb_forall in F. now apply F. }
  assert (MM : Forall (Forall mark) ([rt_type r] :: rt_name r :: rt_details r ++ [digits_text (rt_date r)])).
  { constructor; [exact TM|]. inversion M as [|? ? M1 M2]; subst. constructor; [exact M1|]. apply Forall_app. split; [exact M2|].
    constructor; [|constructor]. unfold digits_text. apply Forall_map. eapply Forall_impl; [|exact I]. intros d. apply digit_mark. }
  unfold ref_code. rewrite (comma_reads c _ _ (refl_items _ MM)); [|discriminate| |].
  2:{ intros q W. fold (ref_code r). specialize (Q q W). rewrite (blanks_count q _ _ ltac:(destruct W as [-> | ->]; reflexivity) B'). exact Q. }
  2:{ fold (ref_code r). intro X. apply T. now apply (blanks_in_sub _ _ B'). }
  cbn [of_option bind idx nth_error].
  assert (LO : last_of ([rt_type r] :: rt_name r :: rt_details r ++ [digits_text (rt_date r)]) = Ok (digits_text (rt_date r))).
  { change ([rt_type r] :: rt_name r :: rt_details r ++ [digits_text (rt_date r)]) with (([rt_type r] :: rt_name r :: rt_details r) ++ [digits_text (rt_date r)]).
    apply last_of_snoc. }
  rewrite LO. cbn [bind].
  assert (Y : exists y, parseX4Year (digits_text (rt_date r)) = Ok y).
  { rewrite (year_general _ I N). cbv zeta. set (yr := match length (rt_date r) with 6 => _ | 8 => _ | _ => _ end). clearbody yr.
    destruct yr as [|a [|b [|c1 [|d1 [|e1 yr]]]]]; try (eexists; reflexivity). destruct (_ || _); eexists; reflexivity. }
  destruct Y as (y & Y). rewrite Y. cbn [bind].
  destruct (name_found (e_dicts e) (rt_type r) (rt_name r) D TY) as (pretty & P & S).
  cbv zeta. rewrite P. cbn [bind as_reference_error]. eexists. split; [reflexivity|].
  unfold ref_read. cbn [fst snd rf_type rf_name rf_details rf_date rf_pubyear rf_pretty]. split; [reflexivity|]. split; [reflexivity|].
  split; [apply middle_slice|]. split; [reflexivity|]. split; [exact Y|]. split; [exact S|reflexivity].
Qed.

Lemma quiet_prefix : forall a b, quiet (a ++ b) -> quiet a.
Proof. intros a b H q W. specialize (H q W). rewrite count_occ_app in H. lia. Qed.

Lemma one_reference : forall c e has r text, e_g e = x4grammars c -> rows_ok (e_dicts e) -> ref_text r text ->
  (has = true -> ~ In "="%char text) ->
  In (rt_type r) (publication_types ++ numbered_types) -> ~ In nl text ->
  exists x, references_of e has text = ([x], None) /\ ref_read (e_dicts e) r x.
Proof.
  intros c e has r text G D (body & B & E & Q & T & MK) EQ TY NL. apply few_quiet in Q.
  unfold references_of, reference_items. replace (has && cmem "="%char text) with false.
  2:{ destruct has; [|reflexivity]. symmetry. apply not_true_is_false. intro X. apply cmem_In in X. now apply EQ. }
  rewrite G. subst text.
  destruct (code_reads c e r body G D B) as (l & x & NE & X & RR); auto.
  { apply quiet_cons in Q. now apply quiet_prefix in Q. }
  { intro Y. apply T. right. apply in_or_app. now left. }
  destruct (refcode_reads c l body (rt_comment r) NE) as (line & R & L).
  { now apply quiet_cons in Q. }
  { exact T. }
  rewrite L in R by (intro Y; apply NL; right; apply in_or_app; right; now right). rewrite R. cbn [of_option bind].
  replace (last_of [PGroup l; PTok (rt_comment r)]) with (Ok (PTok (rt_comment r))) by reflexivity.
  cbn [bind idx nth_error of_option as_reference_error collect fst]. rewrite X. eexists. split; [reflexivity|exact RR].
Qed.

Lemma further_reads : forall c e rs t, e_g e = x4grammars c -> rows_ok (e_dicts e) -> further_codes rs t -> quiet t -> ~ In (ascii_of_N 9) t ->
  forall comment, Forall (fun r => rt_comment r = comment /\ ref_marks r) rs -> Forall (fun r => In (rt_type r) (publication_types ++ numbered_types)) rs ->
  exists ls xs, chain ls t /\ Forall2 (fun l x => reference_code e (PGroup l) = Ok x) ls xs /\ Forall2 (ref_read (e_dicts e)) rs (map (fun x => (x, PTok comment)) xs).
Proof.
  intros c e rs t G D. induction 1 as [w W|r rs w v body t W V B F IH]; intros Q T comment M TY.
  - exists [], []. split; [now constructor|]. split; constructor.
  - inversion M as [|? ? [M0 M1] M2]; subst. inversion TY as [|? ? T1 T2]; subst.
    apply quiet_suffix, quiet_cons, quiet_suffix, quiet_cons in Q.
    destruct (IH (quiet_cons _ _ (quiet_suffix _ _ Q))) with (comment := rt_comment r) as (ls & xs & C & X & R); auto.
    { intro Y. apply T. apply in_or_app. right. right. apply in_or_app. right. right. apply in_or_app. right. now right. }
    destruct (code_reads c e r body G D B) as (l & x & NE & X1 & R1); auto.
    { now apply quiet_prefix in Q. }
    { intro Y. apply T. apply in_or_app. right. right. apply in_or_app. right. right. apply in_or_app. now left. }
    exists (l :: ls), (x :: xs). split; [now constructor|]. split; [now constructor|]. cbn [map]. now constructor.
Qed.
Lemma several_codes : forall c e rs text, e_g e = x4grammars c -> rows_ok (e_dicts e) -> codes_text rs text ->
  Forall (fun r => In (rt_type r) (publication_types ++ numbered_types)) rs -> ~ In nl text ->
  exists xs, references_of e true text = (xs, None) /\ Forall2 (ref_read (e_dicts e)) rs xs.
Proof.
  intros c e rs text G D (r & others & body & t & comment & -> & NO & B & F & E & Q & T & M) TY NL. apply few_quiet in Q.
  inversion M as [|? ? [M0 M1] M2]; subst. inversion TY as [|? ? T1 T2]; subst. set (text := "("%char :: "("%char :: _) in *.
  pose proof (quiet_cons _ _ (quiet_cons _ _ Q)) as Q1.
  destruct (code_reads c e r body G D B) as (l & x & NE & X1 & R1); auto.
  { now apply quiet_prefix in Q1. }
  { intro Y. apply T. right. right. apply in_or_app. now left. }
  pose proof (quiet_cons _ _ (quiet_suffix _ _ Q1)) as Q2.
  destruct (further_reads c e others t G D F) with (comment := rt_comment r) as (ls & xs & C & X & R); auto.
  { now apply quiet_prefix in Q2. }
  { intro Y. apply T. right. right. apply in_or_app. right. right. apply in_or_app. now left. }
  assert (LS : ls <> []).
  { intros ->. inversion X; subst. inversion R; subst. now apply NO. }
  assert (TR := tautology_reads c l body ls t (rt_comment r) NE C LS). cbv zeta in TR. specialize (TR Q T).
  unfold references_of, reference_items. replace (true && cmem "="%char text) with true.
  2:{ symmetry. apply cmem_In. unfold text. right. right. apply in_or_app. right. right. apply in_or_app. left.
      destruct F as [w W|r' rs' w v b' t' W V B' F]; [congruence|]. apply in_or_app. right. now left. }
  rewrite G. unfold text at 1. rewrite TR by (intro Y; apply NL; right; right; apply in_or_app; right; right; apply in_or_app; right; now right).
  cbn [of_option bind].
  change (PGroup l :: concat (map (fun l => [PTok (lit "="); PGroup l]) ls) ++ [PTok (rt_comment r)])
    with ((PGroup l :: concat (map (fun l => [PTok (lit "="); PGroup l]) ls)) ++ [PTok (rt_comment r)]).
  rewrite (proj1 (last_of_snoc _ _ _)), but_last_snoc. cbn [bind].
  replace (filter (fun x => negb (is_tok (lit "=") x)) (PGroup l :: concat (map (fun l => [PTok (lit "="); PGroup l]) ls))) with (map PGroup (l :: ls)).
  2:{ cbn [map filter is_tok negb]. f_equal. clear. induction ls as [|y ls IH]; [reflexivity|]. cbn [map concat app filter]. 
      change (is_tok (lit "=") (PTok (lit "="))) with true. cbn [negb is_tok]. now rewrite <- IH. }
  assert (X2 : Forall2 (fun l x => reference_code e (PGroup l) = Ok x) (l :: ls) (x :: xs)) by now constructor.
  exists (map (fun x => (x, PTok (rt_comment r))) (x :: xs)). split; [|cbn [map]; now constructor].
  clear -X2. assert (H : forall acc, collect (fun xc : ptree * ptree => match reference_code e (fst xc) with Ok r => ([(r, snd xc)], None) | Raise err => ([], Some err) end)
    (map (fun x => (x, PTok (rt_comment r))) (map PGroup (l :: ls))) acc = (acc ++ map (fun x => (x, PTok (rt_comment r))) (x :: xs), None)).
  { induction X2 as [|l0 x0 ls0 xs0 H X2 IH]; intros acc; [cbn [map collect]; now rewrite app_nil_r|]. cbn [map collect fst]. rewrite H. rewrite IH, <- app_assoc. reflexivity. }
  apply H.
Qed.

(** * A whole field *)

Lemma one_by_one_lines : forall lines texts, one_by_one lines texts -> Forall (fun l => ~ In nl l) lines -> Forall (fun t => ~ In nl t) texts.
Proof.
  assert (P : forall first more, ~ In nl first -> Forall (fun l => ~ In nl l) more -> ~ In nl (first ++ concat more)).
  { intros first more N1 N2 X. apply in_app_or in X. destruct X as [X|X]; [now apply N1|].
    apply in_concat in X as (l & L & X). rewrite Forall_forall in N2. now apply (N2 l). }
  induction 1 as [|first more lines texts O M S IH|first more lines texts O M S IH]; intros N; [constructor|..];
    inversion N as [|? ? N1 N2]; subst; apply Forall_app in N2 as [N2 N3]; (constructor; [|now apply IH]).
  - exact (P ("("%char :: first) more N1 N2).
  - exact (P first more N1 N2).
Qed.

Lemma pointer_reads : forall c e p lines rs, e_g e = x4grammars c -> rows_ok (e_dicts e) -> pointer_refs rs lines ->
  Forall (fun l => ~ In nl l) lines -> Forall (fun r => In (rt_type r) (publication_types ++ numbered_types)) rs ->
  exists xs, pointer_references e (p, lines) = ([(p, xs)], None) /\ Forall2 (ref_read (e_dicts e)) rs xs.
Proof.
  intros c e p lines rs G D (texts & groups & O & F & -> & EQ) N T. unfold pointer_references. cbn [fst snd].
  destruct (all_lines _ _ O N [] false) as (has & AL & HAS). rewrite AL. cbn [app].
  assert (HT : has = true -> Forall (fun text => twice text \/ ~ In "="%char text) texts).
  { intros H. apply EQ. apply HAS in H. destruct H as [H|H]; [discriminate|exact H]. }
  assert (TT : Forall (fun text => twice text -> has = true) texts).
  { apply Forall_forall. intros text I TW. apply HAS. right. apply Exists_exists. now exists text. }
  assert (H : forall acc, exists xs, collect (references_of e has) texts acc = (acc ++ xs, None) /\ Forall2 (ref_read (e_dicts e)) (concat groups) xs).
  { pose proof (one_by_one_lines _ _ O N) as NT. clear O N AL HAS EQ. induction F as [|rs text groups texts R F IH]; intros acc.
    - exists []. cbn [collect]. rewrite app_nil_r. split; [reflexivity|constructor].
    - cbn [concat] in T. apply Forall_app in T as [T1 T2]. inversion NT as [|? ? N1 N2]; inversion TT as [|? ? TT1 TT2]; subst.
      assert (X : exists xs, references_of e has text = (xs, None) /\ Forall2 (ref_read (e_dicts e)) rs xs).
      { destruct R as [(r & -> & R)|R].
        - inversion T1; subst. destruct (one_reference c e has r text G D R) as (x & E & X); auto.
          + intros H. specialize (HT H). inversion HT as [|? ? [TW|TW] _]; subst; [|exact TW]. exfalso.
            destruct R as (body & B & E & _). destruct TW as (s & E2). subst text.
            assert (RC : exists rest, ref_code r = rt_type r :: rest) by (unfold ref_code; eexists; cbn [between app]; reflexivity).
            destruct RC as (rest & RC). rewrite RC in B. assert (TP : rt_type r <> "("%char).
            { intro E. rewrite E in *. match goal with I : In "("%char _ |- _ => cbn in I; intuition discriminate end. }
            inversion B; subst; cbn [app] in E2.
            * assert (c0 = "("%char) by congruence. subst. match goal with I : gap _ |- _ => apply gap_white in I; discriminate end.
            * congruence.
            * congruence.
          + exists [x]. split; [exact E|]. constructor; [exact X|constructor].
        - assert (has = true) as ->.
          { apply TT1. destruct R as (r & others & body & t & comment & _ & _ & _ & _ & -> & _). eexists. reflexivity. }
          exact (several_codes c e rs text G D R T1 N1). }
      destruct X as (xs & E & X). cbn [collect concat]. rewrite E.
      assert (HT' : has = true -> Forall (fun text => twice text \/ ~ In "="%char text) texts) by (intros H; specialize (HT H); now inversion HT).
      destruct (IH T2 HT' TT2 N2 (acc ++ xs)) as (xs' & E' & X'). rewrite E'. exists (xs ++ xs'). rewrite <- app_assoc. split; [reflexivity|].
      now apply Forall2_app. }
  destruct (H []) as (xs & E & X). rewrite E. exists xs. split; [reflexivity|exact X].
Qed.

Lemma publication_known : forall t, In t publication_types -> exists s, dget str_eqb [t] pubTypeMap = Some s /\ publication_kind t = Some s.
Proof.
  intros t H. cbn in H. repeat (destruct H as [<-|H]; [eexists; split; reflexivity|]). contradiction.
Qed.

Lemma reference_field : forall c e lines f rss r0 rs0 rss0, e_g e = x4grammars c -> rows_ok (e_dicts e) ->
  X4PlainField lines = Ok f ->
  Forall2 (fun rs pl => pointer_refs rs (snd pl) /\ Forall (fun l => ~ In nl l) (snd pl)) rss (f_dict f) ->
  Forall (Forall (fun r => In (rt_type r) (publication_types ++ numbered_types))) rss ->
  rss = (r0 :: rs0) :: rss0 -> In (rt_type r0) publication_types ->
  exists x x0, X4ReferenceField e lines = Ok (f, x) /\
    Forall2 (fun rs px => Forall2 (ref_read (e_dicts e)) rs (snd px)) rss (ref_refs x) /\
    map fst (ref_refs x) = map fst (f_dict f) /\
    ref_read (e_dicts e) r0 x0 /\ ref_type x = rf_type (fst x0) /\ ref_name x = rf_name (fst x0) /\
    ref_details x = rf_details (fst x0) /\ ref_date x = rf_date (fst x0) /\ ref_pubyear x = rf_pubyear (fst x0) /\
    publication_kind (rt_type r0) = Some (ref_pubtype x).
Proof.
  intros c e lines f rss r0 rs0 rss0 G D P F T E0 TY. unfold X4ReferenceField. rewrite P. cbn [bind].
  assert (H : forall acc, exists out, collect (pointer_references e) (f_dict f) acc = (acc ++ out, None) /\
    Forall2 (fun rs px => Forall2 (ref_read (e_dicts e)) rs (snd px)) rss out /\ map fst out = map fst (f_dict f)).
  { clear P E0. induction F as [|rs pl rss pls [R N] F IH]; intros acc.
    - exists []. cbn [collect map]. rewrite app_nil_r. split; [reflexivity|]. split; constructor.
    - inversion T as [|? ? T1 T2]; subst. destruct pl as [p ls]. cbn [snd] in *.
      destruct (pointer_reads c e p ls rs G D R N T1) as (xs & E & X). cbn [collect]. rewrite E.
      destruct (IH T2 (acc ++ [(p, xs)])) as (out & E' & X' & M). rewrite E'. exists ((p, xs) :: out). rewrite <- app_assoc.
      split; [reflexivity|]. split; [now constructor|]. cbn [map fst]. now rewrite M. }
  destruct (H []) as (out & E & X & M). cbn [app] in E. rewrite E. cbv zeta. subst rss.
  inversion X as [|? [p xs] ? out' X1 X2]; subst. cbn [snd] in X1. inversion X1 as [|? x0 ? xs' R0 RS]; subst.
  cbn [idx nth_error of_option bind snd fst]. pose proof R0 as (R1 & _). rewrite R1.
  destruct (publication_known _ TY) as (s & S & K). rewrite S. cbn [of_option bind]. eexists. exists x0. split; [reflexivity|].
  cbn [ref_refs ref_type ref_name ref_details ref_date ref_pubyear ref_pubtype].
  split; [exact X|]. split; [exact M|]. split; [exact R0|]. rewrite R1. repeat (split; [reflexivity|]). exact K.
Qed.
