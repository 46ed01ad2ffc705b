(** Lemmas on comma separated lists. *)
From Coq Require Import String List Ascii NArith ZArith Bool Arith Lia.
From Verif.Model Require Import Py Particle Pyparsing Grammars.
From Verif.Spec Require Import Text Codes Names.
From Verif.Proofs Require Import StrLemmas ParseLemmas GrammarFields NestedLemmas.
Import ListNotations.
Local Open Scope list_scope.
Local Open Scope nat_scope.

Lemma few_quiet : forall s, few_quotes s <-> quiet s.
Proof.
  intros s. split.
  - intros [A B] q [-> | ->]; assumption.
  - intros H. split; apply H; auto.
Qed.

Definition is_mark (c : ascii) : bool := is_printable c && negb (Ascii.eqb c ","%char).
Lemma mark_is : forall c, mark c <-> is_mark c = true.
Proof.
  intros c. unfold mark, is_mark, is_printable, code. rewrite !andb_true_iff, !N.leb_le, negb_true_iff, Ascii.eqb_neq. tauto.
Qed.
Lemma mark_facts : forall c, is_mark c = true -> is_white c = false /\ cmem c [sp; ch 9] = false /\ is_space c = false.
Proof.
  intros c H. assert (E : forall c, implb (is_mark c) (negb (is_white c) && negb (cmem c [sp; ch 9]) && negb (is_space c)) = true).
  { apply forall_ascii. vm_compute. reflexivity. }
  specialize (E c). rewrite H in E. cbn [implb] in E. apply andb_prop in E as [E E3]. apply andb_prop in E as [E1 E2].
  now rewrite !negb_true_iff in *.
Qed.

Definition word_part : pe := Word (fun c => is_printable c && negb (Ascii.eqb c ","%char)).
Definition blank_part : pe := And (Word (fun c => cmem c [sp; ch 9])) [NotAny (Literal (lit ",")); NotAny LineEnd].
Definition name_part : pe := And word_part [Optional blank_part].
Lemma commasepitem_eq : commasepitem = Combine (OneOrMore name_part). Proof. reflexivity. Qed.

Definition name_end (k : str) : Prop := fol (fun c => Ascii.eqb c ","%char) k.

Lemma part_none : forall k b, name_end k -> run name_part false b k = None.
Proof.
  intros k b E. unfold run. rewrite !andb_false_r. unfold name_part. cbn [And impl]. unfold run at 1. cbn [andb].
  cbn [word_part Word Word2 impl]. destruct k as [|c k]; [reflexivity|]. cbn [name_end fol] in E.
  apply Ascii.eqb_eq in E as ->. reflexivity.
Qed.
Lemma part_last : forall c w k b, Forall (fun c => is_mark c = true) (c :: w) -> name_end k ->
  run name_part false b (c :: w ++ k) = Some ([PTok (c :: w)], k).
Proof.
  intros c w k b W E. unfold run. rewrite !andb_false_r. unfold name_part. cbn [And impl]. unfold run at 1. cbn [andb].
  cbn [word_part Word Word2 impl]. change (fun c => is_printable c && negb (Ascii.eqb c ","%char)) with is_mark.
  inversion W as [|? ? W1 W2]; subst.
  change (is_printable c && negb (Ascii.eqb c ","%char)) with (is_mark c). rewrite W1.
  rewrite span_app; [| |].
  - cbn [and_rest]. unfold run at 1. rewrite !andb_false_r. cbn [Optional OptionalD impl].
    unfold run at 1. cbn [andb blank_part And impl]. unfold run at 1. cbn [andb Word Word2 impl].
    destruct k as [|d k]; [reflexivity|]. cbn [name_end fol] in E. apply Ascii.eqb_eq in E as ->. reflexivity.
  - apply forallb_forall. rewrite Forall_forall in W2. exact W2.
  - destruct k as [|d k]; [exact I|]. cbn [name_end fol] in *. apply Ascii.eqb_eq in E as ->. reflexivity.
Qed.
Lemma part_more : forall c w d k b, Forall (fun c => is_mark c = true) (c :: w) -> is_mark d = true ->
  run name_part false b (c :: w ++ sp :: d :: k) = Some ([PTok (c :: w); PTok [sp]], d :: k).
Proof.
  intros c w d k b W D. unfold run. rewrite !andb_false_r. unfold name_part. cbn [And impl]. unfold run at 1. cbn [andb].
  cbn [word_part Word Word2 impl]. change (fun c => is_printable c && negb (Ascii.eqb c ","%char)) with is_mark.
  inversion W as [|? ? W1 W2]; subst.
  change (is_printable c && negb (Ascii.eqb c ","%char)) with (is_mark c). rewrite W1.
  rewrite span_app; [|apply forallb_forall; rewrite Forall_forall in W2; exact W2|reflexivity].
  cbn [and_rest]. unfold run at 1. rewrite !andb_false_r. cbn [Optional OptionalD impl].
  unfold run at 1. cbn [andb blank_part And impl]. unfold run at 1. cbn [andb Word Word2 impl].
  change (cmem sp [sp; ch 9]) with true. cbv iota. cbn [span].
  destruct (mark_facts d D) as (D1 & D2 & D3). rewrite D2. cbn [and_rest].
  unfold run at 1. rewrite !andb_false_r. cbn [NotAny impl]. unfold run at 1. rewrite !andb_false_r. cbn [Literal impl lit list_ascii_of_string is_prefix].
  assert (N : Ascii.eqb "," d = false).
  { unfold is_mark in D. apply andb_prop in D as [_ D]. apply negb_true_iff in D. now rewrite Ascii.eqb_sym. }
  rewrite N. cbn [andb is_some]. unfold run at 1. rewrite !andb_false_r. cbn [NotAny impl]. unfold run at 1. rewrite !andb_false_r. cbn [LineEnd impl].
  assert (M : Ascii.eqb d nl = false).
  { apply Ascii.eqb_neq. intros ->. discriminate. }
  rewrite M. reflexivity.
Qed.

Definition words_ok (l : list str) : Prop := Forall (fun w => w <> [] /\ Forall (fun c => is_mark c = true) w) l.

Lemma parts_loop : forall words k n, words_ok words -> name_end k -> length words <= n ->
  exists ts, loop n name_part false (between [sp] words ++ k) = (ts, k) /\ concat (map flat ts) = between [sp] words.
Proof.
  induction words as [|w words IH]; intros k n W E L.
  - exists []. split; [|reflexivity]. cbn [between app]. destruct n; [reflexivity|]. cbn [loop]. now rewrite part_none.
  - inversion W as [|? ? [W1 W2] W3]; subst. destruct w as [|c w]; [contradiction|]. cbn [length] in L. destruct n; [lia|].
    destruct words as [|w' words].
    + cbn [between app loop]. rewrite part_last by assumption. exists [PTok (c :: w)].
      split; [|cbn; now rewrite app_nil_r].
      assert (Z : forall m, loop m name_part false k = ([], k)).
      { intros [|m]; [reflexivity|]. cbn [loop]. now rewrite part_none. }
      rewrite Z. reflexivity.
    + destruct (IH k n W3 E ltac:(cbn [length] in *; lia)) as (ts & T1 & T2).
      change (between [sp] ((c :: w) :: w' :: words)) with ((c :: w) ++ [sp] ++ between [sp] (w' :: words)).
      inversion W3 as [|? ? [W1' W2'] _]; subst. destruct w' as [|d w']; [contradiction|].
      assert (B : exists r, between [sp] ((d :: w') :: words) = d :: r) by (destruct words; eexists; reflexivity).
      destruct B as (r & B). rewrite B in *. cbn [app loop]. rewrite <- app_assoc. cbn [app].
      inversion W2'; subst. rewrite part_more by assumption. cbn [app] in T1. rewrite T1.
      exists (PTok (c :: w) :: PTok [sp] :: ts). split; [reflexivity|]. cbn [map concat flat app]. now rewrite T2.
Qed.

Lemma words_length : forall words, words_ok words -> length words <= length (between [sp] words).
Proof.
  induction 1 as [|w words [W _] _ IH]; [cbn; lia|]. destruct w as [|c w]; [contradiction|].
  destruct words as [|w' words]; [cbn [between length]; lia|].
  change (between [sp] ((c :: w) :: w' :: words)) with ((c :: w) ++ [sp] ++ between [sp] (w' :: words)).
  rewrite !app_length. cbn [length] in *. lia.
Qed.

Lemma item_name : forall words k ws, words <> [] -> words_ok words -> name_end k ->
  impl commasepitem ws (between [sp] words ++ k) = Some ([PTok (between [sp] words)], k).
Proof.
  intros words k ws N W E. rewrite commasepitem_eq. cbn [Combine impl]. unfold run. cbn [andb OneOrMore impl].
  destruct words as [|w words]; [contradiction|]. inversion W as [|? ? [W1 W2] W3]; subst. destruct w as [|c w]; [contradiction|].
  destruct words as [|w' words].
  - cbn [between app]. rewrite part_last by assumption.
    assert (Z : forall m, loop m name_part false k = ([], k)).
    { intros [|m]; [reflexivity|]. cbn [loop]. now rewrite part_none. }
    rewrite Z. cbn [app map concat flat]. now rewrite app_nil_r.
  - change (between [sp] ((c :: w) :: w' :: words)) with ((c :: w) ++ [sp] ++ between [sp] (w' :: words)).
    inversion W3 as [|? ? [W1' W2'] _]; subst. destruct w' as [|d w']; [contradiction|].
    assert (B : exists r, between [sp] ((d :: w') :: words) = d :: r) by (destruct words; eexists; reflexivity).
    pose proof (words_length _ W3) as L.
    destruct (parts_loop ((d :: w') :: words) k (length (between [sp] ((d :: w') :: words) ++ k)) W3 E ltac:(rewrite app_length; lia)) as (ts & T1 & T2).
    destruct B as (r & B). rewrite B in *. cbn [app]. rewrite <- app_assoc. cbn [app].
    inversion W2'; subst. rewrite part_more by assumption. cbn [app] in T1. rewrite T1.
    cbn [app map concat flat]. now rewrite T2.
Qed.
Lemma item_none : forall k, name_end (skip_white k) -> run commasepitem true true k = None.
Proof.
  intros k E. rewrite commasepitem_eq. unfold run. cbn [Combine callpre skipws andb impl]. unfold run. cbn [andb OneOrMore impl].
  now rewrite part_none.
Qed.

(** An item: a name with blanks before it, or nothing. *)
Definition item_text (i n : str) : Prop :=
  i = [] /\ n = [] \/
  exists b words, Forall (eq sp) b /\ words <> [] /\ words_ok words /\ n = between [sp] words /\ i = b ++ n.

Definition comma_item : pe := OptionalD (MatchFirst [quotedString; commasepitem]) [PTok []].
Lemma item_reads : forall i n k pre, item_text i n -> quiet (i ++ k) -> name_end k ->
  run comma_item true pre (i ++ k) = Some ([PTok n], k).
Proof.
  intros i n k pre I Q E. unfold run at 1. cbn [comma_item OptionalD callpre MatchFirst]. rewrite andb_false_r.
  cbn [andb impl]. unfold comma_item. cbn [OptionalD impl]. unfold run at 1. cbn [andb impl MatchFirst first_of]. rewrite quoted_run by assumption.
  destruct I as [[-> ->]|(b & words & B & N & W & -> & ->)].
  - cbn [app]. rewrite item_none; [reflexivity|]. destruct k as [|c k]; [exact I|]. cbn [name_end fol] in E.
    apply Ascii.eqb_eq in E as ->. reflexivity.
  - rewrite <- app_assoc. rewrite run_pre by reflexivity. rewrite skip_gap.
    2:{ eapply Forall_impl; [|exact B]. intros c <-. cbn. tauto. }
    assert (SK : skip_white (between [sp] words ++ k) = between [sp] words ++ k).
    { destruct words as [|w words]; [contradiction|]. inversion W as [|? ? [W1 W2] _]; subst. destruct w as [|c w]; [contradiction|].
      inversion W2; subst. destruct (mark_facts c) as (X & _ & _); [assumption|].
      destruct words; apply skip_non; exact X. }
    rewrite SK, item_name by assumption. reflexivity.
Qed.

Definition more_item : pe := And (Suppress (Literal (lit ","))) [comma_item].
Lemma more_reads : forall i n k, item_text i n -> quiet (i ++ k) -> name_end k ->
  run more_item true true (","%char :: i ++ k) = Some ([PTok n], k).
Proof.
  intros i n k I Q E. rewrite run_pre by reflexivity. rewrite skip_non by reflexivity.
  cbn [more_item And impl]. assert (R : run (Suppress (Literal (lit ","))) true false (","%char :: i ++ k) = Some ([], i ++ k)).
  { reflexivity. }
  rewrite R. cbn [and_rest]. rewrite (item_reads i n k) by assumption. reflexivity.
Qed.

Lemma between_cons : forall sep x y l, between sep (x :: y :: l) = x ++ sep ++ between sep (y :: l).
Proof. reflexivity. Qed.

(** The remaining items, each after a comma. *)
Definition tail_text (items : list str) : str := concat (map (fun i => ","%char :: i) items).
Lemma between_tail : forall i items, between [","%char] (i :: items) = i ++ tail_text items.
Proof.
  intros i items. revert i. induction items as [|j items IH]; intros i; [cbn; now rewrite app_nil_r|].
  rewrite between_cons, IH. reflexivity.
Qed.
Lemma tail_end : forall items, name_end (tail_text items).
Proof. intros [|i items]; reflexivity. Qed.

Lemma items_steps : forall items names, Forall2 item_text items names -> quiet (tail_text items) ->
  steps more_item (tail_text items) (map (fun n => [PTok n]) names) [].
Proof.
  induction 1 as [|i n items names I _ IH]; intros Q; [now apply steps_end|].
  cbn [map]. change (tail_text (i :: items)) with (","%char :: i ++ tail_text items) in *. apply quiet_cons in Q.
  eapply steps_one.
  - apply more_reads; [exact I|exact Q|apply tail_end].
  - apply IH. now apply quiet_suffix in Q.
Qed.

Lemma tail_length : forall items, length items <= length (tail_text items).
Proof. induction items as [|i items IH]; [auto|]. unfold tail_text in *. cbn [map concat length]. rewrite app_length. cbn [length]. lia. Qed.

Lemma Forall2_len2 : forall (A B : Type) (R : A -> B -> Prop) l m, Forall2 R l m -> length l = length m.
Proof. induction 1; cbn [length]; congruence. Qed.

Lemma comma_reads : forall c items names, Forall2 item_text items names -> items <> [] ->
  quiet (between [","%char] items) -> no_tabs (between [","%char] items) ->
  g_comma (x4grammars c) (between [","%char] items) = Some names.
Proof.
  intros c items names F N Q T. cbn [x4grammars g_comma]. unfold parseString, expandtabs. rewrite (expandtabs_id _ _ T). clear T.
  destruct F as [|i n items names I F]; [contradiction|]. rewrite between_tail in *.
  unfold commaSeparatedList, delimitedList. fold comma_item. fold more_item.
  rewrite run_pre by reflexivity. cbn [And impl].
  assert (R : run comma_item true false (skip_white (i ++ tail_text items)) = Some ([PTok n], tail_text items)).
  { assert (SK : exists i', item_text i' n /\ skip_white (i ++ tail_text items) = i' ++ tail_text items).
    { destruct I as [[-> ->]|(b & words & B & W0 & W & -> & ->)].
      - exists []. split; [left; auto|]. destruct items; reflexivity.
      - exists (between [sp] words). split.
        + right. exists [], words. auto.
        + rewrite <- app_assoc. rewrite skip_gap by (eapply Forall_impl; [|exact B]; intros x <-; cbn; tauto).
          destruct words as [|w words]; [contradiction|]. inversion W as [|? ? [W1 W2] _]; subst. destruct w as [|x w]; [contradiction|].
          inversion W2; subst. destruct (mark_facts x) as (X & _ & _); [assumption|]. destruct words; apply skip_non; exact X. }
    destruct SK as (i' & I' & SK). apply quiet_skip in Q. rewrite SK in *. apply item_reads; auto. apply tail_end. }
  rewrite R. cbn [and_rest].
  assert (S : steps more_item (tail_text items) (map (fun n => [PTok n]) names) []).
  { apply items_steps; [exact F|]. now apply quiet_suffix in Q. }
  assert (Z : exists r, run (ZeroOrMore more_item) true true (tail_text items) = Some (map PTok names, r)).
  { rewrite run_ZeroOrMore. remember (map (fun n => [PTok n]) names) as tl eqn:E2. remember ([] : str) as e0. remember (tail_text items) as tt eqn:ET. destruct S as [x H|x t x' ts k H S'].
    - rewrite H. destruct names; [|discriminate E2]. eexists. reflexivity.
    - rewrite H. destruct names as [|m names]; [discriminate E2|]. cbn [map] in E2. injection E2 as -> ->.
      destruct items as [|j items]; [inversion F|]. inversion F; subst.
      change (tail_text (j :: items)) with (","%char :: j ++ tail_text items) in H.
      rewrite more_reads with (n := m) in H; [|assumption| |apply tail_end].
      + injection H as <-. rewrite (steps_loop _ _ _ _ S').
        * eexists. cbn [map app concat]. rewrite <- (map_map PTok (fun t => [t])). now rewrite concat_single.
        * rewrite map_length. pose proof (tail_length items). match goal with H : Forall2 _ items names |- _ => apply Forall2_len2 in H end. lia.
      + apply quiet_suffix in Q. change (tail_text (j :: items)) with (","%char :: j ++ tail_text items) in Q. now apply quiet_cons in Q. }
  destruct Z as (r & Z). rewrite Z. cbn [app option_map toks flat_map]. f_equal. f_equal. rewrite app_nil_r.
  clear. induction names as [|m names IH]; [reflexivity|]. cbn [map toks flat_map app]. unfold toks in IH. now rewrite IH.
Qed.
