(** Lemmas about MONITOR fields. *)
From Coq Require Import String List Ascii NArith ZArith Bool Arith Lia.
From Verif.Model Require Import Py Dicts Particle Reaction Field.
From Verif.Spec Require Import Text Exfor.
From Verif.Proofs Require Import StrLemmas ReactionLemmas FieldLemmas.
Import ListNotations.
Local Open Scope list_scope.
Local Open Scope nat_scope.

Lemma opens_iff : forall l, startswith (strip l) (lit "(") = true <-> opens l.
Proof.
  intro l. unfold opens. assert (T := strip_trimmed l). split.
  - intro H. destruct (strip l) as [|c t] eqn:E; [discriminate|].
    change (Ascii.eqb "(" c && true = true) in H. rewrite andb_true_r in H.
    apply Ascii.eqb_eq in H. subst. exists t. exact T.
  - intros (t & H). apply strip_iff in H. rewrite H. reflexivity.
Qed.
Lemma opens_twice_iff : forall l, startswith (strip l) (lit "((") = true <-> opens_twice l.
Proof.
  intro l. unfold opens_twice. assert (T := strip_trimmed l). split.
  - intro H. destruct (strip l) as [|c [|d t]] eqn:E; [discriminate| |].
    + change (Ascii.eqb "(" c && false = true) in H. rewrite andb_false_r in H. discriminate.
    + change (Ascii.eqb "(" c && (Ascii.eqb "(" d && true) = true) in H. rewrite andb_true_r in H. apply andb_true_iff in H. destruct H as [H1 H2].
      apply Ascii.eqb_eq in H1, H2. subst. exists t. exact T.
  - intros (t & H). apply strip_iff in H. rewrite H. reflexivity.
Qed.
Lemma count_char_occ : forall c s, count_char c s = count_occ ascii_dec s c.
Proof.
  intros c s. unfold count_char. induction s as [|x s IH]; auto. cbn [filter count_occ].
  destruct (Ascii.eqb_spec c x) as [->|N].
  - destruct (ascii_dec x x); [|contradiction]. cbn. now rewrite IH.
  - destruct (ascii_dec x c); [congruence|]. exact IH.
Qed.
Lemma unbalanced_iff : forall l, unbalanced l = false <-> balanced l.
Proof. intro l. unfold unbalanced, balanced. rewrite negb_false_iff, Nat.eqb_eq, !count_char_occ. reflexivity. Qed.

Lemma bool_false : forall b P, (b = true <-> P) -> ~ P -> b = false.
Proof. intros [|] P H N; auto. exfalso. apply N, H. reflexivity. Qed.

Lemma opens_twice_opens : forall l, opens_twice l -> opens l.
Proof. intros l (t & H). eexists. exact H. Qed.

Lemma last_snoc : forall (A : Type) (l : list A) x d, last (l ++ [x]) d = x.
Proof. intros. induction l as [|y l IH]; auto. cbn [app]. destruct (l ++ [x]) eqn:E; [destruct l; discriminate|]. exact IH. Qed.
Lemma but_last_snoc : forall (A : Type) (l : list A) x, but_last (l ++ [x]) = l.
Proof.
  intros. unfold but_last. rewrite app_length. cbn [length]. replace (length l + 1 - 1) with (length l) by lia.
  rewrite firstn_app, firstn_all, Nat.sub_diag, firstn_O. apply app_nil_r.
Qed.

Lemma monitor_remark_step : forall line q ds d, ~ opens line ->
  monitor_lines (line :: q) (ds ++ [d]) = monitor_lines q (ds ++ [d ++ lit " " ++ strip line]).
Proof.
  intros line q ds d N. cbn [monitor_lines].
  rewrite (bool_false _ _ (opens_twice_iff line)) by (intro; now apply N, opens_twice_opens).
  rewrite (bool_false _ _ (opens_iff line)) by exact N.
  destruct (ds ++ [d]) eqn:E; [destruct ds; discriminate|]. rewrite <- E. now rewrite but_last_snoc, last_snoc.
Qed.

Lemma monitor_remarks : forall lines text, remarks lines text -> forall q ds d,
  monitor_lines (lines ++ q) (ds ++ [d]) = monitor_lines q (ds ++ [d ++ text]).
Proof.
  intros lines text H. induction H as [|line core lines text T N R IH]; intros q ds d.
  - now rewrite app_nil_r.
  - cbn [app]. rewrite monitor_remark_step by exact N. rewrite IH. apply strip_iff in T. rewrite T.
    cbn [app lit list_ascii_of_string]. now rewrite <- app_assoc.
Qed.

Lemma monitor_group : forall lines text, monitor_item lines text -> forall q ds,
  monitor_lines (lines ++ q) ds = monitor_lines q (ds ++ [text]).
Proof.
  intros lines text H q ds. destruct H as [line lines text O B R|line next lines text O B R].
  - cbn [app monitor_lines]. apply opens_iff in O. apply unbalanced_iff in B. rewrite O, B.
    destruct (startswith (strip line) (lit "((")); now apply monitor_remarks.
  - cbn [app monitor_lines]. apply opens_twice_iff in O. rewrite O.
    assert (U : unbalanced line = true).
    { destruct (unbalanced line) eqn:E; auto. apply unbalanced_iff in E. contradiction. }
    rewrite U. now apply monitor_remarks.
Qed.

Lemma monitor_groups : forall groups texts, Forall2 monitor_item groups texts ->
  monitor_lines (concat groups) [] = Ok texts.
Proof.
  intros groups texts H.
  assert (G : forall ds, monitor_lines (concat groups) ds = Ok (ds ++ texts)).
  { induction H as [|g t gs ts Hg F IH]; intro ds; cbn [concat].
    - cbn. now rewrite app_nil_r.
    - rewrite (monitor_group g t Hg), IH. now rewrite <- app_assoc. }
  apply (G []).
Qed.

Lemma dget_map_res : forall (V W : Type) (f : V -> res W) p (d : list (ascii * V)) m v,
  map_res (fun kv => w <- f (snd kv) ;; Ok (fst kv, w)) d = Ok m -> dget Ascii.eqb p d = Some v ->
  exists w, f v = Ok w /\ dget Ascii.eqb p m = Some w.
Proof.
  intros V W f p d. induction d as [|[k x] d IH]; intros m v H G; [discriminate|].
  cbn [map_res] in H. apply bind_ok in H. destruct H as (kw & H1 & H). apply bind_ok in H. destruct H as (m' & H2 & H).
  injection H as <-. apply bind_ok in H1. destruct H1 as (w & H1 & E). injection E as <-. cbn [fst snd] in *.
  cbn [dget] in *. destruct (Ascii.eqb p k) eqn:Q.
  - injection G as <-. eauto.
  - eauto.
Qed.

Lemma monitor_field_items : forall e x f ms p groups texts, X4MonitorField e x = Ok (f, ms) ->
  dget Ascii.eqb p (f_dict f) = Some (concat groups) -> Forall2 monitor_item groups texts ->
  exists l, dget Ascii.eqb p ms = Some l /\ Forall2 (fun t m => monitor_reaction e t = Ok m) texts l.
Proof.
  intros e x f ms p groups texts H G F. unfold X4MonitorField in H. apply bind_ok in H. destruct H as (f' & _ & H).
  apply bind_ok in H. destruct H as (ms' & H & E). injection E as -> ->.
  assert (H' : map_res (fun kv => w <- (fun v => ds <- monitor_lines v [] ;; map_res (monitor_reaction e) ds) (snd kv) ;; Ok (fst kv, w)) (f_dict f) = Ok ms).
  { etransitivity; [|exact H]. clear. induction (f_dict f) as [|[k v] d IH]; auto. cbn [map_res fst snd].
    destruct (monitor_lines v []); cbn [bind]; auto. destruct (map_res (monitor_reaction e) a); cbn [bind]; auto.
    now rewrite IH. }
  destruct (dget_map_res _ _ _ _ _ _ _ H' G) as (l & L1 & L2). exists l. split; [exact L2|].
  rewrite (monitor_groups _ _ F) in L1. cbn [bind] in L1. now apply map_res_Forall2.
Qed.

(** A reaction in single parentheses that goes on in the next line. *)
Lemma monitor_continued : forall line next, opens line -> ~ opens_twice line -> ~ balanced line ->
  monitor_lines [line; next] [] = Ok (line :: map (fun c => [c]) next).
Proof.
  intros line next O T B. cbn [monitor_lines].
  rewrite (bool_false _ _ (opens_twice_iff line)) by exact T. apply opens_iff in O. rewrite O.
  assert (U : unbalanced line = true).
  { destruct (unbalanced line) eqn:E; auto. apply unbalanced_iff in E. contradiction. }
  rewrite U. reflexivity.
Qed.

Lemma monitor_field_continued : forall e x f ms p line next, X4MonitorField e x = Ok (f, ms) ->
  dget Ascii.eqb p (f_dict f) = Some [line; next] -> opens line -> ~ opens_twice line -> ~ balanced line ->
  exists l, dget Ascii.eqb p ms = Some l /\ length l = 1 + length next.
Proof.
  intros e x f ms p line next H G O T B. unfold X4MonitorField in H. apply bind_ok in H. destruct H as (f' & _ & H).
  apply bind_ok in H. destruct H as (ms' & H & E). injection E as -> ->.
  assert (H' : map_res (fun kv => w <- (fun v => ds <- monitor_lines v [] ;; map_res (monitor_reaction e) ds) (snd kv) ;; Ok (fst kv, w)) (f_dict f) = Ok ms).
  { etransitivity; [|exact H]. clear. induction (f_dict f) as [|[k v] d IH]; auto. cbn [map_res fst snd].
    destruct (monitor_lines v []); cbn [bind]; auto. destruct (map_res (monitor_reaction e) a); cbn [bind]; auto.
    now rewrite IH. }
  destruct (dget_map_res _ _ _ _ _ _ _ H' G) as (l & L1 & L2). exists l. split; [exact L2|].
  rewrite monitor_continued in L1 by auto. cbn [bind] in L1. apply map_res_Forall2 in L1.
  clear - L1. assert (Q : length (line :: map (fun c => [c]) next) = length l) by (clear - L1; induction L1; cbn; auto).
  cbn in Q. rewrite map_length in Q. now rewrite <- Q.
Qed.

Lemma monitor_field_alone : forall e x f line, X4PlainField x = Ok f -> f_dict f = [(sp, [line])] ->
  opens line -> ~ balanced line -> X4MonitorField e x = Raise IndexError.
Proof.
  intros e x f line H D O B. unfold X4MonitorField. rewrite H. cbn [bind]. rewrite D.
  assert (U : unbalanced line = true).
  { destruct (unbalanced line) eqn:E; auto. apply unbalanced_iff in E. contradiction. }
  apply opens_iff in O.
  cbn [map_res fst snd monitor_lines]. rewrite O, U. destruct (startswith (strip line) (lit "((")); reflexivity.
Qed.

(** ** Headings *)
Lemma split_none : forall sep s cur, contains sep s = false -> split_str_aux sep s cur 0 = [rev cur ++ s].
Proof.
  intros sep s. induction s as [|c s IH]; intros cur H; [cbn [split_str_aux]; now rewrite app_nil_r|].
  cbn [contains] in H. apply orb_false_iff in H. destruct H as [A B]. cbn [split_str_aux]. rewrite A, IH by assumption.
  cbn [rev]. now rewrite <- app_assoc.
Qed.
Lemma index_char_first : forall c a b, ~ In c a -> index_char c (a ++ c :: b) = Some (length a).
Proof.
  intros c a b H. induction a as [|x a IH]; cbn [app index_char]; [now rewrite Ascii.eqb_refl|].
  destruct (Ascii.eqb x c) eqn:E; [apply Ascii.eqb_eq in E; subst; exfalso; apply H; now left|].
  rewrite IH by (intro I; apply H; now right). reflexivity.
Qed.
Lemma contains_intro : forall p s, mentions s p -> contains p s = true.
Proof.
  intros p s (a & b & ->). assert (P : forall p b, is_prefix p (p ++ b) = true).
  { clear. induction p as [|x p IH]; intros b; [now destruct b|]. cbn. now rewrite Ascii.eqb_refl, IH. }
  induction a as [|x a IH]; cbn [app].
  - destruct (p ++ b) eqn:E; cbn [contains]; rewrite <- E, P; reflexivity.
  - cbn [contains]. rewrite IH. apply orb_true_r.
Qed.
Lemma not_contains : forall p s, ~ mentions s p -> contains p s = false.
Proof.
  intros p s H. destruct (contains p s) eqn:E; [|reflexivity]. exfalso. apply H.
  revert E. clear. assert (PF : forall p s, is_prefix p s = true -> exists b, s = p ++ b).
  { clear. induction p as [|c p IH]; intros s H; [exists s; reflexivity|]. destruct s as [|d s]; [discriminate|].
    cbn in H. apply andb_true_iff in H. destruct H as [H1 H2]. apply Ascii.eqb_eq in H1. subst.
    destruct (IH s H2) as (b & ->). exists b. reflexivity. }
  induction s as [|c s IH]; intro H.
  - cbn in H. apply orb_true_iff in H. destruct H as [H|H]; [|discriminate]. apply PF in H. destruct H as (b & H). exists [], b. auto.
  - cbn [contains] in H. apply orb_true_iff in H. destruct H as [H|H].
    + apply PF in H. destruct H as (b & H). exists [], b. auto.
    + destruct (IH H) as (a & b & ->). exists (c :: a), b. reflexivity.
Qed.

Lemma monitor_headed : forall e n rest m, ~ In ")"%char n -> ~ mentions (n ++ ")"%char :: rest) (lit "((MONIT") ->
  reaction_of_text e ("("%char :: rest) = Ok m ->
  monitor_reaction e (lit "((MONIT" ++ n ++ ")"%char :: rest) = Ok (Some (fst m), snd m, Some (lit "MONIT" ++ n)).
Proof.
  intros e n rest m N R E. unfold monitor_reaction, monitor_heading.
  assert (C : contains (lit "MONIT") (lit "((MONIT" ++ n ++ ")"%char :: rest) = true).
  { apply contains_intro. exists (lit "(("), (n ++ ")"%char :: rest). reflexivity. }
  rewrite C.
  assert (S : split_str (lit "((MONIT") (lit "((MONIT" ++ n ++ ")"%char :: rest) = [[]; n ++ ")"%char :: rest]).
  { unfold split_str. change (lit "((MONIT" ++ n ++ ")"%char :: rest) with ("("%char :: "("%char :: "M"%char :: "O"%char :: "N"%char :: "I"%char :: "T"%char :: n ++ ")"%char :: rest).
    cbn [split_str_aux]. change (is_prefix (lit "((MONIT") ("("%char :: "("%char :: "M"%char :: "O"%char :: "N"%char :: "I"%char :: "T"%char :: n ++ ")"%char :: rest)) with true.
    cbv iota. change (length (lit "((MONIT") - 1) with 6. cbn [split_str_aux]. rewrite split_none by now apply not_contains. reflexivity. }
  rewrite S. cbn [skipn fold_res]. rewrite index_char_first by assumption. cbn [of_option bind].
  replace (length n + 1) with (length (n ++ [")"%char])) by now rewrite app_length.
  assert (K : skipn (length (n ++ [")"%char])) (n ++ ")"%char :: rest) = rest).
  { replace (n ++ ")"%char :: rest) with ((n ++ [")"%char]) ++ rest) by now rewrite <- app_assoc.
    rewrite skipn_app, skipn_all, Nat.sub_diag. reflexivity. }
  rewrite K. rewrite firstn_app, Nat.sub_diag, firstn_all. cbn [firstn]. rewrite app_nil_r.
  change (startswith (lit "(" ++ rest) (lit "(")) with true. cbv iota.
  change (lit "(" ++ rest) with ("("%char :: rest). rewrite E. reflexivity.
Qed.
Lemma no_heading : forall d, ~ mentions d (lit "((MONIT") -> monitor_heading d = Ok (d, None).
Proof.
  intros d N. unfold monitor_heading. destruct (contains (lit "MONIT") d); [|reflexivity].
  unfold split_str. rewrite split_none by now apply not_contains. reflexivity.
Qed.
Lemma monitor_plain : forall e rest m, ~ mentions ("("%char :: rest) (lit "((MONIT") ->
  reaction_of_text e ("("%char :: rest) = Ok m ->
  monitor_reaction e ("("%char :: rest) = Ok (Some (fst m), snd m, None).
Proof.
  intros e rest m N E. unfold monitor_reaction. rewrite no_heading by assumption. cbn [bind].
  change (startswith ("("%char :: rest) (lit "(")) with true. cbv iota. rewrite E. reflexivity.
Qed.
Lemma monitor_remark : forall e d, ~ mentions d (lit "((MONIT") -> (forall rest, d <> "("%char :: rest) ->
  monitor_reaction e d = Ok (None, PTok d, None).
Proof.
  intros e d N E. unfold monitor_reaction. rewrite no_heading by assumption. cbn [bind].
  destruct (startswith d (lit "(")) eqn:S; [|reflexivity]. destruct d as [|c d]; [discriminate|].
  change (Ascii.eqb "(" c && true = true) in S. rewrite andb_true_r in S. apply Ascii.eqb_eq in S. exfalso. now apply (E d); subst.
Qed.
