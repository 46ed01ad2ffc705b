(** What is written as comma separated values reads back. *)
From Coq Require Import String List Ascii NArith ZArith Bool Arith Lia.
From Verif.Model Require Import Py PyFloat Section Columns Csv.
From Verif.Spec Require Import Text CsvText DataSets.
From Verif.Proofs Require Import StrLemmas FieldLemmas.
Import ListNotations.
Local Open Scope list_scope.

Definition special (c : ascii) : bool := Ascii.eqb c comma_c || Ascii.eqb c quote_c || Ascii.eqb c nl.

Lemma code_is : forall c n, (n < 256)%N -> N.eqb (N_of_ascii c) n = Ascii.eqb c (ascii_of_N n).
Proof.
  intros c n H. destruct (Ascii.eqb_spec c (ascii_of_N n)) as [->|N].
  - rewrite N_ascii_embedding by auto. apply N.eqb_refl.
  - apply N.eqb_neq. intro E. apply N. rewrite <- E. now rewrite ascii_N_embedding.
Qed.

Lemma scan_plain_char : forall c st field row s, special c = false -> c <> ascii_of_N 13 -> st = AtRow \/ st = AtField \/ st = InField ->
  csv_scan st field row (c :: s) = csv_scan InField (c :: field) row s.
Proof.
  intros c st field row s S R H. unfold special in S. apply orb_false_iff in S as [S S3]. apply orb_false_iff in S as [S1 S2].
  assert (A : N.eqb (N_of_ascii c) 34 = false) by (rewrite code_is by reflexivity; exact S2).
  assert (B : N.eqb (N_of_ascii c) 44 = false) by (rewrite code_is by reflexivity; exact S1).
  assert (C : N.eqb (N_of_ascii c) 10 = false) by (rewrite code_is by reflexivity; exact S3).
  assert (D : N.eqb (N_of_ascii c) 13 = false) by (rewrite code_is by reflexivity; now apply Ascii.eqb_neq).
  destruct H as [->|[->| ->]]; cbn [csv_scan]; rewrite ?A, ?B, ?C, ?D; reflexivity.
Qed.
Lemma scan_plain : forall f field row s, existsb special f = false -> no_return f ->
  csv_scan InField field row (f ++ s) = csv_scan InField (rev f ++ field) row s.
Proof.
  induction f as [|c f IH]; intros field row s S R; [reflexivity|]. cbn [existsb] in S. apply orb_false_iff in S as [S1 S2].
  cbn [app rev]. rewrite scan_plain_char; auto.
  - rewrite IH; auto. + now rewrite <- app_assoc. + intro I. apply R. now right.
  - intros ->. apply R. now left.
Qed.
Lemma scan_inside : forall f field row s,
  csv_scan InQuotes field row (flat_map (fun c => if Ascii.eqb c quote_c then [c; c] else [c]) f ++ quote_c :: s) =
  csv_scan AfterQuote (rev f ++ field) row s.
Proof.
  induction f as [|c f IH]; intros field row s; [reflexivity|]. cbn [flat_map rev].
  destruct (Ascii.eqb_spec c quote_c) as [->|N].
  - change (([quote_c; quote_c] ++ flat_map (fun c => if Ascii.eqb c quote_c then [c; c] else [c]) f) ++ quote_c :: s)
      with (quote_c :: quote_c :: (flat_map (fun c => if Ascii.eqb c quote_c then [c; c] else [c]) f ++ quote_c :: s)).
    change (csv_scan InQuotes field row (quote_c :: quote_c :: (flat_map (fun c => if Ascii.eqb c quote_c then [c; c] else [c]) f ++ quote_c :: s)))
      with (csv_scan InQuotes (quote_c :: field) row (flat_map (fun c => if Ascii.eqb c quote_c then [c; c] else [c]) f ++ quote_c :: s)).
    rewrite IH. now rewrite <- app_assoc.
  - cbn [app csv_scan]. rewrite code_is by reflexivity. change (ascii_of_N 34) with quote_c.
    destruct (Ascii.eqb_spec c quote_c); [contradiction|]. rewrite IH. now rewrite <- app_assoc.
Qed.

(** A written field, up to the comma or the end of the line after it. *)
Definition ends_field (c : ascii) : Prop := c = comma_c \/ c = nl.

Lemma scan_field : forall f single c row s st, no_return f -> ends_field c ->
  (st = AtRow /\ (single = true \/ f <> [] \/ c = comma_c)) \/ st = AtField ->
  csv_scan st [] row (csv_field single f ++ c :: s) =
    if Ascii.eqb c comma_c then csv_scan AtField [] (f :: row) s
    else option_map (cons (rev (f :: row))) (csv_scan AtRow [] [] s).
Proof.
  intros f single c row s st R E H. unfold csv_field.
  assert (Q : csv_scan st [] row (quoted f ++ c :: s) = if Ascii.eqb c comma_c then csv_scan AtField [] (f :: row) s
    else option_map (cons (rev (f :: row))) (csv_scan AtRow [] [] s)).
  { unfold quoted. rewrite <- app_comm_cons, <- app_assoc.
    assert (S : forall x, csv_scan st [] row (quote_c :: x) = csv_scan InQuotes [] row x) by (destruct H as [[-> _]| ->]; reflexivity).
    rewrite S. cbn [app]. rewrite scan_inside, app_nil_r. destruct E as [->| ->]; cbn; now rewrite rev_involutive. }
  destruct (needs_quotes f || (single && match f with [] => true | _ => false end)) eqn:N; [exact Q|].
  apply orb_false_iff in N as [N1 N2]. destruct f as [|d f].
  - rewrite andb_true_r in N2. subst single. destruct E as [->| ->].
    + destruct H as [[-> _]| ->]; reflexivity.
    + destruct H as [[_ [K|[K|K]]]| ->]; [discriminate|now elim K|discriminate|reflexivity].
  - change (existsb special (d :: f) = false) in N1. cbn [existsb] in N1. apply orb_false_iff in N1 as [N1 N3].
    assert (D : d <> ascii_of_N 13) by (intros ->; apply R; now left).
    cbn [app]. rewrite scan_plain_char; [|exact N1|exact D|destruct H as [[-> _]| ->]; auto].
    rewrite scan_plain; [|exact N3|intro I; apply R; now right].
    destruct E as [->| ->]; cbn; rewrite rev_app_distr, rev_involutive; reflexivity.
Qed.

Lemma scan_rest : forall fs f single row s, Forall no_return (f :: fs) ->
  csv_scan AtField [] row (join [comma_c] (map (csv_field single) (f :: fs)) ++ nl :: s) =
  option_map (cons (rev row ++ f :: fs)) (csv_scan AtRow [] [] s).
Proof.
  induction fs as [|g fs IH]; intros f single row s F; inversion F as [|? ? F1 F2]; subst.
  - cbn [map join]. rewrite scan_field; [|exact F1|now right|now right]. cbn. reflexivity.
  - change (map (csv_field single) (f :: g :: fs)) with (csv_field single f :: map (csv_field single) (g :: fs)).
    rewrite join_cons by discriminate. rewrite <- !app_assoc. cbn [app].
    rewrite scan_field; [|exact F1|now left|now right]. rewrite Ascii.eqb_refl. rewrite IH by exact F2.
    cbn [rev]. now rewrite <- app_assoc.
Qed.
Lemma scan_row : forall fs s, Forall no_return fs ->
  csv_scan AtRow [] [] (csv_row fs ++ s) = option_map (cons fs) (csv_scan AtRow [] [] s).
Proof.
  intros fs s F. unfold csv_row. rewrite <- app_assoc. cbn [app]. destruct fs as [|f fs]; [reflexivity|].
  inversion F as [|? ? F1 F2]; subst. destruct fs as [|g fs].
  - cbn [map join length Nat.eqb]. rewrite scan_field; [|exact F1|now right|left; auto]. reflexivity.
  - change (Nat.eqb (length (f :: g :: fs)) 1) with false.
    change (map (csv_field false) (f :: g :: fs)) with (csv_field false f :: map (csv_field false) (g :: fs)).
    rewrite join_cons by discriminate. rewrite <- !app_assoc. cbn [app].
    rewrite scan_field; [|exact F1|now left|left; auto]. rewrite Ascii.eqb_refl.
    rewrite scan_rest by exact F2. reflexivity.
Qed.
Lemma read_rows : forall rows, Forall (Forall no_return) rows -> csv_read (concat (map csv_row rows)) = Some rows.
Proof.
  unfold csv_read. induction rows as [|r rows IH]; intros F; [reflexivity|]. inversion F as [|? ? F1 F2]; subst.
  cbn [map concat]. rewrite scan_row by exact F1. now rewrite IH.
Qed.

Lemma number_no_return : forall s, Forall number_char s -> no_return s.
Proof.
  intros s F I. rewrite Forall_forall in F. apply F in I. unfold number_char in I. cbn in I. repeat destruct I as [I|I]; try discriminate; contradiction.
Qed.

Lemma writerows_texts : forall repr rows, writerows repr rows = concat (map csv_row (map (map (csv_text repr)) rows)).
Proof. intros. unfold writerows. now rewrite map_map. Qed.

Lemma Forall_map_in : forall {A B} (P : B -> Prop) (f : A -> B) l, (forall x, In x l -> P (f x)) -> Forall P (map f l).
Proof. intros A B P f l H. apply Forall_forall. intros y I. apply in_map_iff in I as (x & <- & I). auto. Qed.

Lemma dataset_csv_reads : forall repr t, (forall x, Forall number_char (repr x)) ->
  Forall no_return (t_labels t) -> (forall u, In (Some u) (t_units t) -> no_return u) ->
  csv_read (dataset_csv repr t) = Some (t_labels t :: map (fun u => match u with Some u => u | None => [] end) (t_units t) ::
    map (map (fun c => match c with VNone => [] | VFloat x => repr x | VZero => list_ascii_of_string "0" end)) (t_data t)).
Proof.
  intros repr t R L U. unfold dataset_csv. rewrite writerows_texts.
  rewrite read_rows; cbn [map].
  - f_equal. f_equal; [|f_equal].
    + rewrite map_map. cbn. apply map_id.
    + rewrite map_map. apply map_ext. now intros [u|].
    + rewrite map_map. apply map_ext. intro row. rewrite map_map. apply map_ext. now intros [].
  - constructor; [|constructor].
    + rewrite map_map. cbn. rewrite map_id. exact L.
    + rewrite map_map. apply Forall_map_in. intros [u|] I; cbn; [auto|intros []].
    + rewrite map_map. apply Forall_map_in. intros row _. rewrite map_map. apply Forall_map_in. intros [|x|] _; cbn.
      * intros [].
      * apply number_no_return. apply R.
      * intros [K|[]]. discriminate.
Qed.
Lemma section_csv_reads : forall repr d, (forall x, Forall number_char (repr x)) ->
  Forall no_return (d_labels d) -> Forall no_return (d_units d) ->
  csv_read (section_csv repr d) = Some (d_labels d :: d_units d ::
    map (map (fun x => match x with Some x => repr x | None => [] end)) (d_data d)).
Proof.
  intros repr d R L U. unfold section_csv. rewrite writerows_texts.
  rewrite read_rows; cbn [map].
  - f_equal. f_equal; [|f_equal].
    + rewrite map_map. cbn. apply map_id.
    + rewrite map_map. cbn. apply map_id.
    + rewrite map_map. apply map_ext. intro row. rewrite map_map. apply map_ext. now intros [].
  - constructor; [|constructor].
    + rewrite map_map. cbn. rewrite map_id. exact L.
    + rewrite map_map. cbn. rewrite map_id. exact U.
    + rewrite map_map. apply Forall_map_in. intros row _. rewrite map_map. apply Forall_map_in. intros [x|] _; cbn.
      * apply number_no_return. apply R.
      * intros [].
Qed.

(** The numbers themselves, when the float texts can be read back. *)
Lemma dataset_csv_numbers : forall repr t, (forall x, Forall number_char (repr x)) ->
  Forall no_return (t_labels t) -> (forall u, In (Some u) (t_units t) -> no_return u) ->
  (forall row x, In row (t_data t) -> In (VFloat x) row -> float_of_str (repr x) = Some x) ->
  exists rows, csv_read (dataset_csv repr t) = Some (t_labels t :: map (fun u => match u with Some u => u | None => [] end) (t_units t) :: rows) /\
    Forall2 (Forall2 (fun c text => match c with VNone => text = [] | VFloat x => float_of_str text = Some x | VZero => float_of_str text = Some fzero end))
            (t_data t) rows.
Proof.
  intros repr t R L U F. eexists. split; [apply dataset_csv_reads; assumption|].
  assert (G : forall rows, (forall row x, In row rows -> In (VFloat x) row -> float_of_str (repr x) = Some x) ->
    Forall2 (Forall2 (fun c text => match c with VNone => text = [] | VFloat x => float_of_str text = Some x | VZero => float_of_str text = Some fzero end))
      rows (map (map (fun c => match c with VNone => [] | VFloat x => repr x | VZero => list_ascii_of_string "0" end)) rows)).
  { induction rows as [|row rows IH]; intro H; cbn [map]; constructor.
    - assert (K : forall x, In (VFloat x) row -> float_of_str (repr x) = Some x) by (intros x; apply (H row x); now left).
      clear - K. induction row as [|c row IH]; cbn [map]; constructor.
      + destruct c as [|x|]; [reflexivity|apply K; now left|reflexivity].
      + apply IH. intros x Hx. apply K. now right.
    - apply IH. intros r x Hr. apply (H r x). now right. }
  now apply G.
Qed.
