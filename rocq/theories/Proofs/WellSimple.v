(** The data sets of entries that keep to the format can be simplified. *)
From Coq Require Import String List Ascii NArith ZArith Bool Arith Lia.
From Coq Require Import Floats.SpecFloat.
From Verif.Model Require Import Py PyFloat Utilities Dicts Particle Reaction Field Section Entry Columns Dataset Pyparsing Grammars.
From Verif.Spec Require Import Text Exfor Tables DataSets Merging Codes Balance Known Names References Document GeneralKnown WellWritten.
From Verif.Proofs Require Import StrLemmas NumLemmas IntLemmas ReactionLemmas DictLemmas FieldLemmas BibLemmas DataLemmas EntryLemmas UnitLemmas MergeLemmas DatasetLemmas SimplifyLemmas EntryDataLemmas ReadingLemmas TextTableLemmas DocumentLemmas WellLemmas.
Import ListNotations.
Local Open Scope string_scope.
Local Open Scope list_scope.
Local Open Scope nat_scope.

(** ** Sections *)

(** Numbers under headings of cosines have property [A]. *)
Definition angled (A : float -> Prop) (d : data_section) : Prop :=
  forall j l, nth_error (d_labels d) j = Some l -> mentions l (tx "COS") ->
    A (S754_zero false) /\ forall row x, In row (d_data d) -> nth_error row j = Some (Some x) -> A x.
Definition plain_section (acos : float -> option float) (k : str) (d : data_section) : Prop :=
  section_ok d /\ angled (has_angle acos) d /\ (forall u, In u (d_units d) -> ~ mentions u (tx "B*RT-EV")) /\
  (str_eqb k (lit "COMMON") = true -> d_pointers d = []).

Lemma map_res_at : forall (A B : Type) (f : A -> res B) l ys j y, map_res f l = Ok ys -> nth_error ys j = Some y -> exists x, nth_error l j = Some x /\ f x = Ok y.
Proof.
  intros A B f l. induction l as [|x l IH]; intros ys j y H N; cbn [map_res] in H; [injection H as <-; destruct j; discriminate N|].
  apply bind_ok in H. destruct H as (z & Z & H). apply bind_ok in H. destruct H as (zs & F & H). injection H as <-.
  destruct j as [|j]; cbn [nth_error] in N; [exists x; split; [reflexivity|congruence]|exact (IH _ _ _ F N)].
Qed.
Lemma number_same : forall w a b, number_is w a -> number_is w b -> a = b.
Proof. intros w a b A B. apply number_int in A, B. congruence. Qed.

Lemma read_plain : forall acos k b d, numeric_table b -> simple_headings acos b -> (str_eqb k (lit "COMMON") = true -> field_keyword (tx "COMMON") b) ->
  X4DataSection k b = Ok d -> plain_section acos k d.
Proof.
  intros acos k b d (cols & rows & P & C & (l0 & rest & w0 & w1 & w2 & ws & EL & W & N1 & m & N2 & IM) & LL & NU) S K E.
  cbv zeta in *. destruct (lpr_pos cols P) as [LP KP]. set (lpr := lines_per_row cols) in *.
  split; [exact (parsed_section_ok _ _ _ E)|].
  destruct (data_ok _ _ _ E) as (l0' & f1 & f2 & n0 & c & rs & H0 & H1 & I1 & H2 & I2 & _ & L & ST & CO & HF & RO & _ & DA).
  assert (l0' = l0) by (subst b; cbn in H0; congruence). subst l0'. change (firstn 33 l0) with (columns 0 33 l0) in H1, H2.
  rewrite (words_split _ _ W) in H1, H2. cbn [nth_error] in H1, H2. injection H1 as <-. injection H2 as <-.
  assert (NC : d_numcols d = Z.of_nat cols) by (apply number_int in N1; congruence).
  rewrite L, NC, LP in CO. rewrite NC, Nat2Z.id in HF.
  destruct (collapse_total b lpr (rows + 2) KP LL) as (c' & CO' & LC & NC'). assert (c' = c) by congruence. subst c'.
  set (r0 := concat (map row_part (row_lines b lpr 0))). set (r1 := concat (map row_part (row_lines b lpr 1))).
  assert (HD : forall j, j < cols -> table_heading b j (cell r0 j) (cell r1 j)).
  { intros j J. exists cols, l0, rest, w0, w1, (w2 :: ws). split; [exact EL|]. split; [exact W|]. split; [exact N1|]. split; [exact J|].
    fold lpr. pose proof (col_line cols j J) as CL. fold lpr in CL. split.
    - apply (row_cell b lpr 0 j C); [lia|exact CL].
    - replace (1 + lpr) with (1 + 1 * lpr) by lia. apply (row_cell b lpr 1 j C); [nia|exact CL]. }
  assert (HL : d_labels d = map (cell r0) (seq 0 cols) /\ d_units d = map (cell r1) (seq 0 cols)).
  { destruct (header_fold _ _ _ _ _ HF) as [(Z & _)|(q0 & q1 & Q0 & Q1 & EL' & EU & _)]; [lia|].
    rewrite (NC' 0) in Q0 by lia. rewrite (NC' 1) in Q1 by lia. injection Q0 as <-. injection Q1 as <-. split; assumption. }
  destruct HL as [HL HU]. split; [|split].
  - intros j l Nl M. assert (J : j < cols).
    { assert (LJ : j < length (d_labels d)) by (apply nth_error_Some; congruence).
      now rewrite HL, map_length, seq_length in LJ. }
    assert (l = cell r0 j) by (rewrite HL, (nth_error_map_seq _ (cell r0) cols j J) in Nl; congruence). subst l.
    split; [exact (cosine_zero _ _ S j _ _ (HD j J) M)|]. intros row x I Nx. rewrite DA in I. apply In_nth_error in I. destruct I as [q Q].
    rewrite nth_error_map in Q. destruct (nth_error rs q) as [[raw row']|] eqn:Eq; [|discriminate Q]. cbn in Q. injection Q as ->.
    destruct (map_res_at _ _ _ _ _ _ _ RO Eq) as (i & _ & F). apply bind_ok in F. destruct F as (raw' & F1 & F). apply bind_ok in F. destruct F as (vals & F2 & F).
    assert (raw' = raw /\ vals = row) as [-> ->] by (split; congruence). clear F.
    destruct (map_res_at _ _ _ _ _ _ _ F2 Nx) as (t & Nt & PT). destruct (map_res_at _ _ _ _ _ _ _ F1 Nt) as (j' & Nj & F).
    rewrite NC, Nat2Z.id in Nj. assert (j' = j) by (rewrite <- (map_id (seq 0 cols)), (nth_error_map_seq _ (fun k => k) cols j J) in Nj; congruence). subst j'.
    apply bind_ok in F. destruct F as (r & R & F). injection F as <-. apply idx_ok in R.
    assert (IR : 2 + i < rows + 2) by (rewrite <- LC; apply nth_error_Some; congruence).
    rewrite (NC' (2 + i)) in R by exact IR. injection R as <-.
    pose proof (row_cell b lpr (2 + i) j C ltac:(nia) (col_line cols j J)) as TC.
    destruct (NU i j ltac:(lia) J) as (t & x' & TC' & NT). 
    change (parseFORTRANNumber (cell (concat (map row_part (row_lines b lpr (2 + i)))) j) = Ok (Some x)) in PT. rewrite (cell_unique _ _ _ _ _ TC TC') in PT.
    rewrite (number_parsed _ _ NT) in PT. injection PT as ->.
    apply (cosine_entry _ _ S i j _ _ t x (HD j J) M); [|exact NT].
    exists cols, l0, rest, w0, w1, (w2 :: ws). split; [exact EL|]. split; [exact W|]. split; [exact N1|]. split; [exact J|]. fold lpr. split; [nia|exact TC'].
  - intros u I. rewrite HU in I. apply in_map_iff in I. destruct I as (j & <- & J). apply in_seq in J. exact (no_roots _ _ S j _ _ (HD j ltac:(lia))).
  - intro Q. specialize (K Q). apply (header_fold_labels _ _ _ _ _ _ _ _ HF). intros x I. rewrite HL in I. apply in_map_iff in I.
    destruct I as (j & <- & J). apply in_seq in J. pose proof (no_pointers _ _ S K j _ _ (HD j ltac:(lia))). lia.
Qed.

Definition plain_sub (acos : float -> option float) (s : subentry) : Prop := forall k d, dget str_eqb k (s_dict s) = Some (SData d) -> plain_section acos k d.

Section Entries.
Context (c : codes) (e : env) (D : well_dictionaries c e) (acos : float -> option float).

Lemma section_plain : forall b k d, well_section c b -> (~ field_keyword (tx "BIB") b -> simple_headings acos b) ->
  make_section e b = Ok (k, SData d) -> plain_section acos k d.
Proof.
  intros b k d W S E. unfold make_section in E.
  assert (NB : forall name, field_keyword (tx name) b -> name <> "BIB" -> ~ field_keyword (tx "BIB") b).
  { intros name K N K'. apply N. pose proof (keyword_unique _ _ _ K K') as Q. unfold tx in Q.
    apply (f_equal string_of_list_ascii) in Q. rewrite !string_of_list_ascii_of_string in Q. exact Q. }
  destruct W as [(K & _)|([K|K] & N)].
  - rewrite (named_type "BIB" b (or_introl eq_refl) K) in E. change (str_eqb (lit "BIB") (lit "BIB")) with true in E. cbv iota in E.
    apply bind_ok in E. destruct E as (x & _ & E). discriminate E.
  - rewrite (named_type "DATA" b) in E by (solve [right; left; reflexivity|exact K]). change (str_eqb (lit "DATA") (lit "BIB")) with false in E. cbv iota in E.
    apply bind_ok in E. destruct E as (x & X & E). assert (k = lit "DATA" /\ x = d) as [-> ->] by (split; congruence).
    apply (read_plain acos _ b d N (S (NB _ K ltac:(discriminate)))); [discriminate|exact X].
  - rewrite (named_type "COMMON" b) in E by (solve [right; right; left; reflexivity|exact K]). change (str_eqb (lit "COMMON") (lit "BIB")) with false in E. cbv iota in E.
    apply bind_ok in E. destruct E as (x & X & E). assert (k = lit "COMMON" /\ x = d) as [-> ->] by (split; congruence).
    apply (read_plain acos _ b d N (S (NB _ K ltac:(discriminate)))); [intros _; exact K|exact X].
Qed.

Lemma sub_plain : forall text s, well_subentry c text -> simple_subentry acos text -> X4SubEntry e text = Ok s -> plain_sub acos s.
Proof.
  intros text s (_ & lines & bs & L & S & W) (lines' & bs' & L' & S' & H) E.
  apply sub_fold in E. rewrite (lines_split _ _ L), (sections_chunkify _ _ S) in E.
  assert (lines' = lines) by (apply lines_split in L, L'; congruence). subst lines'.
  assert (bs' = bs) by (apply sections_chunkify in S, S'; congruence). subst bs'.
  unfold plain_sub. revert E. generalize (s_dict s). intros dd E.
  assert (G : forall d0 d1, (forall k d, dget str_eqb k d0 = Some (SData d) -> plain_section acos k d) -> section_fold e bs d0 = Ok d1 ->
            forall k d, dget str_eqb k d1 = Some (SData d) -> plain_section acos k d); [|exact (G [] dd ltac:(discriminate) E)].
  clear - W H. revert H. induction W as [|b bs Wb _ IH]; intros H d0 d1 I F k d G; [injection F as <-; now apply I|].
  inversion H as [|? ? Hb Hs]; subst. unfold section_fold in F. cbn [fold_res] in F. apply bind_ok in F. destruct F as (d2 & F2 & F).
  apply bind_ok in F2. destruct F2 as ([k0 x0] & M & F2). injection F2 as <-. cbn [fst snd] in F.
  apply (IH Hs _ _ ) with (2 := F) (3 := G) || (eapply (IH Hs); [|exact F|exact G]).
  intros k' d' G'. rewrite (dget_dset _ _ str_eqb str_eqb_eq) in G'. destruct (str_eqb k' k0) eqn:Q; [|now apply I].
  injection G' as ->. apply str_eqb_eq in Q. subst k'. exact (section_plain b k0 d' Wb Hb M).
Qed.

(** ** Tables *)

Lemma set_nth_length : forall (A : Type) (l l' : list A) i v, set_nth l i v = Ok l' -> length l' = length l.
Proof.
  intros A l l' i v H. unfold set_nth in H. destruct (Nat.ltb_spec i (length l)); [|discriminate].
  assert (E : l' = firstn i l ++ v :: skipn (S i) l) by congruence. rewrite E.
  rewrite app_length, firstn_length. change (length (v :: skipn (S i) l)) with (S (length (skipn (S i) l))). rewrite skipn_length. lia.
Qed.
Lemma write_length : forall d offset i row row', write_common d offset i row = Ok row' -> length row' = length row.
Proof.
  intros d offset i row row'. unfold write_common. generalize (seq 0 (Z.to_nat (d_numcols d))). intro l. revert row.
  induction l as [|j l IH]; intros row H; [now injection H as <-|]. cbn [fold_res] in H. apply bind_ok in H. destruct H as (r & R & H).
  apply bind_ok in R. destruct R as (cells & _ & R). apply bind_ok in R. destruct R as (v & _ & R). apply set_nth_length in R.
  rewrite (IH _ H). exact R.
Qed.
Lemma add_length : forall common offsets rows x rows' n, add_common common offsets rows x = Ok rows' ->
  Forall (fun r => length r = n) rows -> Forall (fun r => length r = n) rows'.
Proof.
  intros common offsets rows [[id d]|] rows' n H F; [|injection H as <-; exact F]. unfold add_common in H. cbv zeta in H.
  apply map_res_Forall2 in H. apply Forall_forall. intros r I.
  revert H I. generalize (seq 0 (length rows)). clear - F.
  match goal with |- forall ks, Forall2 ?R (combine ks rows) rows' -> _ => set (rel := R) end.
  assert (X : forall ir r', rel ir r' -> length r' = length (snd ir)).
  { intros [i row] r' R. unfold rel in R. cbn [snd].
    match type of R with (if ?b then _ else _) = _ => destruct b end; [|now injection R as <-].
    apply bind_ok in R. destruct R as (o & _ & R). now apply write_length in R. }
  clearbody rel. revert rows'. induction F as [|x rows Hx F IH]; intros rows' ks H I.
  - destruct ks; cbn in H; inversion H; subst; destruct I.
  - destruct ks as [|k ks]; cbn in H; inversion H as [|? y ? ys Hy Hs]; subst; [destruct I|]. destruct I as [<-|I].
    + apply X in Hy. exact Hy.
    + exact (IH _ _ Hs I).
Qed.

Lemma infix_short : forall x w, mentions (short x) w -> mentions x w.
Proof.
  intros x w (a & b & E). unfold short in E. pose proof (strip_trimmed (slice_to x 10)) as T. rewrite E in T.
  destruct T as (u & v & T & _). exists (u ++ a), (b ++ v ++ skipn 10 x). unfold slice_to in T.
  rewrite <- (firstn_skipn 10 x) at 1. rewrite T, <- !app_assoc. reflexivity.
Qed.

Lemma select_in : forall (A : Type) keep (l : list A) k x, In x (select keep k l) -> In x l.
Proof.
  induction l as [|y l IH]; intros k x I; [destruct I|]. cbn [select] in I. destruct (keep k); [destruct I as [<-|I]; [now left|]|]; right; eauto.
Qed.
Lemma select_length : forall (A B : Type) keep (l : list A) (m : list B) k, length l = length m -> length (select keep k l) = length (select keep k m).
Proof.
  induction l as [|x l IH]; intros [|y m] k E; try discriminate; [reflexivity|]. cbn [select length] in *.
  destruct (keep k); cbn [length]; [f_equal|]; apply IH; lia.
Qed.

Lemma table_shape : forall data c1 c2 p t, section_ok data -> full_common p (option_map snd c1) -> full_common p (option_map snd c2) ->
  setData data [c1; c2] p = Ok t ->
  DataSets.table_ok t /\
  (forall l, In l (t_labels t) -> exists x, l = short x /\ In x (common_labels (option_map snd c1) ++ common_labels (option_map snd c2) ++ d_labels data)) /\
  (forall u, In (Some u) (t_units t) -> exists x, u = short x /\ In x (common_units (option_map snd c1) ++ common_units (option_map snd c2) ++ d_units data)).
Proof.
  intros data c1 c2 p t O F1 F2 H. unfold setData in H. cbn [map app fold_res] in H.
  rewrite (heading_step_common _ _ _ _ _ _ F1) in H. cbn [bind app] in H.
  rewrite (heading_step_common _ _ _ _ _ _ F2) in H. cbn [bind app] in H. rewrite (heading_step_some _ _ _ _ _ _ O) in H. cbn [bind app] in H.
  set (l1 := common_labels (option_map snd c1)) in *. set (l2 := common_labels (option_map snd c2)) in *.
  set (u1 := common_units (option_map snd c1)) in *. set (u2 := common_units (option_map snd c2)) in *.
  set (keep := keep_column data p) in *.
  assert (LU : length u1 = length l1 /\ length u2 = length l2).
  { unfold u1, l1, u2, l2. split.
    - destruct (option_map snd c1) as [d|]; [|reflexivity]. destruct (F1 d eq_refl) as ((A & B & _) & _). cbn. congruence.
    - destruct (option_map snd c2) as [d|]; [|reflexivity]. destruct (F2 d eq_refl) as ((A & B & _) & _). cbn. congruence. }
  destruct LU as [LU1 LU2]. destruct O as (OL & OU & OD & OR).
  apply bind_ok in H. destruct H as (offset & Eo & H). apply bind_ok in H. destruct H as (rows & Er & H). apply bind_ok in H. destruct H as (rows' & Ef & H).
  injection H as <-. cbn [t_labels t_units t_data].
  set (labels := (map short l1 ++ map short l2) ++ map short (select keep 0 (d_labels data))) in *.
  assert (LL : length labels = length l1 + length l2 + length (select keep 0 (d_labels data))).
  { unfold labels. rewrite !app_length, !map_length. reflexivity. }
  assert (R0 : Forall (fun r => length r = length labels) rows).
  { apply map_res_Forall2 in Er. apply Forall_forall. intros r I. clear Ef rows'.
    assert (X : exists i, In i (seq 0 (Z.to_nat (d_numrows data))) /\ (cells <- idx (d_data data) i;; data_row offset
       ((repeat true (length l1) ++ repeat true (length l2)) ++ map keep (seq 0 (length (d_labels data)))) cells) = Ok r).
    { clear Eo. induction Er as [|i y is ys Hy _ IH]; [destruct I|]. destruct I as [<-|I]; [exists i; split; [now left|exact Hy]|].
      destruct (IH I) as (k & K & E). exists k. split; [now right|exact E]. }
    destruct X as (i & Ii & X). apply in_seq in Ii.
    replace (0 <? d_numrows data)%Z with true in Eo by (symmetry; apply Z.ltb_lt; lia).
    assert (offset = length l1 + length l2).
    { cbn [idx nth_error of_option] in Eo. injection Eo as <-. rewrite !app_length, !map_length. cbn [length]. lia. }
    subst offset. apply bind_ok in X. destruct X as (cells & Ec & X).
    assert (LC : length cells = Z.to_nat (d_numcols data)) by (apply OR; apply idx_ok in Ec; eapply nth_error_In; exact Ec).
    rewrite (data_row_spec keep) in X.
    - injection X as <-. rewrite app_length, repeat_length, map_length, LL.
      rewrite (select_length _ _ keep cells (d_labels data) 0) by congruence. reflexivity.
    - intros j Hj. rewrite nth_error_app2 by (rewrite app_length, !repeat_length; lia).
      rewrite app_length, !repeat_length. replace (length l1 + length l2 + j - (length l1 + length l2)) with j by lia.
      apply nth_error_map_seq. lia. }
  split; [|split].
  - split; [|split]; cbn [t_labels t_units t_data].
    + rewrite map_length, LL, !app_length, !map_length, LU1, LU2.
      rewrite (select_length _ _ keep (d_units data) (d_labels data) 0) by congruence. lia.
    + apply Forall_forall. intros u I. apply in_map_iff in I. destruct I as (x & <- & _). discriminate.
    + fold labels in Ef. cbn [fold_res] in Ef. apply bind_ok in Ef. destruct Ef as (r1 & A1 & Ef). apply bind_ok in Ef. destruct Ef as (r2 & A2 & Ef).
      injection Ef as <-. apply (add_length _ _ _ _ _ _ A2). now apply (add_length _ _ _ _ _ _ A1).
  - intros l I. unfold labels in I. rewrite <- !map_app in I. apply in_map_iff in I. destruct I as (x & <- & I). exists x. split; [reflexivity|].
    rewrite <- app_assoc in I. apply in_app_or in I. apply in_or_app. destruct I as [I|I]; [now left|]. right.
    apply in_app_or in I. apply in_or_app. destruct I as [I|I]; [now left|right]. now apply select_in in I.
  - intros u I. apply in_map_iff in I. destruct I as (w & E & I). injection E as ->. rewrite <- !map_app in I. apply in_map_iff in I. destruct I as (x & <- & I).
    exists x. split; [reflexivity|].
    rewrite <- app_assoc in I. apply in_app_or in I. apply in_or_app. destruct I as [I|I]; [now left|]. right.
    apply in_app_or in I. apply in_or_app. destruct I as [I|I]; [now left|right]. now apply select_in in I.
Qed.

(** ** Cells *)

Definition at_each (Q : nat -> dcell -> Prop) (row : list dcell) : Prop := forall j c, nth_error row j = Some c -> Q j c.

Lemma set_nth_each : forall Q row row' i v, set_nth row i v = Ok row' -> at_each Q row -> Q i v -> at_each Q row'.
Proof.
  intros Q row row' i v H R V j c0 N. unfold set_nth in H. destruct (Nat.ltb_spec i (length row)) as [L|L]; [|discriminate H].
  assert (E : row' = firstn i row ++ v :: skipn (S i) row) by congruence. rewrite E in N.
  assert (LF : length (firstn i row) = i) by (rewrite firstn_length; lia).
  destruct (Nat.lt_trichotomy j i) as [J|[J|J]].
  - rewrite nth_error_app1 in N by lia. rewrite nth_error_firstn_lt in N by exact J. now apply R.
  - subst j. rewrite nth_error_app2 in N by lia. rewrite LF, Nat.sub_diag in N. cbn [nth_error] in N. congruence.
  - rewrite nth_error_app2 in N by lia. rewrite LF in N. destruct (j - i) as [|m] eqn:DJ; [lia|]. cbn [nth_error] in N.
    rewrite nth_error_skipn_add in N. apply R. replace j with (S i + m) by lia. exact N.
Qed.
Lemma write_each : forall (Q : nat -> dcell -> Prop) d offset i row row', write_common d offset i row = Ok row' ->
  (forall cells j v, nth_error (d_data d) i = Some cells -> nth_error cells j = Some v -> Q (offset + j) (as_cell v)) -> at_each Q row -> at_each Q row'.
Proof.
  intros Q d offset i row row' H V. unfold write_common in H. revert H. generalize (seq 0 (Z.to_nat (d_numcols d))). intro l. revert row.
  induction l as [|j l IH]; intros row H R; [injection H as <-; exact R|]. cbn [fold_res] in H. apply bind_ok in H. destruct H as (r & E & H).
  apply bind_ok in E. destruct E as (cells & Ec & E). apply bind_ok in E. destruct E as (v & Ev & E). apply idx_ok in Ec, Ev.
  apply (IH _ H). apply (set_nth_each _ _ _ _ _ E R). specialize (V cells j v Ec Ev). now destruct v.
Qed.
Lemma add_each : forall (Q : nat -> dcell -> Prop) common offsets rows x rows', add_common common offsets rows x = Ok rows' ->
  (forall id d offset row j v, x = Some (id, d) -> nth_error offsets (common_index id common) = Some offset ->
     In row (d_data d) -> nth_error row j = Some v -> Q (offset + j) (as_cell v)) ->
  Forall (at_each Q) rows -> Forall (at_each Q) rows'.
Proof.
  intros Q common offsets rows [[id d]|] rows' H V F; [|injection H as <-; exact F]. unfold add_common in H. cbv zeta in H.
  apply Forall_forall. intros r I. apply In_nth_error in I. destruct I as [q E].
  destruct (map_res_at _ _ _ _ _ _ _ H E) as ([i row] & N & R). cbv beta iota in R.
  assert (IR : In row rows) by (apply nth_error_In in N; apply in_combine_r in N; exact N).
  rewrite Forall_forall in F. specialize (F row IR).
  match type of R with (if ?b then _ else _) = _ => destruct b end; [|injection R as <-; exact F].
  apply bind_ok in R. destruct R as (o & O & R). apply idx_ok in O. apply (write_each _ _ _ _ _ _ R); [|exact F].
  intros cells j v Ec Ev. apply (V id d o cells j v eq_refl O); [eapply nth_error_In; exact Ec|exact Ev].
Qed.

Lemma select_nth : forall (A B : Type) keep (l : list A) (m : list B) k i x, length l = length m -> nth_error (select keep k l) i = Some x ->
  exists j, nth_error l j = Some x /\ nth_error (select keep k m) i = nth_error m j.
Proof.
  intros A B keep. induction l as [|y l IH]; intros [|z m] k i x L N; try discriminate L; [destruct i; discriminate N|].
  injection L as L. cbn [select] in *. destruct (keep k).
  - destruct i as [|i]; cbn [nth_error] in *; [exists 0; split; [exact N|reflexivity]|]. destruct (IH m (S k) i x L N) as (j & J & E). exists (S j). auto.
  - destruct (IH m (S k) i x L N) as (j & J & E). exists (S j). auto.
Qed.

(** Numbers under headings of cosines stay what they are. *)
Lemma table_angled : forall (A : float -> Prop) data c1 c2 p t, section_ok data -> full_common p (option_map snd c1) -> full_common p (option_map snd c2) ->
  (forall i d d', c1 = Some (i, d) -> c2 = Some (i, d') -> d = d') ->
  (forall d, option_map snd c1 = Some d -> angled A d) -> (forall d, option_map snd c2 = Some d -> angled A d) -> angled A data ->
  setData data [c1; c2] p = Ok t ->
  forall j l row c x, nth_error (t_labels t) j = Some l -> mentions l (tx "COS") -> In row (t_data t) -> nth_error row j = Some c -> number c = Some x -> A x.
Proof.
  intros A data c1 c2 p t O F1 F2 SM A1 A2 AD H. unfold setData in H. cbn [map app fold_res] in H.
  rewrite (heading_step_common _ _ _ _ _ _ F1) in H. cbn [bind app] in H.
  rewrite (heading_step_common _ _ _ _ _ _ F2) in H. cbn [bind app] in H. rewrite (heading_step_some _ _ _ _ _ _ O) in H. cbn [bind app] in H.
  set (l1 := common_labels (option_map snd c1)) in *. set (l2 := common_labels (option_map snd c2)) in *.
  set (keep := keep_column data p) in *. destruct O as (OL & OU & OD & OR).
  apply bind_ok in H. destruct H as (offset & Eo & H). apply bind_ok in H. destruct H as (rows & Er & H). apply bind_ok in H. destruct H as (rows' & Ef & H).
  injection H as <-. cbn [t_labels t_units t_data].
  set (labels := (map short l1 ++ map short l2) ++ map short (select keep 0 (d_labels data))) in *.
  set (Q := fun j c => forall l x, nth_error labels j = Some l -> mentions l (tx "COS") -> number c = Some x -> A x).
  assert (Z1 : forall x, In x l1 -> mentions x (tx "COS") -> A (S754_zero false)).
  { intros x I M. unfold l1 in I. destruct (option_map snd c1) as [d|]; [|destruct I]. apply In_nth_error in I. destruct I as [j J]. exact (proj1 (A1 d eq_refl j x J M)). }
  assert (Z2 : forall x, In x l2 -> mentions x (tx "COS") -> A (S754_zero false)).
  { intros x I M. unfold l2 in I. destruct (option_map snd c2) as [d|]; [|destruct I]. apply In_nth_error in I. destruct I as [j J]. exact (proj1 (A2 d eq_refl j x J M)). }
  assert (R0 : Forall (at_each Q) rows).
  { apply Forall_forall. intros r I. apply In_nth_error in I. destruct I as [q E]. destruct (map_res_at _ _ _ _ _ _ _ Er E) as (i & Ni & X).
    assert (Ii : In i (seq 0 (Z.to_nat (d_numrows data)))) by (eapply nth_error_In; exact Ni). apply in_seq in Ii.
    replace (0 <? d_numrows data)%Z with true in Eo by (symmetry; apply Z.ltb_lt; lia).
    assert (offset = length l1 + length l2).
    { cbn [idx nth_error of_option] in Eo. injection Eo as <-. rewrite !app_length, !map_length. cbn [length]. lia. }
    subst offset. apply bind_ok in X. destruct X as (cells & Ec & X). apply idx_ok in Ec.
    assert (IC : In cells (d_data data)) by (eapply nth_error_In; exact Ec). pose proof (OR _ IC) as LC.
    rewrite (data_row_spec keep) in X.
    - injection X as <-. intros j c0 N l x Nl M Nx.
      destruct (Nat.lt_ge_cases j (length l1 + length l2)) as [J|J].
      + rewrite nth_error_app1 in N by (rewrite repeat_length; exact J). apply nth_error_In, repeat_spec in N. subst c0.
        cbn in Nx. injection Nx as <-. unfold labels in Nl. rewrite nth_error_app1 in Nl by (rewrite app_length, !map_length; exact J).
        apply nth_error_In in Nl. rewrite <- map_app in Nl. apply in_map_iff in Nl. destruct Nl as (y & <- & Y). apply infix_short in M.
        apply in_app_or in Y. destruct Y as [Y|Y]; [exact (Z1 y Y M)|exact (Z2 y Y M)].
      + rewrite nth_error_app2 in N by (rewrite repeat_length; exact J). rewrite repeat_length, nth_error_map in N.
        unfold labels in Nl. rewrite nth_error_app2 in Nl by (rewrite app_length, !map_length; exact J). rewrite app_length, !map_length, nth_error_map in Nl.
        destruct (nth_error (select keep 0 cells) (j - (length l1 + length l2))) as [v|] eqn:V; [|discriminate N].
        destruct (select_nth _ _ keep cells (d_labels data) 0 _ v ltac:(congruence) V) as (k & K & E'). rewrite E' in Nl.
        destruct (nth_error (d_labels data) k) as [y|] eqn:Y; [|discriminate Nl]. cbn in N, Nl. injection N as <-. injection Nl as <-.
        destruct v as [v|]; cbn in Nx; [|discriminate Nx]. injection Nx as ->. apply infix_short in M.
        exact (proj2 (AD k y Y M) cells x IC K).
    - intros j Hj. rewrite nth_error_app2 by (rewrite app_length, !repeat_length; lia).
      rewrite app_length, !repeat_length. replace (length l1 + length l2 + j - (length l1 + length l2)) with j by lia.
      apply nth_error_map_seq. lia. }
  assert (W1 : forall d, option_map snd c1 = Some d -> forall row j v, In row (d_data d) -> nth_error row j = Some v -> Q j (as_cell v)).
  { intros d E row j v I N l x Nl M Nx. assert (OK := F1 d E). destruct OK as ((DL & _ & _ & DR) & _).
    assert (J : j < length l1). { unfold l1. rewrite E. cbn. rewrite DL, <- (DR row I). apply nth_error_Some. congruence. }
    unfold labels in Nl. rewrite <- app_assoc, nth_error_app1 in Nl by (rewrite map_length; exact J). rewrite nth_error_map in Nl.
    destruct (nth_error l1 j) as [y|] eqn:Y; [|discriminate Nl]. cbn in Nl. injection Nl as <-. unfold l1 in Y. rewrite E in Y. cbn in Y.
    destruct v as [v|]; cbn in Nx; [|discriminate Nx]. injection Nx as ->. apply infix_short in M. exact (proj2 (A1 d E j y Y M) row x I N). }
  assert (W2 : forall d, option_map snd c2 = Some d -> forall row j v, In row (d_data d) -> nth_error row j = Some v -> Q (length l1 + j) (as_cell v)).
  { intros d E row j v I N l x Nl M Nx. assert (OK := F2 d E). destruct OK as ((DL & _ & _ & DR) & _).
    assert (J : j < length l2). { unfold l2. rewrite E. cbn. rewrite DL, <- (DR row I). apply nth_error_Some. congruence. }
    unfold labels in Nl. rewrite <- app_assoc, nth_error_app2 in Nl by (rewrite map_length; lia). rewrite map_length in Nl.
    replace (length l1 + j - length l1) with j in Nl by lia. rewrite nth_error_app1, nth_error_map in Nl by (rewrite map_length; exact J).
    destruct (nth_error l2 j) as [y|] eqn:Y; [|discriminate Nl]. cbn in Nl. injection Nl as <-. unfold l2 in Y. rewrite E in Y. cbn in Y.
    destruct v as [v|]; cbn in Nx; [|discriminate Nx]. injection Nx as ->. apply infix_short in M. exact (proj2 (A2 d E j y Y M) row x I N). }
  rewrite app_length, !map_length in Ef. cbn [fold_res] in Ef. apply bind_ok in Ef. destruct Ef as (r1 & E1 & Ef). apply bind_ok in Ef. destruct Ef as (r2 & E2 & Ef).
  injection Ef as <-. assert (R2 : Forall (at_each Q) r2).
  { apply (add_each Q _ _ _ _ _ E2); [|apply (add_each Q _ _ _ _ _ E1); [|exact R0]].
    - intros id d o row j v -> No I N. cbn [common_index] in No. destruct c1 as [[id1 d1]|].
      + destruct (Nat.eqb_spec id id1) as [->|_].
        * assert (d1 = d) by (eapply SM; reflexivity). subst d1. cbn in No. injection No as <-. exact (W1 d eq_refl row j v I N).
        * rewrite Nat.eqb_refl in No. cbn [nth_error] in No. injection No as <-. exact (W2 d eq_refl row j v I N).
      + rewrite Nat.eqb_refl in No. cbn [nth_error] in No. injection No as <-. exact (W2 d eq_refl row j v I N).
    - intros id d o row j v -> No I N. cbn [common_index] in No. rewrite Nat.eqb_refl in No. cbn in No. injection No as <-. exact (W1 d eq_refl row j v I N). }
  intros j l row c0 x Nl M I N Nx. rewrite Forall_forall in R2. exact (R2 row I j c0 N l x Nl M Nx).
Qed.

Definition ready (d : dataset) : Prop := DataSets.table_ok (ds_table d) /\ cosines_defined acos (ds_table d) /\ ~ barns_root_energy (ds_table d).

Lemma sub_data_plain : forall s k d, plain_sub acos s -> sub_data s k = Some d -> plain_section acos (lit k) d.
Proof.
  intros s k d P H. unfold sub_data, sub_section in H. apply P. destruct (dget str_eqb (lit k) (s_dict s)) as [[b|x]|]; try discriminate. congruence.
Qed.
Lemma factory_ready : forall nm q meta s1 s data r mon p d id1 id2, (id1 = id2 -> s1 = s) -> plain_sub acos s1 -> plain_sub acos s -> plain_section acos (lit "DATA") data ->
  X4DataSetFactory nm q meta [common_of id1 s1; common_of id2 s] r mon data p = Ok d -> ready d.
Proof.
  intros nm q meta s1 s data r mon p d id1 id2 SID P1 P2 PD E. unfold X4DataSetFactory in E. apply bind_ok in E. destruct E as (q' & _ & E).
  unfold make_dataset in E. apply bind_ok in E. destruct E as (t & T & E). injection E as <-. unfold ready. cbn [ds_table].
  assert (C : forall id x, option_map snd (common_of id x) = sub_data x "COMMON").
  { intros id x. unfold common_of. destruct (sub_data x "COMMON"); reflexivity. }
  assert (F : forall id x, plain_sub acos x -> full_common p (option_map snd (common_of id x))).
  { intros id x Px dd Ed. rewrite C in Ed. pose proof (sub_data_plain _ _ _ Px Ed) as (O & _ & _ & N). split; [exact O|].
    apply no_pointers_own. now apply N. }
  destruct (table_shape data _ _ p t (proj1 PD) (F id1 s1 P1) (F id2 s P2) T) as (TO & LA & UN).
  rewrite !C in LA, UN.
  assert (U0 : forall x y, plain_sub acos x -> In y (common_units (sub_data x "COMMON")) -> ~ mentions y (tx "B*RT-EV")).
  { intros x y Px I. destruct (sub_data x "COMMON") as [dd|] eqn:Q; [|destruct I]. now apply (sub_data_plain _ _ _ Px Q). }
  split; [exact TO|]. split.
  - assert (AN : forall id x, plain_sub acos x -> forall dd, option_map snd (common_of id x) = Some dd -> angled (has_angle acos) dd).
    { intros id x Px dd Ed. rewrite C in Ed. exact (proj1 (proj2 (sub_data_plain _ _ _ Px Ed))). }
    assert (SM : forall i d d', common_of id1 s1 = Some (i, d) -> common_of id2 s = Some (i, d') -> d = d').
    { intros i d d' X Y. assert (id1 = id2).
      { unfold common_of in X, Y. destruct (sub_data s1 "COMMON"); [|discriminate X]. destruct (sub_data s "COMMON"); [|discriminate Y]. cbn in X, Y. congruence. }
      rewrite (SID H) in X. unfold common_of in X, Y. destruct (sub_data s "COMMON"); [|discriminate X]. cbn in X, Y. congruence. }
    intros j l row c0 x. exact (table_angled (has_angle acos) data _ _ p t (proj1 PD) (F id1 s1 P1) (F id2 s P2) SM (AN id1 s1 P1) (AN id2 s P2) (proj1 (proj2 PD)) T j l row c0 x).
  - intros (j & _ & U). destruct (U _ eq_refl) as (u & N & I). apply nth_error_In in N. destruct (UN u N) as (x & -> & J).
    assert (M : mentions x (tx "B*RT-EV")).
    { apply infix_short. destruct I as [I|[I|[]]]; rewrite <- I; [exists [], []|exists ["M"%char], []]; reflexivity. }
    revert M. apply in_app_or in J. destruct J as [J|J]; [exact (U0 _ _ P1 J)|]. apply in_app_or in J. destruct J as [J|J]; [exact (U0 _ _ P2 J)|].
    now apply (proj1 (proj2 (proj2 PD))).
Qed.

Lemma ready_simple : forall mk d, ready d -> ds_simplified d = false -> forall x, simple acos mk d = Raise x -> recorded_simplifying x.
Proof.
  intros mk d (P & CD & B) S x H. unfold simple in H.
  destruct (wanted_columns (ds_class_of d)) eqn:W.
  - unfold getSimplified in H. destruct (ds_class_of d); try discriminate W.
    + cbn in H. unfold X4DataSet_getSimplified in H. rewrite S in H. discriminate H.
    + cbn in H. injection H as <-. unfold recorded_simplifying. cbn. auto.
    + cbn in H. discriminate H.
    + cbn in H. injection H as <-. unfold recorded_simplifying. cbn. auto.
  - rewrite (simplified_read acos mk false d store0 P CD B S) in H by (rewrite W; discriminate). cbv zeta in H.
    destruct (negb _); [|discriminate H]. injection H as <-. unfold recorded_simplifying. cbn. auto.
Qed.

Lemma simplify_fold_total : forall mk l ds errs s, Forall (fun kd => forall x, simple acos mk (snd kd) = Raise x -> recorded_simplifying x) l ->
  exists st, fold_res (simplify_step acos mk) l (ds, errs, s) = Ok st.
Proof.
  intros mk l. induction l as [|[k d] l IH]; intros ds errs s F; [eexists; reflexivity|]. inversion F as [|? ? F1 F2]; subst. cbn [snd] in F1.
  cbn [fold_res]. unfold simplify_step at 1. destruct (Columns.run (getSimplified acos mk false d) s) as [r s2] eqn:R.
  assert (Er : r = simple acos mk d). { unfold simple. rewrite run_getSimplified, <- (run_getSimplified acos mk false d s). now rewrite R. }
  destruct r as [d'|x]; cbn [bind]; [now apply IH|]. symmetry in Er. apply F1, caught_iff in Er. rewrite Er. cbn [bind]. now apply IH.
Qed.

Context (nm : names) (NC : has_names (c_compounds c) (nm_compounds nm)) (FQ : rows_filled (nm_quantities nm)) (FM : rows_filled (nm_modifiers nm)).

Lemma entry_subs : forall raw n k s, X4Entry e raw = Ok n -> In (k, s) (n_subs n) -> exists text, In text raw /\ X4SubEntry e text = Ok s.
Proof.
  intros raw n k s E I. pose proof (entry_good _ _ _ E) as [N K _]. apply EntryLemmas.entry_ok in E. destruct E as (_ & _ & F).
  pose proof (StrLemmas.In_dget _ tag_eqb_eq _ _ _ N I) as G. apply (fold_entry_spec _ _ _ _ F) in G.
  destruct G as [(x & L & X)|[_ G]]; [|discriminate G]. exists x. split; [|exact X]. now apply last_in in L.
Qed.

Lemma sets_ready : forall acc raw n errs ds errs0 n', well_entry c acc raw -> Forall (simple_subentry acos) raw ->
  X4Entry e raw = Ok n -> getDataSets nm n errs = Ok (ds, errs0, n') -> forall kd, In kd ds -> ready (snd kd) /\ ds_simplified (snd kd) = false.
Proof.
  intros acc raw n errs ds errs0 n' W SS E G.
  assert (PS : forall k x, In (k, x) (n_subs n) -> plain_sub acos x).
  { intros k x I. destruct (entry_subs _ _ _ _ E I) as (text & It & X). apply (sub_plain text x); [|rewrite Forall_forall in SS; now apply SS|exact X].
    pose proof (well_subs _ _ _ W) as WS. rewrite Forall_forall in WS. now apply WS. }
  assert (N : NoDup (dkeys ds)).
  { pose proof G as G0. apply (getDataSets_iff _ _ _ _ _ _ (entry_good _ _ _ E)) in G0. destruct G0 as (? & ? & ? & _ & _ & _ & _ & _ & -> & _).
    apply dkeys_put. constructor. }
  intros [[[ac sub] p] d] I. cbn [snd]. pose proof (StrLemmas.In_dget _ key_eqb_eq _ _ _ N I) as GD.
  destruct (dataSets_values e raw nm n errs ds errs0 n' E G) as (s1 & I1 & V & NV).
  assert (X : exists sb, In (sub, sb) (n_subs n) /\ ac = n_accnum n).
  { destruct (dget tag_eqb sub (n_subs n)) as [sb|] eqn:Q.
    - exists sb. apply (StrLemmas.dget_In _ tag_eqb_eq) in Q. split; [exact Q|].
      destruct (str_eqb ac (n_accnum n)) eqn:B; [now apply str_eqb_eq|]. destruct (NV ac sub p) as [X _]; [|congruence].
      left. intro. subst ac. now rewrite str_eqb_refl in B.
    - destruct (NV ac sub p) as [X _]; [|congruence]. right. now apply (dget_None _ tag_eqb_eq). }
  destruct X as (sb & Ib & ->).
  assert (SID : 0 = common_id n sb -> s1 = sb).
  { pose proof (entry_good _ _ _ E) as [NS KS _]. unfold common_id. destruct (tag_eqb (s_accnum sb) _) eqn:Q; [|discriminate]. intros _.
    apply tag_eqb_eq in Q. assert (sub = one n) by (transitivity (s_accnum sb); [pose proof (KS _ _ Ib); congruence|exact Q]). subst sub.
    pose proof (StrLemmas.In_dget _ tag_eqb_eq _ _ _ NS Ib). pose proof (StrLemmas.In_dget _ tag_eqb_eq _ _ _ NS I1). congruence. }
  destruct (V sub sb p Ib) as [V1 _]. rewrite GD in V1.
  assert (T : forall from, tried nm n s1 sb from p = Some (Ok d) -> ready d /\ ds_simplified d = false).
  { intros from H. unfold tried in H. destruct (sub_data sb "DATA") as [data|] eqn:DT; [|discriminate].
    destruct (dget Ascii.eqb p (reactions_of from)); [|discriminate]. injection H as H. split.
    - apply factory_ready in H; [exact H|exact SID|exact (PS _ _ I1)|exact (PS _ _ Ib)|]. exact (sub_data_plain _ _ _ (PS _ _ Ib) DT).
    - unfold X4DataSetFactory in H. apply bind_ok in H. destruct H as (q & _ & H). unfold make_dataset in H. apply bind_ok in H.
      destruct H as (t & _ & H). now injection H as <-. }
  cbn [last_some] in V1. destruct (tried nm n s1 sb sb p) as [[d2|]|] eqn:T2; cbn [ok_of] in V1.
  - apply (T sb). congruence.
  - destruct (tried nm n s1 sb s1 p) as [[d1|]|] eqn:T1; cbn [ok_of] in V1; try discriminate. apply (T s1). congruence.
  - destruct (tried nm n s1 sb s1 p) as [[d1|]|] eqn:T1; cbn [ok_of] in V1; try discriminate. apply (T s1). congruence.
Qed.

Lemma simplified_total : forall acc raw mk errs s, well_entry c acc raw -> Forall (simple_subentry acos) raw ->
  exists n ds errs' n' s', X4Entry e raw = Ok n /\ n_accnum n = acc /\ getSimplifiedDataSets nm acos mk n errs s = Ok (ds, errs', n', s').
Proof.
  intros acc raw mk errs s W SS. destruct (data_sets_total c e D nm NC FQ FM acc raw errs W) as (n & ds & errs0 & n' & E & A & G).
  exists n. unfold getSimplifiedDataSets. rewrite G. cbn [bind].
  assert (R : Forall (fun kd => forall x, simple acos mk (snd kd) = Raise x -> recorded_simplifying x) ds).
  { apply Forall_forall. intros kd I. destruct (sets_ready acc raw n errs ds errs0 n' W SS E G kd I) as [R S]. now apply ready_simple. }
  destruct (simplify_fold_total mk ds ds errs0 s R) as ([[ds' errs'] s'] & ->). cbn [bind]. exists ds', errs', n', s'. auto.
Qed.
End Entries.

Lemma well_cross : forall c e nm acos acc raw num text text1 bib data r line h1 h2 hd r1 r2 rows a f b g w errs s,
  well_dictionaries c e -> has_names (c_compounds c) (nm_compounds nm) -> rows_filled (nm_quantities nm) -> rows_filled (nm_modifiers nm) ->
  well_entry c acc raw -> Forall (simple_subentry acos) raw ->
  last_such (numbered num) raw text -> last_such (numbered (acc ++ tx "001")) raw text1 -> num <> acc ++ tx "001" ->
  has_section "BIB" text bib -> states_reaction bib r line -> good_reaction (c_particles c) r -> balances r ->
  kind (map PTok (quantities r)) CrossSection ->
  common_table text1 h1 r1 -> common_table text h2 r2 -> has_section "DATA" text data -> written_table data hd rows ->
  cross_section_columns (h1 ++ h2 ++ hd) a f b g w ->
  (exists row, In row rows /\ at_column (r1 ++ r2 ++ row) a <> None) ->
  (exists row, In row rows /\ at_column (r1 ++ r2 ++ row) b <> None) ->
  exists n ds errs' n' s' d rx R, X4Entry e raw = Ok n /\ getSimplifiedDataSets nm acos false n errs s = Ok (ds, errs', n', s') /\
    dget key_eqb (acc, Some num, " "%char) ds = Some d /\ ds_reaction d = Some (MRxn rx, PTok line) /\ tells r rx R /\ ds_class_of d = CrossSection /\ ds_simplified d = true /\
    ds_table d = simplified_table (map (fun row => r1 ++ r2 ++ row) rows) a f b g w.
Proof.
  intros c e nm acos acc raw num text text1 bib data r line h1 h2 hd r1 r2 rows a f b g w errs s D NC Q M W S L L1 N HB HS HG HBal HK C1 C2 HD WT CC X1 X2.
  destruct (simplified_total c e D acos nm NC Q M acc raw false errs s W S) as (n & ds & errs' & n' & s' & E & A & G).
  assert (T : forall num text, last_such (numbered num) raw text -> sections_named text).
  { intros k t I. apply last_in in I. destruct I as [I _]. pose proof (well_subs _ _ _ W) as F. rewrite Forall_forall in F. now apply (well_named c), F. }
  destruct D as [D1 D2 D3 _ _ _]. subst acc.
  assert (X : exists d rx R, dget key_eqb (n_accnum n, Some num, " "%char) ds = Some d /\
    ds_reaction d = Some (MRxn rx, PTok line) /\ tells r rx R /\ ds_class_of d = CrossSection /\ ds_simplified d = true /\
    ds_table d = simplified_table (map (fun row => r1 ++ r2 ++ row) rows) a f b g w).
  { eapply doc_cross; try eassumption; [exact (T _ _ L)|exact (T _ _ L1)|reflexivity]. }
  destruct X as (d & rx & R & X). exists n, ds, errs', n', s', d, rx, R. auto.
Qed.
