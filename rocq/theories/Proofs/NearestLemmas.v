(** What the reader of numbers returns, and what is written of it. *)
From Coq Require Import String List Ascii NArith ZArith Bool Arith Reals Lia Lra Psatz.
From Coq Require Import Floats.SpecFloat.
From Flocq Require Import Core.Core IEEE754.BinarySingleNaN.
From Verif.Model Require Import Py PyFloat Utilities Section Columns Csv Repr.
From Verif.Spec Require Import Text Doubles CsvText.
From Verif.Proofs Require Import StrLemmas NumLemmas IntLemmas DataLemmas CsvLemmas RoundLemmas ReprLemmas.
Import ListNotations.
Local Open Scope list_scope.
Local Open Scope nat_scope.

Lemma dec_double : forall d, double (float_of_dec d).
Proof.
  intros d. destruct (N.eq_dec (dman d) 0) as [Z|Z].
  - apply dec_zero in Z. destruct Z as [_ ->]. exact I.
  - apply double_valid. apply dec_rounded, Z.
Qed.

Lemma read_double : forall s x, float_of_str s = Some x -> double x.
Proof.
  intros s x H. unfold float_of_str in H. destruct (drop_underscores false (num_strip s)) as [t|]; [|discriminate].
  destruct (take_sign t) as [neg u].
  destruct (str_eqb (lower u) (lit "inf") || str_eqb (lower u) (lit "infinity")); [injection H as <-; exact I|].
  destruct (str_eqb (lower u) (lit "nan")); [injection H as <-; exact I|].
  destruct (scan_udec neg u); [|discriminate]. injection H as <-. apply dec_double.
Qed.
Lemma parse_double : forall s x, parseFORTRANNumber s = Ok (Some x) -> double x.
Proof.
  intros s x H. unfold parseFORTRANNumber in H. destruct (str_eqb (strip s) []); [discriminate|].
  destruct (float_of_str s) eqn:E; [injection H as <-; exact (read_double _ _ E)|].
  destruct (float_of_str (fortran_repair (strip s))) eqn:E2; [|discriminate].
  injection H as <-; exact (read_double _ _ E2).
Qed.

Lemma dec_sign : forall d, dman d <> 0%N -> (dneg d = true /\ (dec_value d < 0)%R) \/ (dneg d = false /\ (0 < dec_value d)%R).
Proof.
  intros [s m e] H. unfold dec_value. cbn [dneg dman dexp] in *. pose proof (p10_pos e).
  assert (0 < IZR (Z.of_N m))%R by (apply IZR_lt; lia). destruct s; [left|right]; (split; [reflexivity|]); nra.
Qed.
Lemma dec_nonzero : forall d, dec_value d <> 0%R -> dman d <> 0%N.
Proof. intros d H Z. apply dec_zero in Z. destruct Z. contradiction. Qed.


Definition reads_as (r : R) (text : str) : Prop :=
  exists x, parseFORTRANNumber text = Ok (Some x) /\ double x /\
    ((Rabs r < overflow)%R -> nearest r x) /\
    ((overflow <= r)%R -> x = S754_infinity false) /\
    ((r <= - overflow)%R -> x = S754_infinity true).

Lemma overflow_positive : (0 < overflow)%R.
Proof.
  unfold overflow. rewrite !powerRZ_bpow. pose proof (Raux.bpow_lt Zaux.radix2 970 1024 eq_refl). lra.
Qed.

Lemma dec_reads_as : forall text d, parseFORTRANNumber text = Ok (Some (float_of_dec d)) -> reads_as (dec_value d) text.
Proof.
  intros text d H. exists (float_of_dec d). split; [exact H|]. split; [apply dec_double|].
  destruct (read_nearest d) as [A B]. split; [intros L; apply A, L|]. pose proof overflow_positive as P.
  split; intros L.
  - assert (N : dman d <> 0%N) by (apply dec_nonzero; lra).
    destruct (dec_sign d N) as [[_ M]|[S M]]; [lra|]. rewrite B, S; [reflexivity|]. rewrite Rabs_pos_eq; lra.
  - assert (N : dman d <> 0%N) by (apply dec_nonzero; lra).
    destruct (dec_sign d N) as [[S M]|[_ M]]; [|lra]. rewrite B, S; [reflexivity|]. rewrite Rabs_left; lra.
Qed.

Lemma denotes_dec : forall text r, denotes text r ->
  exists d, dec_value d = r /\ parseFORTRANNumber text = Ok (Some (float_of_dec d)).
Proof.
  intros text r [sg ip fr G|sg ip fr k minus ds G D N|sg ip fr k minus ds G D L].
  - exists (mkDec (is_minus sg) (value10 (ip ++ frac_digits fr)) (0 - Z.of_nat (length (frac_digits fr)))).
    split; [reflexivity|]. apply parse_of_float.
    assert (P : Forall plain_char (mantissa_text sg ip fr)).
    { apply mantissa_forall; [exact G|right; cbn; tauto..|]. intros d H. left. apply digit_is_dig, H. }
    rewrite (float_of_mantissa sg ip fr []); [reflexivity|exact G| | |discriminate].
    + rewrite app_nil_r. apply plain_strip, P.
    + rewrite app_nil_r. apply plain_not_underscore, P.
  - exists (mkDec (is_minus sg) (value10 (ip ++ frac_digits fr)) (exp_value minus ds - Z.of_nat (length (frac_digits fr)))).
    split; [reflexivity|]. apply (gapped_exponent sg ip fr k minus ds G D N).
  - exists (mkDec (is_minus sg) (value10 (ip ++ frac_digits fr)) (exp_value minus ds - Z.of_nat (length (frac_digits fr)))).
    split; [reflexivity|]. apply (missing_exponent sg ip fr k minus ds G D L).
Qed.

Lemma denotes_reads : forall text r, denotes text r -> reads_as r text.
Proof. intros text r H. apply denotes_dec in H. destruct H as (d & <- & H). apply dec_reads_as, H. Qed.

Lemma denotes_same : forall text text' r, denotes text r -> denotes text' r -> r <> 0%R ->
  parseFORTRANNumber text = parseFORTRANNumber text'.
Proof.
  intros text text' r H H' N. apply denotes_dec in H. apply denotes_dec in H'.
  destruct H as (d & V & ->), H' as (d' & V' & ->). do 2 f_equal.
  assert (D : dman d <> 0%N) by (apply dec_nonzero; congruence).
  assert (D' : dman d' <> 0%N) by (apply dec_nonzero; congruence).
  apply same_value; [|congruence|exact D|exact D'].
  pose proof (dec_sign d D). pose proof (dec_sign d' D'). rewrite V in *. rewrite V' in *.
  destruct H as [[-> ?]|[-> ?]], H0 as [[-> ?]|[-> ?]]; try reflexivity; lra.
Qed.

(** ** Characters of repr *)

Lemma plain_number : forall s, Forall plain_char s -> Forall number_char s.
Proof.
  intros s. apply Forall_impl. intros c [H|H]; [apply dig_number, H|].
  unfold number_char. cbn in H |- *. tauto.
Qed.

Lemma plain_app : forall a b, Forall plain_char a -> Forall plain_char b -> Forall plain_char (a ++ b).
Proof. intros. apply Forall_app. split; assumption. Qed.
Lemma plain_zeros : forall n, Forall plain_char (repeat "0"%char n).
Proof. intros n. apply Forall_forall. intros x H. apply repeat_spec in H. subst. left. reflexivity. Qed.
Lemma plain_firstn : forall n s, Forall plain_char s -> Forall plain_char (firstn n s).
Proof. intros n s H. rewrite <- (firstn_skipn n s) in H. apply Forall_app in H. apply H. Qed.
Lemma plain_skipn : forall n s, Forall plain_char s -> Forall plain_char (skipn n s).
Proof. intros n s H. rewrite <- (firstn_skipn n s) in H. apply Forall_app in H. apply H. Qed.
Ltac plain_c := first [left; reflexivity | right; cbn; tauto].

Lemma dec_text_plain : forall d, Forall plain_char (dec_text d).
Proof.
  intros d. unfold dec_text. destruct (n_to_str_spec (dman d)) as (ds & E & D & N & V). rewrite E.
  destruct (strip_zeros_digits ds D) as (l & z & El & S). rewrite S.
  assert (Dl : is_digits l) by (rewrite El in D; apply Forall_app in D; apply D). apply plain_digits in Dl.
  set (s := digits_text l) in *. apply plain_app; [destruct (dneg d); repeat constructor; plain_c|].
  destruct (_ && _).
  - unfold fixed_text. destruct (0 <=? _)%Z; [destruct (_ <=? _)|].
    + apply plain_app; [exact Dl|]. apply plain_app; [apply plain_zeros|repeat constructor; plain_c].
    + apply plain_app; [apply plain_firstn, Dl|]. constructor; [plain_c|apply plain_skipn, Dl].
    + apply plain_app; [repeat constructor; plain_c|]. apply plain_app; [apply plain_zeros|exact Dl].
  - unfold exponent_text. apply plain_app; [apply plain_firstn, Dl|]. apply plain_app.
    + pose proof (plain_skipn 1 s Dl). destruct (skipn 1 s); [constructor|]. constructor; [plain_c|assumption].
    + constructor; [plain_c|]. constructor; [destruct (_ <? _)%Z; plain_c|].
      destruct (zfill_text (Z.to_N (Z.abs (Z.of_nat (length (digits_text ds)) - 1 + dexp d)))) as (ed & -> & De & _).
      apply plain_digits, De.
Qed.

Lemma repr_number : forall x, Forall number_char (repr_float x).
Proof.
  intros [s|s| |s m e]; cbn [repr_float].
  - destruct s; repeat (apply Forall_cons; [repeat first [left; reflexivity|right]|]); apply Forall_nil.
  - destruct s; repeat (apply Forall_cons; [repeat first [left; reflexivity|right]|]); apply Forall_nil.
  - repeat (apply Forall_cons; [repeat first [left; reflexivity|right]|]); apply Forall_nil.
  - destruct (shortest s m e); [apply plain_number, dec_text_plain|constructor].
Qed.

(** ** csv files *)

Lemma dataset_csv_doubles : forall t,
  Forall no_return (t_labels t) -> (forall u, In (Some u) (t_units t) -> no_return u) ->
  (forall row x, In row (t_data t) -> In (VFloat x) row -> double x) ->
  exists rows, csv_read (dataset_csv repr_float t)
    = Some (t_labels t :: map (fun u => match u with Some u => u | None => [] end) (t_units t) :: rows) /\
    Forall2 (Forall2 (fun c text => match c with VNone => text = [] | VFloat x => float_of_str text = Some x | VZero => float_of_str text = Some fzero end))
            (t_data t) rows.
Proof.
  intros t L U D. apply dataset_csv_numbers; [apply repr_number|exact L|exact U|].
  intros row x R X. apply repr_reads, (D row x R X).
Qed.

Lemma section_doubles : forall tag lines d, X4DataSection tag lines = Ok d ->
  Forall (Forall (fun c => match c with Some x => double x | None => True end)) (d_data d).
Proof.
  intros tag lines d H. apply data_rows in H. destruct H as (_ & _ & _ & _ & H).
  induction H as [|raw vals rs vs [_ P] F IH]; constructor; [|exact IH]. clear F IH.
  induction P as [|t v ts ws Q F IH]; constructor; [|exact IH].
  destruct v as [x|]; [|exact I]. exact (parse_double _ _ Q).
Qed.

Lemma section_csv_doubles : forall tag lines d, X4DataSection tag lines = Ok d ->
  Forall no_return (d_labels d) -> Forall no_return (d_units d) ->
  exists rows, csv_read (section_csv repr_float d) = Some (d_labels d :: d_units d :: rows) /\
    Forall2 (Forall2 (fun c text => match c with None => text = [] | Some x => float_of_str text = Some x end)) (d_data d) rows.
Proof.
  intros tag lines d H L U. eexists. split; [apply section_csv_reads; [apply repr_number|exact L|exact U]|].
  apply section_doubles in H. induction H as [|r rs R F IH]; cbn [map]; constructor; [|exact IH].
  clear F IH. induction R as [|c cs C F IH]; cbn [map]; constructor; [|exact IH].
  destruct c as [x|]; [|reflexivity]. apply repr_reads, C.
Qed.
