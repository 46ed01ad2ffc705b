(** Numbers between -1 and 1, and their halves, stay so in the arithmetic of doubles. *)
From Coq Require Import String List Ascii NArith ZArith Bool Lia Reals Lra.
From Coq Require Import Floats.SpecFloat.
From Flocq Require Import Core BinarySingleNaN.
From Verif.Model Require Import Py PyFloat Utilities Columns.
From Verif.Spec Require Import Doubles DataSets Document.
From Verif.Proofs Require Import UnitLemmas RoundLemmas ArithLemmas NearestLemmas TextTableLemmas.
Local Open Scope R_scope.

Lemma leb_value : forall x y, double x -> finite x -> double y -> finite y -> SFleb x y = true <-> float_value x <= float_value y.
Proof.
  intros x y Dx Fx Dy Fy. destruct (to_B x Dx) as (a & ->). destruct (to_B y Dy) as (b & ->). apply B_finite in Fx, Fy.
  change (SFleb (B2SF a) (B2SF b)) with (Bleb a b). rewrite (Bleb_correct _ _ a b Fx Fy), !B_value.
  destruct (Rle_bool_spec (B2R a) (B2R b)); split; intro; try lra; try discriminate; reflexivity.
Qed.
Lemma one_double : double (fl 1 0) /\ finite (fl 1 0) /\ float_value (fl 1 0) = 1.
Proof.
  assert (E : fl 1 0 = S754_finite false 4503599627370496 (-52)) by (vm_compute; reflexivity). rewrite E.
  split; [cbn; lia|]. split; [exact I|]. cbn [float_value]. change (powerRZ 2 (-52)) with (/ 2 ^ 52). lra.
Qed.
Lemma minus_double : double (SFopp (fl 1 0)) /\ finite (SFopp (fl 1 0)) /\ float_value (SFopp (fl 1 0)) = -1.
Proof.
  assert (E : SFopp (fl 1 0) = S754_finite true 4503599627370496 (-52)) by (vm_compute; reflexivity). rewrite E.
  split; [cbn; lia|]. split; [exact I|]. cbn [float_value]. change (powerRZ 2 (-52)) with (/ 2 ^ 52). lra.
Qed.
Lemma half_double : double (fl 5 (-1)) /\ finite (fl 5 (-1)) /\ float_value (fl 5 (-1)) = 1 / 2.
Proof.
  assert (E : fl 5 (-1) = S754_finite false 4503599627370496 (-53)) by (vm_compute; reflexivity). rewrite E.
  split; [cbn; lia|]. split; [exact I|]. cbn [float_value]. change (powerRZ 2 (-53)) with (/ 2 ^ 53). lra.
Qed.

Lemma cosine_finite : forall x, cosine x -> finite x.
Proof. intros [s|[]| |s m e] [A B]; cbn; try exact I; vm_compute in A, B; discriminate. Qed.
Lemma cosine_value : forall x, double x -> finite x -> cosine x <-> -1 <= float_value x <= 1.
Proof.
  intros x D F. destruct one_double as (D1 & F1 & V1). destruct minus_double as (D2 & F2 & V2). unfold cosine.
  rewrite (leb_value _ x D2 F2 D F), (leb_value x _ D F D1 F1), V1, V2. tauto.
Qed.
Lemma cosine_plus : forall x, cosine x -> cosine (fadd x (S754_zero false)).
Proof.
  intros x C. destruct (SFeqb x (S754_zero false)) eqn:Z.
  - destruct x as [[]|[]| |[] m e]; try discriminate Z; vm_compute; auto.
  - change (S754_zero false) with fzero. rewrite fadd_zero; [exact C|]. intros ->. discriminate Z.
Qed.

Lemma cosine_angle : forall acos x, (forall y, cosine y -> acos y <> None) -> double x -> cosine x -> has_angle acos x.
Proof.
  intros acos x A D C. pose proof (cosine_finite x C) as F. split; apply A, cosine_plus.
  - change (fl 1 0) with f1. rewrite fmul_one; [exact C|now apply double_valid].
  - destruct half_double as (Dh & Fh & Vh). pose proof (proj1 (cosine_value x D F) C) as V.
    assert (O : 2 < overflow) by (unfold overflow; change 1024%Z with (1 + 1023)%Z; rewrite powerRZ_add by lra;
      assert (powerRZ 2 970 <= powerRZ 2 1023) by (rewrite !powerRZ_bpow; apply bpow_le; lia);
      assert (powerRZ 2 2 <= powerRZ 2 1023) by (rewrite !powerRZ_bpow; apply bpow_le; lia); simpl (powerRZ 2 1); simpl (powerRZ 2 2) in *; lra).
    assert (R : rounds (float_value x * float_value (fl 5 (-1))) (fmul x (fl 5 (-1)))).
    { apply fmul_rounds; try assumption. rewrite Vh. apply Rabs_def1; lra. }
    apply rounds_nearest in R. destruct R as (DZ & FZ & N & _). apply (cosine_value _ DZ FZ).
    specialize (N (S754_zero false) I I). cbn [float_value] in N. rewrite Vh in N.
    assert (Rabs (0 - float_value x * (1 / 2)) <= 1 / 2) by (apply Rabs_le; lra).
    assert (X : Rabs (float_value (fmul x (fl 5 (-1))) - float_value x * (1 / 2)) <= 1 / 2) by lra.
    apply Rabs_le_inv in X. lra.
Qed.

Lemma written_angle : forall acos t x, (forall y, cosine y -> acos y <> None) -> number_text t (Some x) -> cosine x -> has_angle acos x.
Proof. intros acos t x A T C. apply cosine_angle; [exact A| |exact C]. apply (parse_double t). now apply number_parsed. Qed.
