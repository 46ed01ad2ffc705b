(** The arithmetic of the model is that of IEEE doubles: every operation gives the nearest double. *)
From Coq Require Import ZArith NArith Reals Bool Lia Lra Psatz.
From Coq Require Import Floats.SpecFloat.
From Flocq Require Import Core.Core Relative IEEE754.BinarySingleNaN.
From Verif.Model Require Import PyFloat.
From Verif.Spec Require Import Doubles.
From Verif.Proofs Require Import RoundLemmas.
Local Open Scope R_scope.

Notation bfloat := (binary_float fprec femax).

Lemma to_B : forall x, double x -> exists b : bfloat, x = B2SF b.
Proof. intros x D. apply double_valid in D. exists (SF2B x D). symmetry. apply B2SF_SF2B. Qed.
Lemma B_double : forall b : bfloat, double (B2SF b).
Proof. intros b. apply double_valid. apply valid_binary_B2SF. Qed.
Lemma B_value : forall b : bfloat, float_value (B2SF b) = B2R b.
Proof. intros b. rewrite value_SF2R. apply SF2R_B2SF. Qed.
Lemma B_finite : forall b : bfloat, finite (B2SF b) <-> is_finite b = true.
Proof. intros b. rewrite finite_SF, is_finite_SF_B2SF. reflexivity. Qed.

Lemma normalize_equiv : forall m e z, SpecFloat.binary_normalize fprec femax m e z
  = B2SF (binary_normalize fprec femax _ _ mode_NE m e z).
Proof. intros [|p|p] e z; cbn -[SpecFloat.binary_round binary_round]; [reflexivity|rewrite B2SF_SF2B; apply round_equiv..]. Qed.

Lemma fmul_B : forall a b : bfloat, fmul (B2SF a) (B2SF b) = B2SF (Bmult mode_NE a b).
Proof.
  intros [sx|sx| |sx mx ex Bx] [sy|sy| |sy my ey By]; try reflexivity. unfold fmul. cbn -[SpecFloat.binary_round_aux binary_round_aux fprec femax].
  rewrite B2SF_SF2B. apply round_aux_equiv.
Qed.
Lemma fadd_B : forall a b : bfloat, fadd (B2SF a) (B2SF b) = B2SF (Bplus mode_NE a b).
Proof.
  intros [sx|sx| |sx mx ex Bx] [sy|sy| |sy my ey By]; try (unfold fadd; cbn -[fprec femax]; try reflexivity; now destruct (Bool.eqb sx sy)).
  apply normalize_equiv.
Qed.
Lemma fsub_B : forall a b : bfloat, fsub (B2SF a) (B2SF b) = B2SF (Bminus mode_NE a b).
Proof.
  intros [sx|sx| |sx mx ex Bx] [sy|sy| |sy my ey By];
    try (unfold fsub; cbn -[fprec femax]; try reflexivity; now (destruct (Bool.eqb sx (negb sy)) || destruct (Bool.eqb sx sy) || destruct sx, sy)).
  unfold fsub. cbn -[fprec femax binary_normalize SpecFloat.binary_normalize]. unfold Zminus. rewrite <- cond_Zopp_negb. apply normalize_equiv.
Qed.
Lemma fdiv_B : forall a b : bfloat, fdiv (B2SF a) (B2SF b) = B2SF (Bdiv mode_NE a b).
Proof.
  intros [sx|sx| |sx mx ex Bx] [sy|sy| |sy my ey By]; try reflexivity. unfold fdiv, SFdiv, Bdiv. cbn [B2SF].
  rewrite B2SF_SF2B. destruct (SFdiv_core_binary _ _ _ _ _ _) as [[mz ez] lz]. apply round_aux_equiv.
Qed.
Lemma fsqrt_B : forall a : bfloat, fsqrt (B2SF a) = B2SF (Bsqrt mode_NE a).
Proof.
  intros [sx|[]| |[] mx ex Bx]; try reflexivity. unfold fsqrt, SFsqrt, Bsqrt. cbn [B2SF].
  rewrite B2SF_SF2B. destruct (SFsqrt_core_binary _ _ _ _) as [[mz ez] lz]. apply round_aux_equiv.
Qed.

(** [z] is [r] rounded *)
Definition rounds (r : R) (z : float) : Prop := double z /\ finite z /\ float_value z = rnd r.

Lemma fmul_rounds : forall x y, double x -> finite x -> double y -> finite y -> Rabs (float_value x * float_value y) < overflow ->
  rounds (float_value x * float_value y) (fmul x y).
Proof.
  intros x y Dx Fx Dy Fy H. destruct (to_B x Dx) as [a ->]. destruct (to_B y Dy) as [b ->].
  rewrite !B_value in *. apply B_finite in Fx, Fy. rewrite fmul_B. pose proof (Bmult_correct fprec femax _ _ mode_NE a b) as C.
  apply fits in H. cbn [round_mode] in C. rewrite H in C. destruct C as (V & F & _). split; [apply B_double|].
  rewrite Fx, Fy in F. split; [apply B_finite, F|]. rewrite B_value. exact V.
Qed.
Lemma fadd_rounds : forall x y, double x -> finite x -> double y -> finite y -> Rabs (float_value x + float_value y) < overflow ->
  rounds (float_value x + float_value y) (fadd x y).
Proof.
  intros x y Dx Fx Dy Fy H. destruct (to_B x Dx) as [a ->]. destruct (to_B y Dy) as [b ->].
  rewrite !B_value in *. apply B_finite in Fx, Fy. rewrite fadd_B. pose proof (Bplus_correct fprec femax _ _ mode_NE a b Fx Fy) as C.
  apply fits in H. cbn [round_mode] in C. rewrite H in C. destruct C as (V & F & _). split; [apply B_double|].
  split; [apply B_finite, F|]. rewrite B_value. exact V.
Qed.
Lemma fsub_rounds : forall x y, double x -> finite x -> double y -> finite y -> Rabs (float_value x - float_value y) < overflow ->
  rounds (float_value x - float_value y) (fsub x y).
Proof.
  intros x y Dx Fx Dy Fy H. destruct (to_B x Dx) as [a ->]. destruct (to_B y Dy) as [b ->].
  rewrite !B_value in *. apply B_finite in Fx, Fy. rewrite fsub_B. pose proof (Bminus_correct fprec femax _ _ mode_NE a b Fx Fy) as C.
  apply fits in H. cbn [round_mode] in C. rewrite H in C. destruct C as (V & F & _). split; [apply B_double|].
  split; [apply B_finite, F|]. rewrite B_value. exact V.
Qed.
Lemma fdiv_rounds : forall x y, double x -> finite x -> double y -> finite y -> float_value y <> 0 ->
  Rabs (float_value x / float_value y) < overflow -> rounds (float_value x / float_value y) (fdiv x y).
Proof.
  intros x y Dx Fx Dy Fy N H. destruct (to_B x Dx) as [a ->]. destruct (to_B y Dy) as [b ->].
  rewrite !B_value in *. apply B_finite in Fx. rewrite fdiv_B. pose proof (Bdiv_correct fprec femax _ _ mode_NE a b N) as C.
  apply fits in H. cbn [round_mode] in C. rewrite H in C. destruct C as (V & F & _). split; [apply B_double|].
  rewrite Fx in F. split; [apply B_finite, F|]. rewrite B_value. exact V.
Qed.
Lemma fsqrt_rounds : forall x, double x -> finite x -> 0 <= float_value x -> rounds (sqrt (float_value x)) (fsqrt x).
Proof.
  intros x Dx Fx H. destruct (to_B x Dx) as [a ->].
  rewrite B_value in *. apply B_finite in Fx. rewrite fsqrt_B. pose proof (Bsqrt_correct fprec femax _ _ mode_NE a) as (V & F & _).
  split; [apply B_double|]. split; [|rewrite B_value; exact V]. apply B_finite. rewrite F.
  destruct a as [s|s| |s m e B]; try discriminate; [reflexivity|]. destruct s; [|reflexivity]. exfalso.
  cbn [B2R] in H. unfold F2R in H. cbn in H. assert (0 < bpow radix2 e) by apply bpow_gt_0.
  assert (IZR (Z.neg m) <= -1) by (apply IZR_le; lia). nra.
Qed.

Lemma rounds_nearest : forall r z, rounds r z -> nearest r z.
Proof.
  intros r x (D & Fi & E).
  split; [exact D|]. split; [exact Fi|]. rewrite E. split.
  - intros y Dy Fy. apply (round_N_pt radix2 dexp2). apply double_form, Dy.
  - intros y Dy Fy N Eq. destruct (round_NE_pt radix2 dexp2 r) as [[Fm Nm] [[g [Eg [Cg Pg]]]|U]].
    + destruct x as [s|s| |s m e]; cbn [even_mantissa]; try exact I.
      rewrite value_SF2R in E. rewrite <- E in Eg. cbn [SF2R] in Eg.
      assert (G : Float radix2 (cond_Zopp s (Z.pos m)) e = g).
      { apply (canonical_unique radix2 dexp2); [apply double_canonical, D|exact Cg|exact Eg]. }
      subst g. cbn [Fnum] in Pg. destruct s; cbn [cond_Zopp] in Pg; [rewrite Z.even_opp in Pg|]; exact Pg.
    + exfalso. apply N. apply U. split; [apply double_form, Dy|]. intros g Fg. rewrite Eq. apply Nm, Fg.
Qed.

(** A rounding loses at most half a unit in the 53rd bit. *)
Lemma rounds_close : forall r z, rounds r z -> r = 0 \/ powerRZ 2 (-1022) <= Rabs r ->
  Rabs (float_value z - r) <= powerRZ 2 (-53) * Rabs r.
Proof.
  intros r z (_ & _ & ->) [->|H].
  - rewrite round_0 by typeclasses eauto. rewrite Rminus_0_r, Rabs_R0. lra.
  - rewrite !powerRZ_bpow in *. pose proof (relative_error_N_FLT radix2 (SpecFloat.emin fprec femax) fprec ltac:(unfold Prec_gt_0, fprec; lia)
      (fun t => negb (Z.even t)) r) as C. specialize (C H).
    replace (bpow radix2 (-53)) with (/ 2 * bpow radix2 (- fprec + 1)); [exact C|].
    change (- fprec + 1)%Z with (-53 + 1)%Z. rewrite bpow_plus. cbn [bpow radix2]. change (IZR (Z.pow_pos radix2 1)) with 2. field.
    apply Rgt_not_eq. apply IZR_lt. reflexivity.
Qed.
Lemma rounds_exact : forall r z, rounds r z -> form r -> float_value z = r.
Proof. intros r z (_ & _ & ->) F. apply round_generic; [typeclasses eauto|exact F]. Qed.
