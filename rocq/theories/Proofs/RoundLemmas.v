(** float_of_dec rounds correctly: the real arithmetic of Flocq. *)
From Coq Require Import ZArith NArith Reals Bool Lia Lra Psatz.
From Coq Require Import Floats.SpecFloat.
From Flocq Require Import Core.Core IEEE754.BinarySingleNaN.
From Verif.Model Require Import PyFloat.
From Verif.Spec Require Import Doubles.
Local Open Scope R_scope.

Global Instance prec53 : Prec_gt_0 fprec.
Proof. unfold Prec_gt_0, fprec. lia. Qed.
Global Instance emax1024 : Prec_lt_emax fprec femax.
Proof. unfold Prec_lt_emax, fprec, femax. lia. Qed.

Notation dexp2 := (SpecFloat.fexp fprec femax).
Notation rnd := (round radix2 dexp2 ZnearestE).
Notation form := (generic_format radix2 dexp2).

Global Instance exists_NE : Exists_NE radix2 dexp2.
Proof. apply (exists_NE_FLT radix2 (SpecFloat.emin fprec femax) fprec). right. unfold fprec. lia. Qed.

Lemma choice_equiv : forall s m l, round_nearest_even m l = choice_mode mode_NE s m l.
Proof. intros s m [|[]]; try reflexivity. simpl. unfold Round.cond_incr. destruct (Z.even m); reflexivity. Qed.
Lemma round_aux_equiv : forall sx mx ex lx,
  SpecFloat.binary_round_aux fprec femax sx mx ex lx = binary_round_aux fprec femax mode_NE sx mx ex lx.
Proof.
  intros. unfold SpecFloat.binary_round_aux, binary_round_aux.
  destruct (shr_fexp fprec femax mx ex lx) as [mrs e]. rewrite (choice_equiv sx). reflexivity.
Qed.
Lemma round_equiv : forall s m e,
  SpecFloat.binary_round fprec femax s m e = binary_round fprec femax mode_NE s m e.
Proof.
  intros. unfold SpecFloat.binary_round, binary_round, shl_align_fexp.
  destruct (shl_align _ _ _). apply round_aux_equiv.
Qed.

Lemma powerRZ_bpow : forall e, powerRZ 2 e = bpow radix2 e.
Proof. intros e. rewrite bpow_powerRZ. reflexivity. Qed.

Lemma value_SF2R : forall x, float_value x = SF2R radix2 x.
Proof.
  intros [s|s| |s m e]; try reflexivity. cbn [float_value SF2R]. unfold F2R. cbn [Fnum Fexp].
  rewrite powerRZ_bpow. destruct s; cbn [cond_Zopp]; [rewrite opp_IZR|]; ring.
Qed.

(** What the rounding of a real number means for a spec_float. *)
Definition rounded (r : R) (neg : bool) (x : float) : Prop :=
  valid_binary fprec femax x = true /\
  if Rlt_bool (Rabs (rnd r)) (bpow radix2 femax)
  then SF2R radix2 x = rnd r /\ is_finite_SF x = true /\ sign_SF x = neg
  else x = S754_infinity neg.

Lemma overflow_inf : forall s, binary_overflow fprec femax mode_NE s = S754_infinity s.
Proof. reflexivity. Qed.

Lemma normalize_rounded : forall s m z, (0 < m)%Z ->
  rounded (SF2R radix2 (S754_finite s (Z.to_pos m) 0)) s (SpecFloat.binary_normalize fprec femax (cond_Zopp s m) 0 z).
Proof.
  intros s m z H. destruct m as [|m|m]; try lia. cbn [Z.to_pos].
  unfold rounded. 
  generalize (binary_round_correct fprec femax _ _ mode_NE s m 0). cbn zeta.
  intros [V E]. rewrite <- round_equiv in V, E. cbn [round_mode] in E.
  assert (G : SpecFloat.binary_normalize fprec femax (cond_Zopp s (Z.pos m)) 0 z
              = SpecFloat.binary_round fprec femax s m 0) by (destruct s; reflexivity).
  rewrite G. split; [exact V|]. cbn [SF2R]. exact E.
Qed.

Lemma div_rounded : forall s m p,
  rounded (SF2R radix2 (S754_finite s m 0) / IZR (Zpos p)) s
    (SFdiv fprec femax (S754_finite s m 0) (S754_finite false p 0)).
Proof.
  intros s m p. unfold rounded.
  generalize (Bdiv_correct_aux fprec femax _ _ mode_NE s m 0 false p 0). cbn zeta.
  unfold SFdiv. destruct (SFdiv_core_binary fprec femax (Z.pos m) 0 (Z.pos p) 0) as [[mz ez] lz].
  rewrite <- round_aux_equiv. cbn [round_mode].
  replace (F2R {| Fnum := cond_Zopp false (Z.pos p); Fexp := 0 |}) with (IZR (Zpos p))
    by (unfold F2R; cbn [Fnum Fexp cond_Zopp bpow]; ring).
  rewrite xorb_false_r. cbn [SF2R]. rewrite overflow_inf. exact (fun H => H).
Qed.

Lemma IZR_powerRZ10 : forall e, (0 <= e)%Z -> IZR (10 ^ e) = powerRZ 10 e.
Proof.
  intros e H. destruct e as [|p|p]; try lia; [reflexivity|].
  unfold powerRZ. rewrite <- (positive_nat_Z p), <- pow_IZR. reflexivity.
Qed.
Lemma powerRZ10_opp : forall e, powerRZ 10 (- e) = / powerRZ 10 e.
Proof. intros e. apply powerRZ_neg'. Qed.

Lemma SF2R_int : forall s m, SF2R radix2 (S754_finite s m 0) = (if s then -1 else 1) * IZR (Zpos m).
Proof. intros [] m; unfold SF2R, F2R; cbn [Fnum Fexp cond_Zopp bpow]; [rewrite opp_IZR|]; ring. Qed.

Lemma dec_rounded : forall d, dman d <> 0%N -> rounded (dec_value d) (dneg d) (float_of_dec d).
Proof.
  intros [s m e] H. unfold float_of_dec, dec_value. cbn [dman dneg dexp] in *. destruct m as [|m]; [contradiction|].
  cbn [Z.of_N]. destruct (0 <=? e)%Z eqn:E.
  - apply Z.leb_le in E. assert (P : (0 < 10 ^ e)%Z) by (apply Z.pow_pos_nonneg; lia).
    assert (Q : (0 < Z.pos m * 10 ^ e)%Z) by lia.
    generalize (normalize_rounded s _ s Q). rewrite SF2R_int, Z2Pos.id by exact Q.
    rewrite mult_IZR, IZR_powerRZ10 by exact E. rewrite <- Rmult_assoc. exact (fun H => H).
  - apply Z.leb_gt in E. assert (P : (0 < 10 ^ (- e))%Z) by (apply Z.pow_pos_nonneg; lia).
    generalize (div_rounded s m (Z.to_pos (10 ^ (- e)))). rewrite SF2R_int, Z2Pos.id by exact P.
    rewrite IZR_powerRZ10 by lia. rewrite powerRZ10_opp. unfold Rdiv. rewrite Rinv_inv. exact (fun H => H).
Qed.

Lemma rounded_unique : forall r n x y, rounded r n x -> rounded r n y -> x = y.
Proof.
  intros r n x y [Vx X] [Vy Y]. destruct (Rlt_bool _ _); [|congruence].
  destruct X as [Xr [Xf Xs]], Y as [Yr [Yf Ys]].
  assert (E : B2R (SF2B x Vx) = B2R (SF2B y Vy)) by (rewrite !B2R_SF2B; congruence).
  destruct x as [sx|sx| |sx mx ex]; try discriminate; destruct y as [sy|sy| |sy my ey]; try discriminate.
  - cbn in Xs, Ys. congruence.
  - exfalso. cbn [SF2R] in Xr, Yr. rewrite <- Xr in Yr. apply eq_0_F2R in Yr. destruct sy; discriminate.
  - exfalso. cbn [SF2R] in Xr, Yr. rewrite <- Yr in Xr. apply eq_0_F2R in Xr. destruct sx; discriminate.
  - assert (G : SF2B (S754_finite sx mx ex) Vx = SF2B (S754_finite sy my ey) Vy).
    { apply B2R_inj; try reflexivity. exact E. }
    apply (f_equal (@B2SF fprec femax)) in G. rewrite !B2SF_SF2B in G. exact G.
Qed.

(** Only the value of a numeral matters. *)
Lemma same_value : forall d d', dneg d = dneg d' -> dec_value d = dec_value d' -> dman d <> 0%N -> dman d' <> 0%N ->
  float_of_dec d = float_of_dec d'.
Proof.
  intros d d' S V N N'. apply (rounded_unique (dec_value d) (dneg d)); [apply dec_rounded, N|].
  rewrite V, S. apply dec_rounded, N'.
Qed.

Lemma digits_le : forall m k, (Zpos (digits2_pos m) <= k)%Z <-> (Zpos m < 2 ^ k)%Z.
Proof.
  intros m k. rewrite Zpos_digits2_pos. split; intros H.
  - apply (Zpower_gt_Zdigits radix2) in H. exact H.
  - apply (Zdigits_le_Zpower radix2). exact H.
Qed.
Lemma digits_gt : forall m k, (k < Zpos (digits2_pos m))%Z <-> (2 ^ k <= Zpos m)%Z.
Proof.
  intros m k. rewrite Zpos_digits2_pos. split; intros H.
  - apply (Zpower_le_Zdigits radix2) in H. exact H.
  - apply (Zdigits_gt_Zpower radix2). exact H.
Qed.

Lemma double_valid : forall x, double x <-> valid_binary fprec femax x = true.
Proof.
  intros [s|s| |s m e]; cbn [double valid_binary]; try tauto.
  unfold bounded, canonical_mantissa, SpecFloat.fexp, SpecFloat.emin, fprec, femax.
  rewrite andb_true_iff, Z.leb_le, <- Zeq_is_eq_bool, <- digits_le, <- digits_gt. lia.
Qed.

Lemma finite_SF : forall x, finite x <-> is_finite_SF x = true.
Proof. intros []; cbn; intuition discriminate. Qed.
Lemma sign_SF_bit : forall x, sign_bit x = sign_SF x.
Proof. intros []; reflexivity. Qed.

Lemma double_form : forall x, double x -> form (float_value x).
Proof.
  intros x H. apply double_valid in H. rewrite value_SF2R, <- (B2R_SF2B fprec femax x H).
  apply generic_format_B2R.
Qed.

Lemma double_canonical : forall s m e, double (S754_finite s m e) ->
  canonical radix2 dexp2 (Float radix2 (cond_Zopp s (Zpos m)) e).
Proof.
  intros s m e H. apply double_valid in H. cbn [valid_binary] in H. unfold bounded in H.
  apply andb_true_iff in H. apply canonical_canonical_mantissa, H.
Qed.

Lemma dec_zero : forall d, dman d = 0%N -> dec_value d = 0 /\ float_of_dec d = S754_zero (dneg d).
Proof. intros [s m e] H. cbn in H. subst. unfold dec_value, float_of_dec. cbn. split; [ring|reflexivity]. Qed.

(** The largest double and the next power of two. *)
Definition maxf : R := bpow radix2 1024 - bpow radix2 971.
Lemma maxf_value : maxf = float_value (S754_finite false (Z.to_pos (2 ^ 53 - 1)) 971).
Proof.
  unfold maxf, float_value. rewrite powerRZ_bpow, Z2Pos.id by lia. rewrite minus_IZR.
  change (IZR (2 ^ 53)) with (bpow radix2 53).
  replace (bpow radix2 1024) with (bpow radix2 53 * bpow radix2 971) by (rewrite <- bpow_plus; reflexivity). ring.
Qed.
Lemma maxf_form : form maxf.
Proof. rewrite maxf_value. apply double_form. cbn. lia. Qed.
Lemma big_form : form (bpow radix2 1024).
Proof. apply generic_format_bpow. unfold SpecFloat.fexp, SpecFloat.emin, fprec, femax. lia. Qed.
Lemma pred_big : Ulp.pred radix2 dexp2 (bpow radix2 1024) = maxf.
Proof. rewrite pred_bpow. reflexivity. Qed.
Lemma succ_maxf : Ulp.succ radix2 dexp2 maxf = bpow radix2 1024.
Proof. rewrite <- pred_big. apply succ_pred; [typeclasses eauto|apply big_form]. Qed.

Lemma overflow_mid : overflow = (maxf + bpow radix2 1024) / 2.
Proof.
  unfold overflow, maxf. rewrite !powerRZ_bpow.
  replace (bpow radix2 971) with (2 * bpow radix2 970) by (change 2 with (bpow radix2 1); rewrite <- bpow_plus; reflexivity).
  field.
Qed.

Lemma round_small : forall r, 0 <= r < overflow -> rnd r < bpow radix2 1024.
Proof.
  intros r [P H]. apply Rle_lt_trans with maxf.
  - apply round_N_le_midp; try typeclasses eauto; [apply maxf_form|]. rewrite succ_maxf, <- overflow_mid. exact H.
  - unfold maxf. generalize (bpow_gt_0 radix2 971). lra.
Qed.

Lemma round_tie : rnd overflow = bpow radix2 1024.
Proof.
  assert (E : overflow = F2R (Float radix2 (2 ^ 54 - 1) 970)).
  { unfold overflow, F2R. cbn [Fnum Fexp]. rewrite !powerRZ_bpow, minus_IZR. change (IZR (2 ^ 54)) with (bpow radix2 54).
    replace (bpow radix2 1024) with (bpow radix2 54 * bpow radix2 970) by (rewrite <- bpow_plus; reflexivity). ring. }
  assert (M : mag radix2 overflow = 1024%Z :> Z).
  { apply mag_unique_pos. rewrite overflow_mid. unfold maxf.
    replace (bpow radix2 (1024 - 1)) with (bpow radix2 52 * bpow radix2 971) by (rewrite <- bpow_plus; reflexivity).
    replace (bpow radix2 1024) with (bpow radix2 53 * bpow radix2 971) by (rewrite <- bpow_plus; reflexivity).
    generalize (bpow_gt_0 radix2 971). intros G. change (bpow radix2 52) with (IZR (2 ^ 52)). change (bpow radix2 53) with (IZR (2 ^ 53)).
    split; [|]; nra. }
  unfold round, scaled_mantissa, cexp. rewrite M.
  change (SpecFloat.fexp fprec femax 1024) with 971%Z.
  replace (overflow * bpow radix2 (- (971))) with (IZR (2 ^ 53 - 1) + / 2).
  - unfold Znearest. rewrite (Zfloor_imp (2 ^ 53 - 1)).
    + replace (IZR (2 ^ 53 - 1) + / 2 - IZR (2 ^ 53 - 1)) with (/ 2) by ring.
      rewrite Rcompare_Eq by reflexivity. replace (negb (Z.even (2 ^ 53 - 1))) with true by reflexivity.
      rewrite (Zceil_imp (2 ^ 53)).
      * unfold F2R. cbn [Fnum Fexp]. change (IZR (2 ^ 53)) with (bpow radix2 53). rewrite <- bpow_plus. reflexivity.
      * rewrite !minus_IZR. lra.
    + rewrite plus_IZR. lra.
  - rewrite E. unfold F2R. cbn [Fnum Fexp]. rewrite Rmult_assoc, <- bpow_plus. change (970 + - (971))%Z with (-1)%Z.
    change (bpow radix2 (-1)) with (/ 2). rewrite !minus_IZR. change (2 ^ 54)%Z with (2 * 2 ^ 53)%Z. rewrite mult_IZR. lra.
Qed.

Lemma round_large : forall r, overflow <= r -> bpow radix2 1024 <= rnd r.
Proof. intros r H. rewrite <- round_tie. apply round_le; [typeclasses eauto|typeclasses eauto|exact H]. Qed.

Lemma overflow_pos : 0 < overflow.
Proof. rewrite overflow_mid. unfold maxf. generalize (bpow_lt radix2 971 1024 ltac:(lia)) (bpow_gt_0 radix2 1024). lra. Qed.

Lemma fits : forall r, Rlt_bool (Rabs (rnd r)) (bpow radix2 femax) = true <-> Rabs r < overflow.
Proof.
  intros r. rewrite <- round_NE_abs by typeclasses eauto. change femax with 1024%Z. split; intros H.
  - apply Rnot_le_lt. intros L. apply round_large in L. revert H. rewrite Rlt_bool_false by exact L. discriminate.
  - apply Rlt_bool_true, round_small. split; [apply Rabs_pos|exact H].
Qed.

Lemma rounded_nearest : forall r n x, rounded r n x -> Rabs r < overflow -> nearest r x /\ sign_bit x = n.
Proof.
  intros r n x [V H] F. apply fits in F. rewrite F in H. destruct H as [E [Fi S]].
  assert (D : double x) by (apply double_valid, V).
  split; [|rewrite sign_SF_bit; exact S].
  split; [exact D|]. split; [apply finite_SF, Fi|]. rewrite value_SF2R, E. split.
  - intros y Dy Fy. apply (round_N_pt radix2 dexp2). apply double_form, Dy.
  - intros y Dy Fy N Eq. destruct (round_NE_pt radix2 dexp2 r) as [[Fm Nm] [[g [Eg [Cg Pg]]]|U]].
    + destruct x as [s|s| |s m e]; cbn [even_mantissa]; try exact I.
      rewrite <- E in Eg. cbn [SF2R] in Eg.
      assert (G : Float radix2 (cond_Zopp s (Z.pos m)) e = g).
      { apply (canonical_unique radix2 dexp2); [apply double_canonical, D|exact Cg|exact Eg]. }
      subst g. cbn [Fnum] in Pg. destruct s; cbn [cond_Zopp] in Pg; [rewrite Z.even_opp in Pg|]; exact Pg.
    + exfalso. apply N. apply U. split; [apply double_form, Dy|]. intros g Fg. rewrite Eq. apply Nm, Fg.
Qed.

Lemma read_nearest : forall d, 
  (Rabs (dec_value d) < overflow -> nearest (dec_value d) (float_of_dec d) /\ sign_bit (float_of_dec d) = dneg d) /\
  (overflow <= Rabs (dec_value d) -> float_of_dec d = S754_infinity (dneg d)).
Proof.
  intros d. destruct (N.eq_dec (dman d) 0) as [Z|Z].
  - apply dec_zero in Z. destruct Z as [-> ->]. rewrite Rabs_R0. split; intros H.
    + split; [|reflexivity]. split; [exact I|]. split; [exact I|]. split; intros; cbn [float_value]; [|exact I].
      rewrite Rminus_0_r, Rabs_R0. apply Rabs_pos.
    + generalize overflow_pos. lra.
  - apply dec_rounded in Z. split; intros H; [eapply rounded_nearest; eassumption|].
    destruct Z as [_ Z]. destruct (Rlt_bool _ _) eqn:E; [|exact Z]. apply fits in E. lra.
Qed.
