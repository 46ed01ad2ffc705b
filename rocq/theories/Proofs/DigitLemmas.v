(** Numbers of few digits: how they are rounded and printed. *)
From Coq Require Import String List Ascii NArith ZArith Bool Arith Reals Lia Lra Psatz.
From Coq Require Import Floats.SpecFloat.
From Flocq Require Import Core.Core IEEE754.BinarySingleNaN.
From Verif.Model Require Import Py PyFloat Repr.
From Verif.Spec Require Import Text Doubles.
From Verif.Proofs Require Import StrLemmas NumLemmas IntLemmas RoundLemmas ReprLemmas NearestLemmas.
Import ListNotations.
Local Open Scope list_scope.
Local Open Scope nat_scope.

Definition dec_abs (d : dec) : R := (IZR (Z.of_N (dman d)) * powerRZ 10 (dexp d))%R.
Lemma dec_value_abs : forall d, dec_value d = ((if dneg d then -1 else 1) * dec_abs d)%R.
Proof. intros d. unfold dec_value, dec_abs. ring. Qed.
Lemma dec_abs_Rabs : forall d, Rabs (dec_value d) = dec_abs d.
Proof.
  intros d. rewrite dec_value_abs, Rabs_mult. assert (0 <= dec_abs d)%R.
  { unfold dec_abs. apply Rmult_le_pos; [apply IZR_le; lia|left; apply p10_pos]. }
  rewrite (Rabs_pos_eq (dec_abs d)) by assumption. destruct (dneg d); [rewrite Rabs_left by lra; ring|rewrite Rabs_pos_eq by lra; ring].
Qed.

Lemma mag_pos : forall m e, (0 < float_value (S754_finite false m e))%R.
Proof.
  intros m e. cbn [float_value]. rewrite powerRZ_bpow. pose proof (bpow_gt_0 radix2 e).
  assert (0 < IZR (Z.pos m))%R by (apply IZR_lt; lia). nra.
Qed.

Lemma half_ulp : forall d s m e, float_of_dec d = S754_finite s m e -> (2 ^ 52 <= Zpos m)%Z ->
  dneg d = s /\ dman d <> 0%N /\
  (Rabs (dec_abs d - float_value (S754_finite false m e)) <= float_value (S754_finite false m e) * bpow radix2 (-53))%R.
Proof.
  intros d s m e H M.
  assert (N : dman d <> 0%N). { intros Z. apply dec_zero in Z. destruct Z as [_ Z]. congruence. }
  destruct (dec_rounded d N) as [V R]. rewrite H in V, R.
  destruct (Rlt_bool _ _); [|discriminate]. destruct R as [R [_ S]]. cbn [sign_SF] in S. subst s.
  split; [reflexivity|]. split; [exact N|].
  assert (D : double (S754_finite (dneg d) m e)) by (apply double_valid, V).
  pose proof (error_le_half_ulp_round radix2 dexp2 (fun x => negb (Z.even x)) (dec_value d)) as U.
  change (round radix2 dexp2 (Znearest (fun x => negb (Z.even x))) (dec_value d)) with (rnd (dec_value d)) in U.
  rewrite <- R in U.
  change (SF2R radix2 (S754_finite (dneg d) m e)) with (F2R (Float radix2 (cond_Zopp (dneg d) (Zpos m)) e)) in U.
  rewrite ulp_canonical in U; [|destruct (dneg d); cbn; lia|apply double_canonical, D].
  change (F2R (Float radix2 (cond_Zopp (dneg d) (Zpos m)) e)) with (SF2R radix2 (S754_finite (dneg d) m e)) in U.
  rewrite <- value_SF2R, abs_value, dec_value_abs in U. cbn [Fexp] in U.
  replace ((if dneg d then -1 else 1) * float_value (S754_finite false m e) - (if dneg d then -1 else 1) * dec_abs d)%R
    with ((if dneg d then -1 else 1) * (float_value (S754_finite false m e) - dec_abs d))%R in U by ring.
  rewrite Rabs_mult in U. replace (Rabs (if dneg d then -1 else 1)) with 1%R in U
    by (destruct (dneg d); [rewrite Rabs_left by lra; ring|rewrite Rabs_pos_eq by lra; ring]).
  rewrite Rmult_1_l in U. rewrite Rabs_minus_sym. apply Rle_trans with (1 := U).
  cbn [float_value]. rewrite powerRZ_bpow. pose proof (bpow_gt_0 radix2 e) as P.
  apply IZR_le in M. change (IZR (2 ^ 52)) with (bpow radix2 52) in M.
  apply Rle_trans with (1 * bpow radix2 52 * bpow radix2 e * bpow radix2 (-53))%R.
  - rewrite Rmult_1_l. replace (bpow radix2 52 * bpow radix2 e * bpow radix2 (-53))%R with (bpow radix2 52 * bpow radix2 (-53) * bpow radix2 e)%R by ring.
    rewrite <- bpow_plus. change (52 + -53)%Z with (-1)%Z. change (bpow radix2 (-1)) with (/ 2)%R. lra.
  - apply Rmult_le_compat_r; [left; apply bpow_gt_0|]. apply Rmult_le_compat_r; [lra|]. rewrite !Rmult_1_l. exact M.
Qed.

Lemma one_multiple : forall c c0 p v, (0 < p)%R -> (Rabs (IZR c * p - v) <= p / 2)%R -> (Rabs (IZR c0 * p - v) < p / 2)%R -> c = c0.
Proof.
  intros c c0 p v P A B. apply Rabs_def2 in B. apply Rabs_le_inv in A.
  assert (U : (IZR c < IZR c0 + 1)%R) by nra. assert (L : (IZR c0 < IZR c + 1)%R) by nra.
  rewrite <- plus_IZR in U, L. apply lt_IZR in U. apply lt_IZR in L. lia.
Qed.

Lemma p10_le : forall a b, (a <= b)%Z -> (powerRZ 10 a <= powerRZ 10 b)%R.
Proof.
  intros a b H. replace b with (a + (b - a))%Z by lia. rewrite p10_plus. pose proof (p10_pos a).
  assert (1 <= powerRZ 10 (b - a))%R; [|nra]. rewrite <- IZR_powerRZ10 by lia. apply IZR_le.
  change 1%Z with (10 ^ 0)%Z. apply Z.pow_le_mono_r; lia.
Qed.
Lemma p10_lt : forall a b, (a < b)%Z -> (powerRZ 10 a < powerRZ 10 b)%R.
Proof.
  intros a b H. apply Rlt_le_trans with (powerRZ 10 (a + 1)); [|apply p10_le; lia].
  rewrite p10_plus. change (powerRZ 10 1) with (10 * 1)%R. pose proof (p10_pos a). lra.
Qed.
Lemma p10_lt_inv : forall a b, (powerRZ 10 a < powerRZ 10 b)%R -> (a < b)%Z.
Proof. intros a b H. destruct (Z.lt_ge_cases a b) as [L|G]; [exact L|]. apply p10_le in G. lra. Qed.

(** A number of at most P <= 15 digits is a multiple of the last of P digits of its double. *)
Lemma few_digits : forall P d s m e E, (1 <= P <= 15)%Z -> (Z.of_N (dman d) < 10 ^ P)%Z ->
  float_of_dec d = S754_finite s m e -> (2 ^ 52 <= Zpos m)%Z ->
  (powerRZ 10 E <= float_value (S754_finite false m e) < powerRZ 10 (E + 1))%R ->
  exists c, (0 < c)%Z /\ dec_abs d = (IZR c * powerRZ 10 (E - P + 1))%R /\
    (Rabs (IZR c * powerRZ 10 (E - P + 1) - float_value (S754_finite false m e)) < powerRZ 10 (E - P + 1) / 2)%R.
Proof.
  intros P d s m e E HP HD H M [Lo Hi]. destruct (half_ulp d s m e H M) as (_ & N & U).
  pose proof (mag_pos m e) as V. set (v := float_value (S754_finite false m e)) in *.
  set (k := (E - P + 1)%Z) in *. pose proof (p10_pos k) as K.
  assert (TP : (IZR (10 ^ P) = powerRZ 10 P)%R) by (apply IZR_powerRZ10; lia).
  assert (T15 : (powerRZ 10 P <= 1000000000000000)%R).
  { rewrite <- TP. apply IZR_le. change 1000000000000000%Z with (10 ^ 15)%Z. apply Z.pow_le_mono_r; lia. }
  assert (B53 : (bpow radix2 (-53) = / 9007199254740992)%R) by reflexivity.
  assert (EK : powerRZ 10 (E + 1) = (powerRZ 10 P * powerRZ 10 k)%R) by (rewrite <- p10_plus; f_equal; unfold k; lia).
  assert (E0 : powerRZ 10 E = (powerRZ 10 P * powerRZ 10 k / 10)%R).
  { rewrite <- EK, p10_plus. change (powerRZ 10 1) with (10 * 1)%R. field. }
  pose proof (p10_pos P) as PP.
  assert (Near : (Rabs (dec_abs d - v) < powerRZ 10 k / 2)%R).
  { apply Rle_lt_trans with (1 := U). rewrite B53. rewrite EK in Hi.
    apply Rlt_le_trans with (powerRZ 10 P * powerRZ 10 k * / 9007199254740992)%R; [apply Rmult_lt_compat_r; lra|].
    assert (powerRZ 10 P * powerRZ 10 k <= 1000000000000000 * powerRZ 10 k)%R by (apply Rmult_le_compat_r; lra). lra. }
  destruct (Z.le_gt_cases k (dexp d)) as [G|G].
  - exists (Z.of_N (dman d) * 10 ^ (dexp d - k))%Z.
    assert (Eq : dec_abs d = (IZR (Z.of_N (dman d) * 10 ^ (dexp d - k)) * powerRZ 10 k)%R).
    { unfold dec_abs. rewrite mult_IZR, IZR_powerRZ10 by lia. rewrite Rmult_assoc, <- p10_plus. do 2 f_equal. lia. }
    split; [|split; [exact Eq|rewrite <- Eq; exact Near]].
    assert (0 < 10 ^ (dexp d - k))%Z by (apply Z.pow_pos_nonneg; lia). nia.
  - exfalso. (* the number is below 10^E by too much *)
    assert (W : (dec_abs d <= (powerRZ 10 P - 1) * powerRZ 10 (k - 1))%R).
    { unfold dec_abs. apply Rmult_le_compat; [apply IZR_le; lia|left; apply p10_pos| |apply p10_le; lia].
      rewrite <- TP, <- minus_IZR. apply IZR_le. lia. }
    assert (K1 : powerRZ 10 (k - 1) = (powerRZ 10 k / 10)%R).
    { rewrite p10_minus. change (powerRZ 10 1) with (10 * 1)%R. field. }
    rewrite K1 in W. rewrite B53 in U. apply Rabs_le_inv in U. destruct U as [U1 U2].
    set (q := (powerRZ 10 P * powerRZ 10 k)%R) in *.
    assert (q <= 1000000000000000 * powerRZ 10 k)%R by (apply Rmult_le_compat_r; lra).
    assert (W' : (dec_abs d <= q / 10 - powerRZ 10 k / 10)%R) by (unfold q; lra).
    lra.
Qed.

(** ** Rounding to 12 digits *)

Lemma round12_spec : forall s m e, let v := float_value (S754_finite false m e) in
  exists c E, round12 s m e = mkDec s (Z.to_N c) (E - 11) /\ (0 < c)%Z /\
    (powerRZ 10 E <= v < powerRZ 10 (E + 1))%R /\
    (Rabs (IZR c * powerRZ 10 (E - 11) - v) <= powerRZ 10 (E - 11) / 2)%R.
Proof.
  intros s m e v. unfold round12. pose proof (float_ratio_pos m e) as [Pn Pd]. pose proof (float_ratio_value m e) as V.
  destruct (float_ratio m e) as [num den]. cbn [fst snd] in *.
  pose proof (exponent10_spec num den Pn Pd) as B. set (E := exponent10 num den) in *.
  pose proof (around_spec num den (E - 11) Pn Pd) as [C A]. rewrite V in *. fold v in B, A.
  exists (fst (around num den (E - 11))), E. split; [reflexivity|].
  split; [|split; [exact B|exact A]].
  eapply (near_pos _ v (powerRZ 10 (E - 11))); [apply mag_pos|apply p10_pos| |exact C|exact A].
  destruct B as [B _]. apply Rle_trans with (2 := B). apply p10_le. lia.
Qed.

Lemma dec_of_abs : forall s c k, (0 < c)%Z -> dec_abs (mkDec s (Z.to_N c) k) = (IZR c * powerRZ 10 k)%R.
Proof. intros s c k C. unfold dec_abs. cbn [dman dexp]. rewrite Z2N.id by lia. reflexivity. Qed.

Lemma float12_exact : forall d s m e, (Z.of_N (dman d) < 10 ^ 12)%Z ->
  float_of_dec d = S754_finite s m e -> (2 ^ 52 <= Zpos m)%Z ->
  float12 (S754_finite s m e) = S754_finite s m e.
Proof.
  intros d s m e D H M. cbn [float12]. destruct (round12_spec s m e) as (c & E & -> & C & B & A).
  destruct (few_digits 12 d s m e E ltac:(lia) D H M B) as (c0 & C0 & V & N).
  replace (E - 12 + 1)%Z with (E - 11)%Z in * by lia.
  assert (c = c0) as -> by (eapply one_multiple; [apply p10_pos|exact A|exact N]).
  rewrite <- H. destruct (half_ulp d s m e H M) as (S & Nz & _).
  apply same_value; [symmetry; exact S| |cbn; lia|exact Nz].
  rewrite !dec_value_abs, dec_of_abs by exact C0. cbn [dneg]. rewrite S, V. reflexivity.
Qed.

Lemma sign_mult : forall (s : bool) a b, (Rabs ((if s then -1 else 1) * a - (if s then -1 else 1) * b) = Rabs (a - b))%R.
Proof.
  intros s a b. destruct s.
  - replace (-1 * a - -1 * b)%R with (- (a - b))%R by ring. apply Rabs_Ropp.
  - f_equal. ring.
Qed.

Lemma float12_double : forall x, double x -> double (float12 x).
Proof. intros [s|s| |s m e] H; try exact H. cbn [float12]. apply dec_double. Qed.

Lemma float12_close : forall x, double x -> finite x -> (Rabs (float_value x) < powerRZ 10 308)%R ->
  finite (float12 x) /\ (Rabs (float_value (float12 x) - float_value x) <= Rabs (float_value x) / powerRZ 10 11)%R.
Proof.
  intros [s|s| |s m e] D F B; try contradiction.
  - split; [exact I|]. cbn. rewrite Rminus_0_r, Rabs_R0. unfold Rdiv. lra.
  - cbn [float12]. destruct (round12_spec s m e) as (c & E & R & C & [Lo Hi] & A).
    set (d := round12 s m e) in *. pose proof (mag_pos m e) as V. set (v := float_value (S754_finite false m e)) in *.
    assert (Vx : float_value (S754_finite s m e) = ((if s then -1 else 1) * v)%R) by apply abs_value.
    assert (Va : Rabs (float_value (S754_finite s m e)) = v).
    { rewrite Vx. destruct s; [rewrite Rabs_left; lra|rewrite Rabs_pos_eq; lra]. }
    rewrite Va in *.
    assert (Vd : dec_value d = ((if s then -1 else 1) * (IZR c * powerRZ 10 (E - 11)))%R).
    { rewrite dec_value_abs, R, dec_of_abs by exact C. reflexivity. }
    assert (K : powerRZ 10 (E - 11) = (powerRZ 10 E / powerRZ 10 11)%R) by apply p10_minus.
    assert (T : (powerRZ 10 11 = 100000000000)%R) by (rewrite <- IZR_powerRZ10 by lia; reflexivity).
    assert (Ab : Rabs (dec_value d - float_value (S754_finite s m e)) = Rabs (IZR c * powerRZ 10 (E - 11) - v))
      by (rewrite Vd, Vx; apply sign_mult).
    assert (Kv : (powerRZ 10 (E - 11) <= v / powerRZ 10 11)%R).
    { rewrite K. unfold Rdiv. apply Rmult_le_compat_r; [rewrite T; lra|exact Lo]. }
    assert (Big : (Rabs (dec_value d) < overflow)%R).
    { apply Rle_lt_trans with (3 / 2 * v)%R.
      - replace (dec_value d) with (dec_value d - float_value (S754_finite s m e) + float_value (S754_finite s m e))%R by ring.
        eapply Rle_trans; [apply Rabs_triang|]. rewrite Ab, Va. rewrite T in Kv. lra.
      - apply Rlt_le_trans with (3 / 2 * powerRZ 10 308)%R; [lra|]. apply Rmult_le_reg_l with 2%R; [lra|]. unfold overflow.
        rewrite <- IZR_powerRZ10, !powerRZ_bpow by lia. change (bpow radix2 1024) with (IZR (2 ^ 1024)). change (bpow radix2 970) with (IZR (2 ^ 970)).
        replace (2 * (3 / 2 * IZR (10 ^ 308)))%R with (3 * IZR (10 ^ 308))%R by field. rewrite <- minus_IZR, <- !mult_IZR. apply IZR_le. apply Z.leb_le. vm_compute. reflexivity. }
    destruct (read_nearest d) as [[(_ & Fy & Near & _) _] _]; [exact Big|]. split; [exact Fy|].
    specialize (Near (S754_finite s m e) D I).
    rewrite (Rabs_minus_sym (float_value (S754_finite s m e))), Ab in Near.
    replace (float_value (float_of_dec d) - float_value (S754_finite s m e))%R
      with ((float_value (float_of_dec d) - dec_value d) + (dec_value d - float_value (S754_finite s m e)))%R by ring.
    eapply Rle_trans; [apply Rabs_triang|]. rewrite Ab. lra.
Qed.

(** ** repr of numbers of few digits *)

Lemma near15 : forall P d s m e E, (1 <= P <= 15)%Z -> float_of_dec d = S754_finite s m e -> (2 ^ 52 <= Zpos m)%Z ->
  (powerRZ 10 E <= float_value (S754_finite false m e) < powerRZ 10 (E + 1))%R ->
  (Rabs (dec_abs d - float_value (S754_finite false m e)) < powerRZ 10 (E - P + 1) / 2)%R.
Proof.
  intros P d s m e E HP H M [Lo Hi]. destruct (half_ulp d s m e H M) as (_ & N & U).
  pose proof (mag_pos m e) as V. set (v := float_value (S754_finite false m e)) in *.
  set (k := (E - P + 1)%Z) in *. pose proof (p10_pos k) as K.
  assert (TP : (IZR (10 ^ P) = powerRZ 10 P)%R) by (apply IZR_powerRZ10; lia).
  assert (T15 : (powerRZ 10 P <= 1000000000000000)%R).
  { rewrite <- TP. apply IZR_le. change 1000000000000000%Z with (10 ^ 15)%Z. apply Z.pow_le_mono_r; lia. }
  assert (B53 : (bpow radix2 (-53) = / 9007199254740992)%R) by reflexivity.
  assert (EK : powerRZ 10 (E + 1) = (powerRZ 10 P * powerRZ 10 k)%R) by (rewrite <- p10_plus; f_equal; unfold k; lia).
  pose proof (p10_pos P) as PP.
  apply Rle_lt_trans with (1 := U). rewrite B53. rewrite EK in Hi.
  apply Rlt_le_trans with (powerRZ 10 P * powerRZ 10 k * / 9007199254740992)%R; [apply Rmult_lt_compat_r; lra|].
  assert (powerRZ 10 P * powerRZ 10 k <= 1000000000000000 * powerRZ 10 k)%R by (apply Rmult_le_compat_r; lra). lra.
Qed.

Lemma around_floor : forall num den k, (0 < num)%Z -> (0 < den)%Z ->
  exists q, (0 <= q)%Z /\ (fst (around num den k) = q \/ fst (around num den k) = q + 1)%Z /\
    (snd (around num den k) = q \/ snd (around num den k) = q + 1)%Z /\
    (IZR q * powerRZ 10 k <= ratio num den)%R.
Proof.
  intros num den k Hn Hd. destruct (scaled_spec num den k Hn Hd) as (A & B & C). unfold around.
  destruct (scaled num den k) as [n d]. cbn [fst snd] in *. exists (n / d)%Z.
  split; [apply Z.div_pos; lia|]. split; [|split].
  - destruct (Z.compare _ _); [destruct (Z.even _)| |]; cbn [fst]; auto.
  - destruct (Z.compare _ _); [destruct (Z.even _)| |]; cbn [snd]; auto.
  - rewrite C. apply Rmult_le_compat_r; [left; apply p10_pos|]. unfold ratio.
    assert (Rd : (0 < IZR d)%R) by (apply IZR_lt; exact B).
    apply Rmult_le_reg_r with (IZR d); [exact Rd|]. unfold Rdiv. rewrite Rmult_assoc, Rinv_l, Rmult_1_r by lra.
    rewrite <- mult_IZR. apply IZR_le. rewrite Z.mul_comm. apply Z.mul_div_le. lia.
Qed.

Lemma first_some_early : forall (B : Type) (f : nat -> option B) a len y P, first_some f (seq a len) = Some y ->
  a <= P < a + len -> f P <> None -> exists n, a <= n <= P /\ f n = Some y.
Proof.
  intros B f a len. revert a. induction len as [|len IH]; intros a y P H L N; [lia|]. cbn [seq first_some] in H.
  destruct (f a) eqn:E.
  - injection H as ->. exists a. split; [lia|exact E].
  - destruct (Nat.eq_dec a P) as [->|Ne]; [contradiction|]. destruct (IH (S a) y P H ltac:(lia) N) as (n & L' & F).
    exists n. split; [lia|exact F].
Qed.

Lemma same_bits_refl : forall s m e, same_bits (S754_finite s m e) (S754_finite s m e) = true.
Proof. intros. cbn. rewrite eqb_reflx, Pos.eqb_refl, Z.eqb_refl. reflexivity. Qed.

Lemma shortest_few : forall P d s m e, 1 <= P <= 15 -> (Z.of_N (dman d) < 10 ^ Z.of_nat P)%Z ->
  double (S754_finite s m e) -> float_of_dec d = S754_finite s m e -> (2 ^ 52 <= Zpos m)%Z ->
  exists d' n, shortest s m e = Some d' /\ dneg d' = s /\ dec_abs d' = dec_abs d /\ 1 <= n <= P /\
    (0 < Z.of_N (dman d') <= 10 ^ Z.of_nat n)%Z.
Proof.
  intros P d s m e HP HD Dx H M. destruct (shortest_reads s m e Dx) as (d' & Sh & Rd & Sg & Nz).
  destruct (half_ulp d s m e H M) as (S & N & _).
  pose proof (float_ratio_pos m e) as [Pn Pd]. pose proof (float_ratio_value m e) as V.
  assert (At : numeral s m e P <> None).
  { unfold numeral. destruct (float_ratio m e) as [num den]. cbn [fst snd] in *.
    pose proof (exponent10_spec num den Pn Pd) as B. set (E := exponent10 num den) in *. rewrite V in B.
    destruct (few_digits (Z.of_nat P) d s m e E ltac:(lia) HD H M B) as (c0 & C0 & V0 & N0).
    pose proof (around_spec num den (E - Z.of_nat P + 1) Pn Pd) as [C A]. rewrite V in A.
    destruct (around num den (E - Z.of_nat P + 1)) as [c c']. cbn [fst] in *.
    assert (c = c0) as -> by (eapply one_multiple; [apply p10_pos|exact A|exact N0]).
    assert (R : float_of_dec (mkDec s (Z.to_N c0) (E - Z.of_nat P + 1)) = S754_finite s m e).
    { rewrite <- H. apply same_value; [symmetry; exact S| |cbn; lia|exact N].
      rewrite !dec_value_abs, dec_of_abs by exact C0. cbn [dneg]. rewrite S, V0. reflexivity. }
    rewrite R, same_bits_refl. discriminate. }
  unfold shortest in Sh. destruct (first_some_early _ _ _ _ _ P Sh ltac:(lia) At) as (n & Ln & Num).
  exists d', n. split; [exact Sh|]. split; [exact Sg|].
  unfold numeral in Num. destruct (float_ratio m e) as [num den]. cbn [fst snd] in *.
  pose proof (exponent10_spec num den Pn Pd) as B. set (E := exponent10 num den) in *. rewrite V in B.
  destruct (around_floor num den (E - Z.of_nat n + 1) Pn Pd) as (q & Q & F1 & F2 & Lo). rewrite V in Lo.
  assert (Form : exists c, (c = q \/ c = q + 1)%Z /\ d' = mkDec s (Z.to_N c) (E - Z.of_nat n + 1)).
  { destruct (around num den (E - Z.of_nat n + 1)) as [c c']. cbn [fst snd] in *.
    destruct (same_bits _ _); [injection Num as <-; exists c; auto|].
    destruct (same_bits _ _); [injection Num as <-; exists c'; auto|discriminate]. }
  destruct Form as (c & Cq & Ed). rewrite Ed in Nz. cbn [dman] in Nz.
  assert (C0 : (0 < c)%Z) by lia.
  split; [|split; [exact Ln|]].
  - destruct (few_digits (Z.of_nat P) d s m e E ltac:(lia) HD H M B) as (c0 & C0' & V0 & N0).
    pose proof (near15 (Z.of_nat P) d' s m e E ltac:(lia) Rd M B) as Nr.
    assert (Va : dec_abs d' = (IZR (c * 10 ^ (Z.of_nat P - Z.of_nat n)) * powerRZ 10 (E - Z.of_nat P + 1))%R).
    { rewrite Ed, dec_of_abs by exact C0. rewrite mult_IZR, IZR_powerRZ10, Rmult_assoc, <- p10_plus by lia. do 2 f_equal. lia. }
    rewrite Va in Nr |- *. rewrite V0. f_equal. f_equal.
    eapply one_multiple; [apply p10_pos|left; exact Nr|exact N0].
  - rewrite Ed. cbn [dman]. rewrite Z2N.id by lia. split; [exact C0|].
    assert (q < 10 ^ Z.of_nat n)%Z; [|lia]. apply lt_IZR. rewrite IZR_powerRZ10 by lia.
    apply Rmult_lt_reg_r with (powerRZ 10 (E - Z.of_nat n + 1)); [apply p10_pos|].
    apply Rle_lt_trans with (1 := Lo). rewrite <- p10_plus.
    replace (Z.of_nat n + (E - Z.of_nat n + 1))%Z with (E + 1)%Z by lia. apply B.
Qed.

Lemma strip_zeros_last : forall ds, is_digits ds -> exists l z, ds = l ++ repeat 0%N z /\
  strip_zeros (digits_text ds) = digits_text l /\ (forall a, l <> a ++ [0%N]).
Proof.
  intros ds. induction ds as [|d ds IH] using rev_ind; intros D.
  - exists [], 0. split; [reflexivity|]. split; [reflexivity|]. intros a H. symmetry in H. apply app_eq_nil in H. destruct H; discriminate.
  - apply Forall_app in D. destruct D as [D1 D2]. inversion D2; subst. unfold strip_zeros.
    rewrite digits_text_app. cbn [digits_text map]. rewrite rev_app_distr. cbn [rev app drop_zeros].
    rewrite digit_zero by assumption. destruct (N.eqb_spec d 0) as [->|Nz].
    + destruct (IH D1) as (l & z & E & S & L). exists l, (z + 1). unfold strip_zeros in S. rewrite S.
      split; [|split; [reflexivity|exact L]]. rewrite E at 1. rewrite repeat_app, app_assoc. reflexivity.
    + exists (ds ++ [d]), 0. split; [cbn; rewrite app_nil_r; reflexivity|].
      split; [cbn [rev]; rewrite rev_involutive, digits_text_app; reflexivity|].
      intros a H. apply app_inj_tail in H. destruct H as [_ ->]. contradiction.
Qed.

Lemma zfill_short : forall n, (n < 100)%N -> length (zfill 2 (n_to_str n)) = 2.
Proof.
  intros n H. destruct (N.eq_dec n 0) as [->|Nz]; [reflexivity|].
  destruct (n_to_str_head n ltac:(lia)) as (d & ds & E & D & P & V). rewrite E.
  pose proof (value10_low d ds P) as L. rewrite V in L.
  assert (length (d :: ds) <= 2).
  { cbn [length]. destruct (le_lt_dec (S (length ds)) 2) as [G|G]; [exact G|]. exfalso.
    assert (10 ^ 2 <= 10 ^ N.of_nat (length ds))%N by (apply N.pow_le_mono_r; lia). change (10 ^ 2)%N with 100%N in H0. lia. }
  rewrite zfill_digits by assumption. rewrite digits_text_length, app_length, repeat_length. lia.
Qed.

Lemma float_normal : forall d x, float_of_dec d = x -> (powerRZ 10 (-99) <= Rabs (dec_value d) < powerRZ 10 18)%R ->
  exists m e, x = S754_finite (dneg d) m e /\ (2 ^ 52 <= Zpos m)%Z.
Proof.
  intros d x H [Lo Hi]. rewrite dec_abs_Rabs in *.
  assert (Dx : double x) by (rewrite <- H; apply dec_double).
  assert (N : dman d <> 0%N).
  { intros Z. assert (Zr : dec_abs d = 0%R) by (unfold dec_abs; rewrite Z; cbn; ring). pose proof (p10_pos (-99)). lra. }
  destruct (dec_rounded d N) as [Vb R]. rewrite H in Vb, R.
    assert (O : Rlt_bool (Rabs (rnd (dec_value d))) (bpow radix2 femax) = true).
    { apply fits. rewrite dec_abs_Rabs. apply Rlt_le_trans with (1 := Hi). unfold overflow.
      rewrite <- IZR_powerRZ10, !powerRZ_bpow by lia. change (bpow radix2 1024) with (IZR (2 ^ 1024)). change (bpow radix2 970) with (IZR (2 ^ 970)).
      rewrite <- minus_IZR. apply IZR_le. apply Z.leb_le. vm_compute. reflexivity. }
    rewrite O in R. destruct R as (Vr & Fn & Sn).
    assert (Big : (bpow radix2 (-1000) <= Rabs (SF2R radix2 x))%R).
    { rewrite Vr, <- round_NE_abs by typeclasses eauto. apply round_ge_generic; try typeclasses eauto.
      - apply generic_format_bpow. unfold SpecFloat.fexp, SpecFloat.emin, fprec, femax. lia.
      - rewrite dec_abs_Rabs. apply Rle_trans with (2 := Lo). rewrite <- powerRZ_bpow.
        change (-1000)%Z with (- (1000))%Z. change (-99)%Z with (- (99))%Z. rewrite powerRZ_neg', powerRZ10_opp.
        apply Rinv_le; [apply p10_pos|]. rewrite <- IZR_powerRZ10, <- IZR_powerRZ2 by lia. apply IZR_le. apply Z.leb_le. vm_compute. reflexivity. }
    pose proof (bpow_gt_0 radix2 (-1000)) as Bp.
    destruct x as [s|s| |s m e]; try discriminate.
    - cbn in Big. rewrite Rabs_R0 in Big. lra.
    - exists m, e. cbn in Sn. subst s. split; [reflexivity|]. destruct Dx as (Mx & Ex & [Nx|Nx]); [exact Nx|]. exfalso.
      rewrite <- value_SF2R, abs_value, Rabs_mult in Big.
      replace (Rabs (if dneg d then -1 else 1)) with 1%R in Big
        by (destruct (dneg d); [rewrite Rabs_left by lra; ring|rewrite Rabs_pos_eq by lra; ring]).
      pose proof (mag_pos m e) as Mp. rewrite Rmult_1_l, Rabs_pos_eq in Big by lra. cbn [float_value] in Big.
      rewrite powerRZ_bpow, Nx in Big. apply IZR_lt in Mx. change (IZR (2 ^ 53)) with (bpow radix2 53) in Mx.
      pose proof (bpow_gt_0 radix2 (-1074)) as B2.
      assert (1 * IZR (Z.pos m) * bpow radix2 (-1074) < bpow radix2 53 * bpow radix2 (-1074))%R by (apply Rmult_lt_compat_r; lra).
      rewrite <- bpow_plus in H0. pose proof (bpow_le radix2 (53 + -1074) (-1000) ltac:(lia)). lra.
Qed.

Lemma repr_width : forall P d x, 1 <= P <= 15 -> (Z.of_N (dman d) < 10 ^ Z.of_nat P)%Z ->
  float_of_dec d = x -> (powerRZ 10 (-99) <= Rabs (dec_value d) < powerRZ 10 (Z.of_nat P + 3))%R ->
  length (repr_float x) <= P + 6.
Proof.
  intros P d x HP HD H [Lo Hi]. rewrite dec_abs_Rabs in *.
  assert (Dx : double x) by (rewrite <- H; apply dec_double).
  assert (N : dman d <> 0%N).
  { intros Z. assert (Zr : dec_abs d = 0%R) by (unfold dec_abs; rewrite Z; cbn; ring). pose proof (p10_pos (-99)). lra. }
  destruct (float_normal d x H) as (m & e & -> & Nm).
  { rewrite dec_abs_Rabs. split; [exact Lo|]. apply Rlt_le_trans with (1 := Hi). apply p10_le. lia. }
  destruct (shortest_few P d _ m e HP HD Dx H Nm) as (d' & n & Sh & Sg & Va & Ln & [Cp Cn]).
  cbn [repr_float]. rewrite Sh. unfold dec_text.
  destruct (n_to_str_head (dman d') ltac:(lia)) as (h & t & E & D & Hp & V). rewrite E.
  pose proof (value10_low h t Hp) as Vl. pose proof (value10_bound _ D) as Vb. rewrite V in Vl, Vb.
  destruct (strip_zeros_last (h :: t) D) as (l & z & El & Sz & Last). rewrite Sz, digits_text_length.
  set (X := (Z.of_nat (length (h :: t)) - 1 + dexp d')%Z).
  assert (Q : forall k, Z.of_N (10 ^ N.of_nat k) = (10 ^ Z.of_nat k)%Z) by (intros k; rewrite N2Z.inj_pow, nat_N_Z; reflexivity).
  assert (Pos : (powerRZ 10 X <= dec_abs d < powerRZ 10 (X + 1))%R).
  { rewrite <- Va. unfold dec_abs, X. cbn [length] in *. split.
    - replace (Z.of_nat (S (length t)) - 1 + dexp d')%Z with (Z.of_nat (length t) + dexp d')%Z by lia. rewrite p10_plus.
      apply Rmult_le_compat_r; [left; apply p10_pos|]. rewrite <- IZR_powerRZ10 by lia. apply IZR_le. rewrite <- Q. lia.
    - replace (Z.of_nat (S (length t)) - 1 + dexp d' + 1)%Z with (Z.of_nat (S (length t)) + dexp d')%Z by lia. rewrite p10_plus.
      apply Rmult_lt_compat_r; [apply p10_pos|]. rewrite <- IZR_powerRZ10 by lia. apply IZR_lt. rewrite <- Q. lia. }
  assert (Xhi : (X < Z.of_nat P + 3)%Z) by (apply p10_lt_inv; lra).
  assert (Xlo : (-99 < X + 1)%Z) by (apply p10_lt_inv; lra).
  assert (Ll : length l <= P).
  { assert (Lt : length t <= n).
    { destruct (le_lt_dec (length t) n) as [G|G]; [exact G|]. exfalso.
      assert (10 ^ Z.of_nat n < 10 ^ Z.of_nat (length t))%Z by (apply Z.pow_lt_mono_r; lia). rewrite <- (Q (length t)) in H0. lia. }
    assert (Len : S (length t) = length l + z) by (pose proof (f_equal (@length _) El) as F; rewrite app_length, repeat_length in F; exact F).
    destruct z as [|z]; [|lia]. destruct (Nat.eq_dec (length t) n) as [En|En]; [|lia]. exfalso.
    assert (Ec : dman d' = (10 ^ N.of_nat n)%N) by (rewrite En in Vl; specialize (Q n); lia).
    cbn [repeat] in El. rewrite app_nil_r in El. subst l.
    destruct (exists_last (l := h :: t) ltac:(discriminate)) as (a & y & Ea). rewrite Ea in *.
    apply Forall_app in D. destruct D as [_ Dy]. apply Forall_inv in Dy.
    rewrite value10_snoc, Ec in V. destruct n as [|n]; [lia|]. rewrite Nat2N.inj_succ, N.pow_succ_r' in V.
    assert (y = 0%N) as -> by lia. exact (Last a eq_refl). }
  rewrite app_length. assert (Sl : length (if dneg d' then lit "-" else ([] : list ascii)) <= 1) by (destruct (dneg d'); cbn; lia).
  enough (length (if ((-4 <=? X) && (X <? 16))%Z then fixed_text (digits_text l) X else exponent_text (digits_text l) X) <= P + 5) by lia.
  destruct ((-4 <=? X)%Z && (X <? 16)%Z) eqn:Bx.
  - apply andb_true_iff in Bx. destruct Bx as [B1 B2]. apply Z.leb_le in B1. apply Z.ltb_lt in B2. unfold fixed_text.
    destruct (Z.leb_spec 0 X) as [X0|X0].
    + rewrite digits_text_length. destruct (Nat.leb_spec (length l) (Z.to_nat (X + 1))) as [L|L].
      * rewrite !app_length, digits_text_length, repeat_length. cbn [length lit list_ascii_of_string]. lia.
      * rewrite app_length. cbn [length]. rewrite firstn_length, skipn_length, digits_text_length. lia.
    + rewrite !app_length, digits_text_length. unfold zeros. rewrite repeat_length. cbn [length lit list_ascii_of_string]. lia.
  - unfold exponent_text. rewrite !app_length. cbn [length]. rewrite zfill_short by lia.
    destruct l as [|a [|b l]]; cbn [digits_text map firstn skipn length] in *; try lia. rewrite map_length. lia.
Qed.
