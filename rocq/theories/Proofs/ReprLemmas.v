(** Texts of floats read back. *)
From Coq Require Import String List Ascii NArith ZArith Bool Arith Reals Lia Lra Psatz.
From Coq Require Import Floats.SpecFloat.
From Flocq Require Import Core.Core IEEE754.BinarySingleNaN.
From Verif.Model Require Import Py PyFloat Repr.
From Verif.Spec Require Import Text Doubles.
From Verif.Proofs Require Import StrLemmas NumLemmas IntLemmas RoundLemmas.
Import ListNotations.
Local Open Scope list_scope.
Local Open Scope nat_scope.

(** ** Number of digits *)

Lemma value10_bound : forall ds, is_digits ds -> (value10 ds < 10 ^ N.of_nat (length ds))%N.
Proof.
  intros ds. induction ds as [|d ds IH] using rev_ind; intros D; [reflexivity|].
  apply Forall_app in D. destruct D as [D1 D2]. inversion D2; subst. specialize (IH D1).
  rewrite value10_snoc, app_length, Nat.add_1_r, Nat2N.inj_succ, N.pow_succ_r'. lia.
Qed.
Lemma value10_low : forall d ds, (0 < d)%N -> (10 ^ N.of_nat (length ds) <= value10 (d :: ds))%N.
Proof.
  intros d ds H. induction ds as [|x ds IH] using rev_ind.
  - unfold value10. cbn. lia.
  - rewrite app_comm_cons, value10_snoc, app_length, Nat.add_1_r, Nat2N.inj_succ, N.pow_succ_r'. lia.
Qed.

Lemma n_digits_head : forall fuel n acc, (0 < n)%N -> (n < 2 ^ N.of_nat fuel)%N -> 0 < fuel ->
  exists d ds, n_digits_aux fuel n acc = digits_text (d :: ds) ++ acc /\ is_digits (d :: ds) /\ (0 < d)%N /\ value10 (d :: ds) = n.
Proof.
  induction fuel as [|fuel IH]; intros n acc Hn Hb Hf; [lia|]. cbn [n_digits_aux].
  assert (Hmod : (n mod 10 < 10)%N) by (apply N.mod_lt; lia).
  assert (DM : n = (10 * (n / 10) + n mod 10)%N) by (apply N.div_mod; discriminate).
  destruct (N.eqb_spec (n / 10) 0) as [E|E].
  - exists (n mod 10)%N, []. rewrite E in DM. split; [reflexivity|]. split; [constructor; [exact Hmod|constructor]|].
    unfold value10. cbn [fold_left]. lia.
  - assert (Hq : (n / 10 < 2 ^ N.of_nat fuel)%N).
    { apply N.div_lt_upper_bound; [lia|]. rewrite Nat2N.inj_succ, N.pow_succ_r' in Hb. lia. }
    assert (Hf' : 0 < fuel).
    { destruct fuel; [|lia]. change (2 ^ N.of_nat 0)%N with 1%N in Hq. exfalso. apply E. now apply N.lt_1_r. }
    destruct (IH (n / 10)%N (dig_chr (n mod 10) :: acc) ltac:(lia) Hq Hf') as (d & ds & E1 & D & P & V).
    exists d, (ds ++ [n mod 10]%N). split; [|split; [|split; [exact P|]]].
    + rewrite E1, app_comm_cons, digits_text_app, <- app_assoc. reflexivity.
    + rewrite app_comm_cons. apply Forall_app. split; [exact D|]. constructor; [exact Hmod|constructor].
    + rewrite app_comm_cons, value10_snoc, V. lia.
Qed.

Lemma n_to_str_head : forall n, (0 < n)%N ->
  exists d ds, n_to_str n = digits_text (d :: ds) /\ is_digits (d :: ds) /\ (0 < d)%N /\ value10 (d :: ds) = n.
Proof.
  intros n H. unfold n_to_str. destruct (n_digits_head _ n [] H (size_nat_bound n) ltac:(lia)) as (d & ds & E & R).
  rewrite app_nil_r in E. eauto.
Qed.

Lemma digit_count_bounds : forall n, (0 < n)%Z -> (1 <= digit_count n /\ 10 ^ (digit_count n - 1) <= n < 10 ^ digit_count n)%Z.
Proof.
  intros n H. unfold digit_count. destruct (n_to_str_head (Z.to_N n) ltac:(lia)) as (d & ds & E & D & P & V).
  rewrite E. unfold digits_text. rewrite map_length. cbn [length].
  pose proof (value10_bound _ D) as B. pose proof (value10_low d ds P) as L. rewrite V in B, L. cbn [length] in B.
  assert (Q : forall k, Z.of_N (10 ^ N.of_nat k) = (10 ^ Z.of_nat k)%Z) by (intros k; rewrite N2Z.inj_pow, nat_N_Z; reflexivity).
  split; [lia|]. replace (Z.of_nat (S (length ds)) - 1)%Z with (Z.of_nat (length ds)) by lia.
  rewrite <- !Q. split; lia.
Qed.

(** ** Decimal exponents *)

Definition ratio (num den : Z) : R := (IZR num / IZR den)%R.

Lemma p10_pos : forall k, (0 < powerRZ 10 k)%R.
Proof. intros k. apply powerRZ_lt. lra. Qed.
Lemma p10_plus : forall a b, powerRZ 10 (a + b) = (powerRZ 10 a * powerRZ 10 b)%R.
Proof. intros. apply powerRZ_add. lra. Qed.
Lemma p10_minus : forall a b, powerRZ 10 (a - b) = (powerRZ 10 a / powerRZ 10 b)%R.
Proof. intros. unfold Z.sub, Rdiv. rewrite p10_plus, powerRZ10_opp. reflexivity. Qed.

Lemma exponent10_spec : forall num den, (0 < num)%Z -> (0 < den)%Z ->
  (powerRZ 10 (exponent10 num den) <= ratio num den < powerRZ 10 (exponent10 num den + 1))%R.
Proof.
  intros num den Hn Hd. unfold exponent10, ratio.
  assert (Rn : (0 < IZR num)%R) by (apply IZR_lt; exact Hn).
  assert (Rd : (0 < IZR den)%R) by (apply IZR_lt; exact Hd).
  destruct (Z.leb_spec den num) as [L|L].
  - assert (Q : (0 < num / den)%Z) by (apply Z.div_str_pos; lia).
    destruct (digit_count_bounds _ Q) as (C & Lo & Hi).
    pose proof (Z.div_mod num den ltac:(lia)) as DM. pose proof (Z.mod_pos_bound num den Hd) as MB.
    set (l := digit_count (num / den)) in *.
    replace (l - 1 + 1)%Z with l by ring. split.
    + apply Rmult_le_reg_r with (IZR den); [exact Rd|]. unfold Rdiv. rewrite Rmult_assoc, Rinv_l, Rmult_1_r by lra.
      rewrite <- IZR_powerRZ10 by lia. rewrite <- mult_IZR. apply IZR_le. nia.
    + apply Rmult_lt_reg_r with (IZR den); [exact Rd|]. unfold Rdiv. rewrite Rmult_assoc, Rinv_l, Rmult_1_r by lra.
      rewrite <- IZR_powerRZ10 by lia. rewrite <- mult_IZR. apply IZR_lt. nia.
  - assert (Q : (0 < den / num)%Z) by (apply Z.div_str_pos; lia).
    destruct (digit_count_bounds _ Q) as (C & Lo & Hi).
    pose proof (Z.div_mod den num ltac:(lia)) as DM. pose proof (Z.mod_pos_bound den num Hn) as MB.
    set (l := digit_count (den / num)) in *.
    assert (A : forall x y, (x * y = 1)%R -> (0 < y)%R -> (IZR den <= IZR num * y)%R -> (x <= IZR num / IZR den)%R).
    { intros x y XY Y H. assert (X : x = (/ y)%R) by (apply Rmult_eq_reg_r with y; [rewrite XY, Rinv_l; lra|lra]).
      rewrite X. apply Rmult_le_reg_r with (IZR den * y)%R; [apply Rmult_lt_0_compat; assumption|].
      replace (/ y * (IZR den * y))%R with (IZR den) by (field; lra).
      replace (IZR num / IZR den * (IZR den * y))%R with (IZR num * y)%R by (field; lra). exact H. }
    assert (B : forall x y, (x * y = 1)%R -> (0 < y)%R -> (IZR num * y < IZR den)%R -> (IZR num / IZR den < x)%R).
    { intros x y XY Y H. assert (X : x = (/ y)%R) by (apply Rmult_eq_reg_r with y; [rewrite XY, Rinv_l; lra|lra]).
      rewrite X. apply Rmult_lt_reg_r with (IZR den * y)%R; [apply Rmult_lt_0_compat; assumption|].
      replace (/ y * (IZR den * y))%R with (IZR den) by (field; lra).
      replace (IZR num / IZR den * (IZR den * y))%R with (IZR num * y)%R by (field; lra). exact H. }
    assert (One : forall k, (powerRZ 10 (- k) * powerRZ 10 k = 1)%R).
    { intros k. rewrite <- p10_plus. replace (- k + k)%Z with 0%Z by ring. reflexivity. }
    destruct (Z.leb_spec den (num * 10 ^ (l - 1))) as [K|K].
    + replace (1 - l)%Z with (- (l - 1))%Z by ring. split.
      * apply (A _ _ (One (l - 1)%Z) (p10_pos _)). rewrite <- IZR_powerRZ10 by lia. rewrite <- mult_IZR. apply IZR_le. lia.
      * replace (- (l - 1) + 1)%Z with (- (l - 2))%Z by ring. apply (B _ _ (One (l - 2)%Z) (p10_pos _)).
        destruct (Z.eq_dec l 1) as [l1|l1].
        -- rewrite l1. replace (powerRZ 10 (1 - 2)) with (1 / 10)%R by (change (1 - 2)%Z with (-1)%Z; unfold powerRZ; simpl; field).
           apply IZR_lt in L. lra.
        -- rewrite <- IZR_powerRZ10 by lia. rewrite <- mult_IZR. apply IZR_lt.
           replace (l - 1)%Z with (Z.succ (l - 2)) in Lo by lia. rewrite Z.pow_succ_r in Lo by lia.
           assert (0 < 10 ^ (l - 2))%Z by (apply Z.pow_pos_nonneg; lia). nia.
    + split.
      * apply (A _ _ (One l) (p10_pos _)). rewrite <- IZR_powerRZ10 by lia. rewrite <- mult_IZR. apply IZR_le. nia.
      * replace (- l + 1)%Z with (- (l - 1))%Z by ring. apply (B _ _ (One (l - 1)%Z) (p10_pos _)).
        rewrite <- IZR_powerRZ10 by lia. rewrite <- mult_IZR. apply IZR_lt. exact K.
Qed.

(** ** Neighbours *)

Lemma scaled_spec : forall num den k, (0 < num)%Z -> (0 < den)%Z ->
  (0 < fst (scaled num den k))%Z /\ (0 < snd (scaled num den k))%Z /\
  ratio num den = (ratio (fst (scaled num den k)) (snd (scaled num den k)) * powerRZ 10 k)%R.
Proof.
  intros num den k Hn Hd. unfold scaled, ratio.
  assert (Rn : (0 < IZR num)%R) by (apply IZR_lt; exact Hn).
  assert (Rd : (0 < IZR den)%R) by (apply IZR_lt; exact Hd). pose proof (p10_pos k) as P.
  destruct (Z.leb_spec 0 k) as [L|L]; cbn [fst snd].
  - assert (0 < 10 ^ k)%Z by (apply Z.pow_pos_nonneg; lia). split; [lia|]. split; [lia|].
    rewrite mult_IZR, IZR_powerRZ10 by exact L. field. lra.
  - assert (0 < 10 ^ (- k))%Z by (apply Z.pow_pos_nonneg; lia). split; [lia|]. split; [lia|].
    rewrite mult_IZR, IZR_powerRZ10 by lia. rewrite powerRZ10_opp. field. lra.
Qed.

Lemma around_spec : forall num den k, (0 < num)%Z -> (0 < den)%Z ->
  (0 <= fst (around num den k))%Z /\
  (Rabs (IZR (fst (around num den k)) * powerRZ 10 k - ratio num den) <= powerRZ 10 k / 2)%R.
Proof.
  intros num den k Hn Hd. destruct (scaled_spec num den k Hn Hd) as (A & B & C). unfold around.
  destruct (scaled num den k) as [n d]. cbn [fst snd] in *. rewrite C.
  pose proof (Z.div_mod n d ltac:(lia)) as DM. pose proof (Z.mod_pos_bound n d B) as MB.
  assert (Q : (0 <= n / d)%Z) by (apply Z.div_pos; lia).
  set (q := (n / d)%Z) in *. set (r := (n mod d)%Z) in *.
  assert (V : ratio n d = (IZR q + IZR r / IZR d)%R).
  { unfold ratio. rewrite DM, plus_IZR, mult_IZR. field. apply IZR_lt in B. lra. }
  pose proof (p10_pos k) as P. apply IZR_lt in B.
  assert (G : forall c, (0 <= c)%Z -> (Rabs (IZR c - ratio n d) <= / 2)%R ->
              (0 <= c)%Z /\ (Rabs (IZR c * powerRZ 10 k - ratio n d * powerRZ 10 k) <= powerRZ 10 k / 2)%R).
  { intros c Hc H. split; [exact Hc|]. rewrite <- Rmult_minus_distr_r, Rabs_mult, (Rabs_pos_eq (powerRZ 10 k)) by lra. nra. }
  assert (R0 : (0 <= IZR r / IZR d)%R) by (apply Rmult_le_pos; [apply IZR_le; lia|left; apply Rinv_0_lt_compat, B]).
  assert (R1 : (IZR r / IZR d <= 1)%R).
  { apply Rmult_le_reg_r with (IZR d); [exact B|]. unfold Rdiv. rewrite Rmult_assoc, Rinv_l by lra.
    rewrite Rmult_1_l, Rmult_1_r. apply IZR_le. lia. }
  assert (T : forall a b, (a = b * (IZR d))%R -> (a / IZR d = b)%R) by (intros a b ->; field; lra).
  assert (Lo : (2 * r <= d)%Z -> (IZR r / IZR d <= / 2)%R).
  { intros H. apply Rmult_le_reg_r with (IZR d); [exact B|]. unfold Rdiv. rewrite Rmult_assoc, Rinv_l, Rmult_1_r by lra.
    apply IZR_le in H. rewrite mult_IZR in H. lra. }
  assert (Hi : (d <= 2 * r)%Z -> (/ 2 <= IZR r / IZR d)%R).
  { intros H. apply Rmult_le_reg_r with (IZR d); [exact B|]. unfold Rdiv. rewrite Rmult_assoc, Rinv_l, Rmult_1_r by lra.
    apply IZR_le in H. rewrite mult_IZR in H. lra. }
  assert (Dn : (2 * r <= d)%Z -> (Rabs (IZR q - ratio n d) <= / 2)%R).
  { intros H. apply Lo in H. rewrite V. apply Rabs_le. lra. }
  assert (Up : (d <= 2 * r)%Z -> (Rabs (IZR (q + 1) - ratio n d) <= / 2)%R).
  { intros H. apply Hi in H. rewrite V, plus_IZR. apply Rabs_le. lra. }
  destruct (Z.compare_spec (2 * r) d); [destruct (Z.even q)| |]; cbn [fst]; apply G; try lia; first [apply Dn|apply Up]; lia.
Qed.

(** ** Seventeen digits are enough *)

Lemma p53 : (bpow radix2 53 <= powerRZ 10 16)%R.
Proof.
  change (bpow radix2 53) with (IZR (2 ^ 53)). rewrite <- IZR_powerRZ10 by lia. apply IZR_le. lia.
Qed.

Lemma scale_small : forall x k, (0 <= x <= bpow radix2 (k + 53))%R -> (x / powerRZ 10 16 <= bpow radix2 k)%R.
Proof.
  intros x k [P H]. rewrite bpow_plus in H. pose proof p53 as B. pose proof (bpow_gt_0 radix2 k) as K.
  pose proof (p10_pos 16) as T. apply Rmult_le_reg_r with (powerRZ 10 16); [exact T|].
  unfold Rdiv. rewrite Rmult_assoc, Rinv_l, Rmult_1_r by lra.
  apply Rle_trans with (1 := H). apply Rmult_le_compat_l; [lra|exact B].
Qed.

Lemma fexp_low : forall k, (k - 53 <= SpecFloat.fexp fprec femax k)%Z.
Proof. intros k. unfold SpecFloat.fexp, fprec. lia. Qed.

Lemma near_round : forall x D, form x -> (0 < x)%R -> (Rabs (D - x) < x / powerRZ 10 16 / 2)%R -> rnd D = x.
Proof.
  intros x D F P H. apply Rabs_def2 in H. destruct H as [Hu Hl].
  assert (Hm : (x < bpow radix2 (mag radix2 x))%R).
  { rewrite <- (Rabs_pos_eq x) at 1 by lra. apply bpow_mag_gt. }
  apply Rle_antisym.
  - apply round_N_le_midp; try typeclasses eauto; [exact F|]. rewrite succ_eq_pos by lra. rewrite ulp_neq_0 by lra.
    unfold cexp. pose proof (bpow_le radix2 _ _ (fexp_low (mag radix2 x))) as U.
    assert (S : (x / powerRZ 10 16 <= bpow radix2 (mag radix2 x - 53))%R).
    { apply scale_small. replace (mag radix2 x - 53 + 53)%Z with (mag radix2 x : Z) by ring. lra. }
    lra.
  - apply round_N_ge_midp; try typeclasses eauto; [exact F|]. rewrite pred_eq_pos by lra. unfold pred_pos.
    destruct (Req_bool_spec x (bpow radix2 (mag radix2 x - 1))) as [E|E].
    + assert (S : (x / powerRZ 10 16 <= bpow radix2 (mag radix2 x - 1 - 53))%R).
      { apply scale_small. replace (mag radix2 x - 1 - 53 + 53)%Z with (mag radix2 x - 1)%Z by ring. lra. }
      pose proof (bpow_le radix2 _ _ (fexp_low (mag radix2 x - 1))) as U. lra.
    + rewrite ulp_neq_0 by lra. unfold cexp. pose proof (bpow_le radix2 _ _ (fexp_low (mag radix2 x))) as U.
      assert (S : (x / powerRZ 10 16 <= bpow radix2 (mag radix2 x - 53))%R).
      { apply scale_small. replace (mag radix2 x - 53 + 53)%Z with (mag radix2 x : Z) by ring. lra. }
      lra.
Qed.

Lemma float_ratio_pos : forall m e, (0 < fst (float_ratio m e))%Z /\ (0 < snd (float_ratio m e))%Z.
Proof.
  intros m e. unfold float_ratio. destruct (Z.leb_spec 0 e); cbn [fst snd].
  - split; [|lia]. assert (0 < 2 ^ e)%Z by (apply Z.pow_pos_nonneg; lia). lia.
  - split; [lia|]. apply Z.pow_pos_nonneg; lia.
Qed.
Lemma IZR_powerRZ2 : forall e, (0 <= e)%Z -> IZR (2 ^ e) = powerRZ 2 e.
Proof. intros e H. rewrite powerRZ_bpow, <- IZR_Zpower by exact H. reflexivity. Qed.
Lemma float_ratio_value : forall m e, ratio (fst (float_ratio m e)) (snd (float_ratio m e)) = float_value (S754_finite false m e).
Proof.
  intros m e. unfold float_ratio, ratio, float_value. destruct (Z.leb_spec 0 e); cbn [fst snd].
  - rewrite mult_IZR, IZR_powerRZ2 by lia. field.
  - rewrite IZR_powerRZ2 by lia. rewrite powerRZ_neg'. unfold Rdiv. rewrite Rinv_inv. ring.
Qed.

Lemma abs_value : forall s m e, float_value (S754_finite s m e) = ((if s then -1 else 1) * float_value (S754_finite false m e))%R.
Proof. intros [] m e; cbn [float_value]; ring. Qed.

Lemma near_reads : forall s m e c k, double (S754_finite s m e) -> (0 < c)%Z ->
  (Rabs (IZR c * powerRZ 10 k - float_value (S754_finite false m e)) < float_value (S754_finite false m e) / powerRZ 10 16 / 2)%R ->
  float_of_dec (mkDec s (Z.to_N c) k) = S754_finite s m e.
Proof.
  intros s m e c k D C H.
  assert (Fx : form (float_value (S754_finite false m e))) by (apply double_form; exact D).
  assert (P : (0 < float_value (S754_finite false m e))%R).
  { cbn [float_value]. rewrite powerRZ_bpow. pose proof (bpow_gt_0 radix2 e). assert (0 < IZR (Z.pos m))%R by (apply IZR_lt; lia). nra. }
  pose proof (near_round _ _ Fx P H) as R.
  set (d := mkDec s (Z.to_N c) k).
  assert (Z : dman d <> 0%N) by (cbn; lia).
  assert (V : dec_value d = ((if s then -1 else 1) * (IZR c * powerRZ 10 k))%R).
  { unfold dec_value, d. cbn [dneg dman dexp]. rewrite Z2N.id by lia. ring. }
  assert (RV : rnd (dec_value d) = float_value (S754_finite s m e)).
  { rewrite V, abs_value, <- R. destruct s.
    - replace (-1 * (IZR c * powerRZ 10 k))%R with (- (IZR c * powerRZ 10 k))%R by ring. rewrite round_NE_opp. ring.
    - rewrite !Rmult_1_l. reflexivity. }
  apply (rounded_unique (dec_value d) s); [apply (dec_rounded d), Z|].
  assert (Vx : valid_binary fprec femax (S754_finite s m e) = true) by (apply double_valid, D).
  split; [exact Vx|]. rewrite RV, value_SF2R.
  rewrite Rlt_bool_true; [split; [reflexivity|split; reflexivity]|].
  rewrite <- (B2R_SF2B fprec femax _ Vx). apply abs_B2R_lt_emax.
Qed.

Lemma near_pos : forall c v p, (0 < v)%R -> (0 < p)%R -> (p <= v)%R -> (0 <= c)%Z -> (Rabs (IZR c * p - v) <= p / 2)%R -> (0 < c)%Z.
Proof.
  intros c v p V P L C H. destruct (Z.eq_dec c 0) as [->|N]; [|lia]. exfalso.
  rewrite Rmult_0_l, Rminus_0_l, Rabs_Ropp, Rabs_pos_eq in H by lra. lra.
Qed.

Lemma numeral17 : forall s m e, double (S754_finite s m e) -> numeral s m e 17 <> None.
Proof.
  intros s m e D. unfold numeral. pose proof (float_ratio_pos m e) as [Pn Pd]. pose proof (float_ratio_value m e) as V.
  destruct (float_ratio m e) as [num den]. cbn [fst snd] in *.
  destruct (exponent10_spec num den Pn Pd) as [Lo Hi]. set (E := exponent10 num den) in *.
  replace (E - Z.of_nat 17 + 1)%Z with (E - 16)%Z by lia.
  destruct (around_spec num den (E - 16) Pn Pd) as [C A].
  destruct (around num den (E - 16)) as [c c']. cbn [fst] in *.
  rewrite V in *. set (v := float_value (S754_finite false m e)) in *.
  pose proof (p10_pos E) as PE. pose proof (p10_pos 16) as P16.
  assert (T : (powerRZ 10 (E - 16) = powerRZ 10 E / powerRZ 10 16)%R) by apply p10_minus.
  assert (PK : (0 < powerRZ 10 (E - 16))%R) by apply p10_pos.
  assert (One : (1 < powerRZ 10 16)%R) by (rewrite <- IZR_powerRZ10 by lia; apply IZR_lt; reflexivity).
  assert (Hb : (powerRZ 10 (E - 16) <= v / powerRZ 10 16)%R).
  { rewrite T. unfold Rdiv. apply Rmult_le_compat_r; [left; apply Rinv_0_lt_compat; lra|exact Lo]. }
  assert (Hv : (powerRZ 10 (E - 16) <= v)%R).
  { apply Rle_trans with (1 := Hb). apply Rmult_le_reg_r with (powerRZ 10 16); [lra|].
    unfold Rdiv. rewrite Rmult_assoc, Rinv_l by lra. nra. }
  assert (Cp : (0 < c)%Z) by (eapply near_pos; [|exact PK|exact Hv|exact C|exact A]; lra).
  (* strictly nearer: the value is not a power of ten divided by 2 *)
  assert (S : (Rabs (IZR c * powerRZ 10 (E - 16) - v) < v / powerRZ 10 16 / 2)%R \/
              (Rabs (IZR c * powerRZ 10 (E - 16) - v) = v / powerRZ 10 16 / 2)%R) by lra.
  destruct S as [S|S].
  - rewrite (near_reads s m e c (E - 16) D Cp S).
    replace (same_bits (S754_finite s m e) (S754_finite s m e)) with true; [discriminate|].
    cbn. rewrite eqb_reflx, Pos.eqb_refl, Z.eqb_refl. reflexivity.
  - (* then v = 10^E, a multiple of 10^(E-16) *)
    exfalso. assert (Eq : v = powerRZ 10 E).
    { apply Rle_antisym; [|exact Lo]. rewrite T in A. rewrite T in S. rewrite S in A.
      apply Rmult_le_reg_r with (/ powerRZ 10 16)%R; [apply Rinv_0_lt_compat; lra|]. unfold Rdiv in A. lra. }
    rewrite T in S. rewrite Eq in S.
    assert (W : (Rabs (IZR c - powerRZ 10 16) = / 2)%R).
    { apply Rmult_eq_reg_r with (powerRZ 10 E / powerRZ 10 16)%R; [|apply Rgt_not_eq, Rdiv_lt_0_compat; lra].
      rewrite <- (Rabs_pos_eq (powerRZ 10 E / powerRZ 10 16)) at 1 by (left; apply Rdiv_lt_0_compat; lra).
      rewrite <- Rabs_mult. replace ((IZR c - powerRZ 10 16) * (powerRZ 10 E / powerRZ 10 16))%R
        with (IZR c * (powerRZ 10 E / powerRZ 10 16) - powerRZ 10 E)%R by (field; lra).
      rewrite S. field. lra. }
    rewrite <- IZR_powerRZ10, <- minus_IZR, <- abs_IZR in W by lia.
    assert (G : (2 * Z.abs (c - 10 ^ 16) = 1)%Z) by (apply eq_IZR; rewrite mult_IZR, W; field).
    lia.
Qed.

Lemma first_some_ok : forall (A B : Type) (f : A -> option B) l y, first_some f l = Some y -> exists x, In x l /\ f x = Some y.
Proof.
  induction l as [|x l IH]; cbn [first_some]; intros y H; [discriminate|].
  destruct (f x) eqn:E; [injection H as ->; exists x; split; [left; reflexivity|exact E]|].
  destruct (IH y H) as (z & I & F). exists z. split; [right; exact I|exact F].
Qed.
Lemma first_some_total : forall (A B : Type) (f : A -> option B) l x, In x l -> f x <> None -> first_some f l <> None.
Proof.
  induction l as [|x l IH]; cbn [first_some In]; intros y I H; [contradiction|].
  destruct (f x) eqn:E; [discriminate|]. destruct I as [->|I]; [congruence|exact (IH y I H)].
Qed.

Lemma same_bits_eq : forall x y, same_bits x y = true -> x = y.
Proof.
  intros [|[]| |s m e] [|[]| |s' m' e'] H; try discriminate. cbn in H.
  apply andb_true_iff in H. destruct H as [H H3]. apply andb_true_iff in H. destruct H as [H1 H2].
  apply eqb_prop in H1. apply Pos.eqb_eq in H2. apply Z.eqb_eq in H3. congruence.
Qed.

Lemma numeral_reads : forall s m e n d, numeral s m e n = Some d -> float_of_dec d = S754_finite s m e /\ dneg d = s /\ dman d <> 0%N.
Proof.
  intros s m e n d H. unfold numeral in H. destruct (float_ratio m e) as [num den].
  destruct (around num den (exponent10 num den - Z.of_nat n + 1)) as [c c'].
  assert (G : forall c k, same_bits (float_of_dec (mkDec s (Z.to_N c) k)) (S754_finite s m e) = true ->
     float_of_dec (mkDec s (Z.to_N c) k) = S754_finite s m e /\ dneg (mkDec s (Z.to_N c) k) = s /\ dman (mkDec s (Z.to_N c) k) <> 0%N).
  { intros b k B. apply same_bits_eq in B. split; [exact B|]. split; [reflexivity|]. intros Z.
    apply dec_zero in Z. destruct Z as [_ Z]. congruence. }
  destruct (same_bits _ _) eqn:E1 in H; [injection H as <-; apply G, E1|].
  destruct (same_bits _ _) eqn:E2 in H; [injection H as <-; apply G, E2|discriminate].
Qed.

Lemma shortest_reads : forall s m e, double (S754_finite s m e) ->
  exists d, shortest s m e = Some d /\ float_of_dec d = S754_finite s m e /\ dneg d = s /\ dman d <> 0%N.
Proof.
  intros s m e D. unfold shortest. destruct (first_some (numeral s m e) (seq 1 17)) as [d|] eqn:E.
  - exists d. split; [reflexivity|]. apply first_some_ok in E. destruct E as (n & _ & E). exact (numeral_reads _ _ _ _ _ E).
  - exfalso. revert E. apply (first_some_total _ _ _ _ 17); [apply in_seq; lia|apply numeral17, D].
Qed.

(** ** The notation *)

(** The characters of the texts of numbers. *)
Definition plain_char (c : ascii) : Prop := is_dig c = true \/ In c (lit ".e+-").
Lemma plain_not_space : forall c, plain_char c -> is_space c = false.
Proof.
  intros c [H|H].
  - destruct (dig_digit c H) as (d & Hd & ->). apply digit_not_space, Hd.
  - cbn in H. repeat (destruct H as [<-|H]; [reflexivity|]). contradiction.
Qed.
Lemma plain_not_underscore : forall s, Forall plain_char s -> ~ In "_"%char s.
Proof.
  intros s F I. rewrite Forall_forall in F. destruct (F _ I) as [H|H]; [discriminate|].
  cbn in H. repeat (destruct H as [H|H]; [discriminate|]). contradiction.
Qed.
Lemma plain_strip : forall s, Forall plain_char s -> num_strip s = s.
Proof.
  intros s F. apply num_strip_both, strip_id.
  - intros c t ->. inversion F; subst. apply plain_not_space. assumption.
  - intros t c ->. apply Forall_app in F. destruct F as [_ F]. inversion F; subst. apply plain_not_space. assumption.
Qed.

Lemma plain_digits : forall ds, is_digits ds -> Forall plain_char (digits_text ds).
Proof.
  intros ds D. unfold digits_text. apply Forall_map. eapply Forall_impl; [|exact D].
  intros d H. left. apply digit_is_dig, H.
Qed.

Lemma scan_e_sign : forall m ed, is_digits ed -> ed <> [] ->
  scan_exp ("e"%char :: exp_sign m :: digits_text ed) = Some (if m then - Z.of_N (value10 ed) else Z.of_N (value10 ed))%Z.
Proof. intros m ed H N. rewrite <- (scan_exp_sign m ed H N). reflexivity. Qed.

Definition sign_of (s : bool) : sign := if s then SMinus else SNone.
Lemma plain_mantissa : forall s ip fr, good_mantissa ip fr -> Forall plain_char (mantissa_text (sign_of s) ip fr).
Proof.
  intros s ip fr G. apply mantissa_forall; [exact G|right; cbn; tauto..|].
  intros d H. left. apply digit_is_dig, H.
Qed.

Lemma read_fixed : forall s ip fp, is_digits ip -> is_digits fp -> ip ++ fp <> [] ->
  float_of_str (mantissa_text (sign_of s) ip (Some fp)) =
  Some (float_of_dec (mkDec s (value10 (ip ++ fp)) (- Z.of_nat (length fp)))).
Proof.
  intros s ip fp Di Df N. assert (G : good_mantissa ip (Some fp)) by (split; [exact Di|split; [exact Df|exact N]]).
  pose proof (plain_mantissa s ip (Some fp) G) as P.
  rewrite (float_of_mantissa (sign_of s) ip (Some fp) []); [|exact G| | |].
  - destruct s; reflexivity.
  - rewrite app_nil_r. apply plain_strip, P.
  - rewrite app_nil_r. apply plain_not_underscore, P.
  - discriminate.
Qed.
Lemma read_exponent : forall s ip fr m ed, good_mantissa ip fr -> is_digits ed -> ed <> [] ->
  float_of_str (mantissa_text (sign_of s) ip fr ++ "e"%char :: exp_sign m :: digits_text ed) =
  Some (float_of_dec (mkDec s (value10 (ip ++ frac_digits fr))
     ((if m then - Z.of_N (value10 ed) else Z.of_N (value10 ed)) - Z.of_nat (length (frac_digits fr))))).
Proof.
  intros s ip fr m ed G He N.
  assert (P : Forall plain_char (mantissa_text (sign_of s) ip fr ++ "e"%char :: exp_sign m :: digits_text ed)).
  { apply Forall_app. split; [apply plain_mantissa, G|]. constructor; [right; cbn; tauto|].
    constructor; [right; destruct m; cbn; tauto|]. apply plain_digits, He. }
  rewrite (float_of_mantissa (sign_of s) ip fr ("e"%char :: exp_sign m :: digits_text ed)); [|exact G| | |].
  - rewrite scan_e_sign by assumption. destruct s; reflexivity.
  - apply plain_strip, P.
  - apply plain_not_underscore, P.
  - intros c u E. injection E as <- _. split; [reflexivity|discriminate].
Qed.

(** Trailing zeros *)
Lemma digit_zero : forall d, (d < 10)%N -> Ascii.eqb (digit_char d) "0"%char = (d =? 0)%N.
Proof. intros d H. apply digit_cases in H. cbn in H. repeat (destruct H as [<-|H]; [reflexivity|]). contradiction. Qed.

Lemma strip_zeros_digits : forall ds, is_digits ds -> exists l z, ds = l ++ repeat 0%N z /\ strip_zeros (digits_text ds) = digits_text l.
Proof.
  intros ds. induction ds as [|d ds IH] using rev_ind; intros D.
  - exists [], 0. split; reflexivity.
  - apply Forall_app in D. destruct D as [D1 D2]. inversion D2; subst. unfold strip_zeros.
    rewrite digits_text_app. cbn [digits_text map]. rewrite rev_app_distr. cbn [rev app drop_zeros].
    rewrite digit_zero by assumption. destruct (N.eqb_spec d 0) as [->|Nz].
    + destruct (IH D1) as (l & z & E & S). exists l, (z + 1). unfold strip_zeros in S. rewrite S. split; [|reflexivity].
      rewrite E at 1. rewrite repeat_app, app_assoc. reflexivity.
    + exists (ds ++ [d]), 0. split; [cbn; rewrite app_nil_r; reflexivity|].
      cbn [rev]. rewrite rev_involutive, digits_text_app. reflexivity.
Qed.

Lemma value10_trailing : forall l z, value10 (l ++ repeat 0%N z) = (value10 l * 10 ^ N.of_nat z)%N.
Proof.
  intros l z. induction z as [|z IH]; [cbn; rewrite app_nil_r; lia|].
  replace (S z) with (z + 1) by lia. rewrite repeat_app, app_assoc. cbn [repeat]. rewrite value10_snoc, IH.
  rewrite Nat.add_1_r, Nat2N.inj_succ, N.pow_succ_r'. lia.
Qed.

Lemma value10_IZR : forall l z, IZR (Z.of_N (value10 (l ++ repeat 0%N z))) = (IZR (Z.of_N (value10 l)) * powerRZ 10 (Z.of_nat z))%R.
Proof.
  intros l z. rewrite value10_trailing, N2Z.inj_mul, N2Z.inj_pow, nat_N_Z, mult_IZR, IZR_powerRZ10 by lia. reflexivity.
Qed.

Lemma digits_zeros : forall n, digits_text (repeat 0%N n) = repeat "0"%char n.
Proof. induction n; [reflexivity|]. cbn in *. f_equal. exact IHn. Qed.
Lemma is_digits_zeros : forall n, is_digits (repeat 0%N n).
Proof. intros n. apply Forall_forall. intros x H. apply repeat_spec in H. subst. reflexivity. Qed.
Lemma digits_text_length : forall l, length (digits_text l) = length l.
Proof. intros. apply map_length. Qed.
Lemma digits_firstn : forall n l, firstn n (digits_text l) = digits_text (firstn n l).
Proof. intros. unfold digits_text. apply firstn_map. Qed.
Lemma digits_skipn : forall n l, skipn n (digits_text l) = digits_text (skipn n l).
Proof. intros. unfold digits_text. apply skipn_map. Qed.
Lemma is_digits_firstn : forall n l, is_digits l -> is_digits (firstn n l).
Proof. intros n l H. unfold is_digits in *. rewrite <- (firstn_skipn n l) in H. apply Forall_app in H. apply H. Qed.
Lemma is_digits_skipn : forall n l, is_digits l -> is_digits (skipn n l).
Proof. intros n l H. unfold is_digits in *. rewrite <- (firstn_skipn n l) in H. apply Forall_app in H. apply H. Qed.

Lemma zfill_text : forall n, exists ed, zfill 2 (n_to_str n) = digits_text ed /\ is_digits ed /\ ed <> [] /\ value10 ed = n.
Proof.
  intros n. destruct (n_to_str_spec n) as (ds & E & D & N & V). rewrite E.
  destruct (le_lt_dec (length ds) 2) as [L|L].
  - rewrite zfill_digits by assumption. exists (repeat 0%N (2 - length ds) ++ ds). split; [reflexivity|].
    split; [apply Forall_app; split; [apply is_digits_zeros|exact D]|].
    split; [destruct ds; [contradiction|intros H; apply app_eq_nil in H; destruct H; discriminate]|].
    rewrite value10_zeros. exact V.
  - exists ds. split; [|split; [exact D|split; [exact N|exact V]]].
    unfold zfill. rewrite digits_text_length. replace (2 - length ds) with 0 by lia.
    destruct (digits_text ds) as [|c t]; [reflexivity|].
    destruct (Ascii.eqb c "+" || Ascii.eqb c "-")%char; reflexivity.
Qed.

(** What the digits of a numeral and the position of the first one mean *)
Lemma written : forall (s : bool) l x, is_digits l -> l <> [] -> value10 l <> 0%N ->
  exists d', float_of_str ((if s then lit "-" else []) ++
                 if ((-4 <=? x) && (x <? 16))%Z then fixed_text (digits_text l) x else exponent_text (digits_text l) x)
             = Some (float_of_dec d') /\ dneg d' = s /\ dman d' <> 0%N /\
             dec_value d' = ((if s then -1 else 1) * IZR (Z.of_N (value10 l)) * powerRZ 10 (x + 1 - Z.of_nat (length l)))%R.
Proof.
  intros s l x D N V.
  assert (Sg : (if s then lit "-" else ([] : list ascii)) = sign_text (sign_of s)) by (destruct s; reflexivity).
  rewrite Sg. destruct ((-4 <=? x) && (x <? 16))%Z.
  - unfold fixed_text. destruct (Z.leb_spec 0 x) as [X|X].
    + rewrite digits_text_length. set (n := Z.to_nat (x + 1)). destruct (Nat.leb_spec (length l) n) as [L|L].
      * exists (mkDec s (value10 ((l ++ repeat 0%N (n - length l)) ++ [0]%N)) (- Z.of_nat 1)).
        split; [|split; [reflexivity|split]].
        -- change (- Z.of_nat 1)%Z with (- Z.of_nat (length [0%N]))%Z. rewrite <- (read_fixed s (l ++ repeat 0%N (n - length l)) [0]%N).
           ++ unfold mantissa_text. rewrite digits_text_app, digits_zeros, <- app_assoc. reflexivity.
           ++ apply Forall_app. split; [exact D|apply is_digits_zeros].
           ++ constructor; [reflexivity|constructor].
           ++ destruct l; [contradiction|discriminate].
        -- cbn [dman]. rewrite value10_snoc, value10_trailing. 
           assert (10 ^ N.of_nat (n - length l) <> 0)%N by (apply N.pow_nonzero; discriminate). nia.
        -- unfold dec_value. cbn [dneg dman dexp]. 
           change [0%N] with (repeat 0%N 1). rewrite <- app_assoc, <- repeat_app, value10_IZR.
           rewrite !Rmult_assoc, <- p10_plus. do 3 f_equal. unfold n. lia.
      * exists (mkDec s (value10 (firstn n l ++ skipn n l)) (- Z.of_nat (length (skipn n l)))).
        split; [|split; [reflexivity|split]].
        -- rewrite <- (read_fixed s (firstn n l) (skipn n l)).
           ++ unfold mantissa_text. rewrite digits_firstn, digits_skipn. reflexivity.
           ++ apply is_digits_firstn, D.
           ++ apply is_digits_skipn, D.
           ++ rewrite firstn_skipn. exact N.
        -- cbn [dman]. rewrite firstn_skipn. exact V.
        -- unfold dec_value. cbn [dneg dman dexp]. rewrite firstn_skipn, skipn_length. do 2 f_equal. unfold n in *. lia.
    + unfold zeros. exists (mkDec s (value10 ([0]%N ++ (repeat 0%N (Z.to_nat (- x - 1)) ++ l)))
                   (- Z.of_nat (length (repeat 0%N (Z.to_nat (- x - 1)) ++ l)))).
      split; [|split; [reflexivity|]].
      * rewrite <- (read_fixed s [0]%N (repeat 0%N (Z.to_nat (- x - 1)) ++ l)).
        -- unfold mantissa_text. rewrite (digits_text_app (repeat 0%N (Z.to_nat (- x - 1)))), digits_zeros. reflexivity.
        -- constructor; [reflexivity|constructor].
        -- apply Forall_app. split; [apply is_digits_zeros|exact D].
        -- discriminate.
      * cbn [dman]. change [0%N] with (repeat 0%N 1). rewrite app_assoc, <- repeat_app.
        rewrite value10_zeros. split; [exact V|]. unfold dec_value. cbn [dneg dman dexp]. 
        rewrite app_length, repeat_length. do 2 f_equal. lia.
  - unfold exponent_text. destruct (zfill_text (Z.to_N (Z.abs x))) as (ed & Ee & De & Ne & Ve). rewrite Ee.
    destruct l as [|d l]; [contradiction|]. clear N. cbn [digits_text map firstn skipn].
    assert (Sx : (if (x <? 0)%Z then "-"%char else "+"%char) = exp_sign (x <? 0)%Z) by (destruct (x <? 0)%Z; reflexivity).
    rewrite Sx. fold (digits_text l).
    set (fr := match l with [] => None | _ => Some l end).
    assert (Fr : frac_digits fr = l) by (destruct l; reflexivity).
    assert (Hd : (d < 10)%N /\ is_digits l) by (inversion D; split; assumption). destruct Hd as [Hd Hl].
    assert (G : good_mantissa [d] fr).
    { split; [constructor; [assumption|constructor]|]. rewrite Fr. split; [assumption|discriminate]. }
    eexists. split; [|split; [|split]].
    + replace (sign_text (sign_of s) ++ [digit_char d] ++ match digits_text l with [] => [] | f => "."%char :: f end ++
               "e"%char :: exp_sign (x <? 0)%Z :: digits_text ed)
        with (mantissa_text (sign_of s) [d] fr ++ "e"%char :: exp_sign (x <? 0)%Z :: digits_text ed).
      * rewrite read_exponent by assumption. reflexivity.
      * unfold mantissa_text, fr. rewrite <- app_assoc. f_equal. destruct l; reflexivity.
    + reflexivity.
    + cbn [dman]. rewrite Fr. exact V.
    + unfold dec_value. cbn [dneg dman dexp]. rewrite Fr. cbn [app length]. rewrite Ve, Z2N.id by lia.
      do 2 f_equal. destruct (Z.ltb_spec x 0); lia.
Qed.

Lemma dec_text_reads : forall d, dman d <> 0%N -> float_of_str (dec_text d) = Some (float_of_dec d).
Proof.
  intros d H. unfold dec_text. destruct (n_to_str_spec (dman d)) as (ds & E & D & N & V). rewrite E, digits_text_length.
  destruct (strip_zeros_digits ds D) as (l & z & El & S). rewrite S.
  assert (Dl : is_digits l) by (rewrite El in D; apply Forall_app in D; apply D).
  assert (Vl : value10 l <> 0%N).
  { intros Z. rewrite El, value10_trailing, Z in V. cbn in V. congruence. }
  assert (Nl : l <> []) by (intros ->; apply Vl; reflexivity).
  destruct (written (dneg d) l (Z.of_nat (length ds) - 1 + dexp d) Dl Nl Vl) as (d' & R & Sg & Nz & Val).
  rewrite R. f_equal. apply same_value; [exact Sg| |exact Nz|exact H].
  rewrite Val. unfold dec_value. rewrite <- V, El, value10_IZR, !Rmult_assoc, <- p10_plus. do 3 f_equal.
  rewrite app_length, repeat_length. lia.
Qed.

(** [float(repr(x)) = x] *)
Lemma repr_reads : forall x, double x -> float_of_str (repr_float x) = Some x.
Proof.
  intros [s|s| |s m e] D; cbn [repr_float]; try (destruct s; reflexivity); [reflexivity|].
  destruct (shortest_reads s m e D) as (d & -> & R & _ & N). rewrite dec_text_reads by exact N. congruence.
Qed.
