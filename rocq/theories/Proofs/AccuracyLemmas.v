(** Rounding errors of unit conversions and of the uncertainties of cross sections. *)
From Coq Require Import String List Ascii NArith ZArith Reals Bool Lia Lra Psatz.
From Coq Require Import Floats.SpecFloat.
From Flocq Require Import Core.Core.
From Verif.Model Require Import Py PyFloat Utilities Columns.
From Verif.Spec Require Import Text Exfor Tables DataSets Doubles Document Accuracy.
From Verif.Proofs Require Import RoundLemmas NearestLemmas DigitLemmas ArithLemmas.
Import ListNotations.
Local Open Scope R_scope.

Definition u : R := / 9007199254740992.
Lemma u_power : powerRZ 2 (-53) = u.
Proof. unfold u. rewrite powerRZ_bpow. cbn [bpow]. reflexivity. Qed.

(** ** Relative errors *)

Definition rel (a x r : R) : Prop := Rabs (x - r) <= a * Rabs r.

Lemma rel_mul : forall a b x y r s, 0 <= a -> 0 <= b -> rel a x r -> rel b y s -> rel (a + b + a * b) (x * y) (r * s).
Proof.
  unfold rel. intros a b x y r s A B X Y. replace (x * y - r * s) with ((x - r) * s + r * (y - s) + (x - r) * (y - s)) by ring.
  rewrite Rabs_mult.
  eapply Rle_trans; [apply Rabs_triang|]. eapply Rle_trans; [apply Rplus_le_compat_r, Rabs_triang|]. rewrite !Rabs_mult.
  pose proof (Rabs_pos r). pose proof (Rabs_pos s). pose proof (Rabs_pos (x - r)). pose proof (Rabs_pos (y - s)).
  assert (Rabs (x - r) * Rabs s <= a * Rabs r * Rabs s) by (apply Rmult_le_compat_r; lra).
  assert (Rabs r * Rabs (y - s) <= Rabs r * (b * Rabs s)) by (apply Rmult_le_compat_l; lra).
  assert (Rabs (x - r) * Rabs (y - s) <= (a * Rabs r) * (b * Rabs s)) by (apply Rmult_le_compat; lra). lra.
Qed.
Lemma rel_trans : forall a b x y r, 0 <= a -> 0 <= b -> rel a x r -> rel b y x -> rel (a + b + a * b) y r.
Proof.
  unfold rel. intros a b x y r A B X Y. replace (y - r) with ((y - x) + (x - r)) by ring. eapply Rle_trans; [apply Rabs_triang|].
  assert (Rabs x <= (1 + a) * Rabs r).
  { replace x with (r + (x - r)) by ring. eapply Rle_trans; [apply Rabs_triang|]. lra. }
  assert (b * Rabs x <= b * ((1 + a) * Rabs r)) by (apply Rmult_le_compat_l; assumption). lra.
Qed.
Lemma rel_weaken : forall a b x r, a <= b -> rel a x r -> rel b x r.
Proof. unfold rel. intros a b x r H X. pose proof (Rabs_pos r). assert (a * Rabs r <= b * Rabs r) by (apply Rmult_le_compat_r; assumption). lra. Qed.
Lemma rel_abs : forall a x r, rel a x r -> rel a (Rabs x) (Rabs r).
Proof. unfold rel. intros a x r H. rewrite Rabs_Rabsolu. eapply Rle_trans; [apply Rabs_triang_inv2|exact H]. Qed.
Lemma rel_scale : forall a x r c, rel a x r -> rel a (x * c) (r * c).
Proof.
  unfold rel. intros a x r c H. rewrite <- Rmult_minus_distr_r, !Rabs_mult, <- Rmult_assoc.
  apply Rmult_le_compat_r; [apply Rabs_pos|exact H].
Qed.

(** ** Magnitudes *)

Definition mag (lo hi : Z) (r : R) : Prop := r = 0 \/ powerRZ 10 lo <= Rabs r <= powerRZ 10 hi.
Lemma p10_pos : forall e, 0 < powerRZ 10 e. Proof. intros e. apply powerRZ_lt. lra. Qed.
Lemma p10_plus : forall a b, powerRZ 10 (a + b) = powerRZ 10 a * powerRZ 10 b. Proof. intros. apply powerRZ_add. lra. Qed.

Lemma mag_weaken : forall lo hi lo' hi' r, (lo' <= lo)%Z -> (hi <= hi')%Z -> mag lo hi r -> mag lo' hi' r.
Proof. intros lo hi lo' hi' r A B [H|H]; [now left|right]. apply p10_le in A, B. lra. Qed.
Lemma mag_mul : forall lo hi lo' hi' r s, mag lo hi r -> mag lo' hi' s -> mag (lo + lo') (hi + hi') (r * s).
Proof.
  intros lo hi lo' hi' r s [->|R] [->|S]; try (left; ring). right. rewrite Rabs_mult, !p10_plus.
  pose proof (p10_pos lo). pose proof (p10_pos lo'). split; apply Rmult_le_compat; lra.
Qed.
Lemma mag_rel : forall lo hi a x r, 0 <= a <= / 2 -> rel a x r -> mag lo hi r -> mag (lo - 1) (hi + 1) x.
Proof.
  intros lo hi a x r A X [->|R].
  - left. unfold rel in X. rewrite Rabs_R0, Rmult_0_r, Rminus_0_r in X. destruct (Req_dec x 0) as [E|E]; [exact E|]. apply Rabs_pos_lt in E. lra.
  - right. unfold rel in X. replace (lo - 1)%Z with (lo + -1)%Z by ring. rewrite !p10_plus.
    change (powerRZ 10 (-1)) with (/ (10 * 1)). change (powerRZ 10 1) with (10 * 1).
    pose proof (p10_pos lo). pose proof (p10_pos hi). pose proof (Rabs_pos r).
    assert (a * Rabs r <= / 2 * Rabs r) by (apply Rmult_le_compat_r; lra).
    assert (Rabs x <= Rabs r + Rabs (x - r)) by (replace x with (r + (x - r)) at 1 by ring; apply Rabs_triang).
    assert (Rabs r <= Rabs x + Rabs (x - r)).
    { replace r with (x - (x - r)) at 1 by ring. eapply Rle_trans; [apply Rabs_triang|]. rewrite Rabs_Ropp. lra. }
    split; lra.
Qed.

Lemma small_enough : forall hi r, mag (-300) hi r -> r = 0 \/ powerRZ 2 (-1022) <= Rabs r.
Proof.
  intros hi r [H|H]; [now left|right]. eapply Rle_trans; [|exact (proj1 H)].
  change (-1022)%Z with (- (1022))%Z. change (-300)%Z with (- (300))%Z. rewrite powerRZ10_opp. rewrite powerRZ_bpow, bpow_opp.
  apply Rinv_le_contravar; [apply p10_pos|]. rewrite <- IZR_powerRZ10 by lia. rewrite <- IZR_Zpower by lia.
  apply IZR_le. apply Z.leb_le. vm_compute. reflexivity.
Qed.
Lemma no_overflow : forall lo r, mag lo 300 r -> Rabs r < overflow.
Proof.
  intros lo r H. assert (B : Rabs r <= powerRZ 10 300) by (destruct H as [->|H]; [rewrite Rabs_R0; apply Rlt_le, p10_pos|lra]).
  eapply Rle_lt_trans; [exact B|]. unfold overflow. rewrite <- IZR_powerRZ10 by lia. rewrite !powerRZ_bpow, <- !IZR_Zpower by lia.
  rewrite <- minus_IZR. apply IZR_lt. apply Z.ltb_lt. vm_compute. reflexivity.
Qed.

(** ** Numbers that come from a number, with an error *)

Definition near (a : R) (lo hi : Z) (x : float) (r : R) : Prop := double x /\ finite x /\ rel a (float_value x) r /\ mag lo hi r.

Lemma near_rounds : forall a lo hi z x r, 0 <= a <= / 4 -> (-299 <= lo)%Z -> (hi <= 299)%Z -> rel a x r -> mag lo hi r ->
  (Rabs x < overflow -> rounds x z) -> near (a + u + a * u) lo hi z r.
Proof.
  intros a lo hi z x r A L H X M R. assert (M' : mag (-300) 300 x).
  { eapply mag_weaken; [| |eapply mag_rel; [|exact X|exact M]]; try lia. lra. }
  specialize (R (no_overflow _ _ M')). destruct R as (D & F & V) eqn:E. clear E.
  split; [exact D|]. split; [exact F|]. split; [|exact M].
  assert (0 < u) by (unfold u; lra).
  apply (rel_trans a u x (float_value z) r); [lra|lra|exact X|]. unfold rel. rewrite <- u_power. apply rounds_close; [split; [exact D|split; [exact F|exact V]]|].
  apply (small_enough 300). exact M'.
Qed.

Lemma near_dec : forall d lo hi, (-299 <= lo)%Z -> (hi <= 299)%Z -> mag lo hi (dec_value d) -> near u lo hi (float_of_dec d) (dec_value d).
Proof.
  intros d lo hi L H M.
  assert (G : near (0 + u + 0 * u) lo hi (float_of_dec d) (dec_value d)).
  { apply (near_rounds 0 lo hi _ (dec_value d)); try assumption; try lra.
    - unfold rel. replace (dec_value d - dec_value d) with 0 by ring. rewrite Rabs_R0. lra.
    - intros O. destruct (N.eq_dec (dman d) 0) as [Z|Z].
      + apply dec_zero in Z. destruct Z as [-> ->]. split; [exact I|]. split; [exact I|]. cbn [float_value].
        rewrite round_0 by typeclasses eauto. reflexivity.
      + apply dec_rounded in Z. destruct Z as [V Z]. apply fits in O. rewrite O in Z. destruct Z as (E & F & _).
        split; [apply double_valid, V|]. split; [apply finite_SF, F|]. rewrite value_SF2R. exact E. }
  replace (0 + u + 0 * u) with u in G by ring. exact G.
Qed.

Lemma near_mul : forall a b lo hi lo' hi' x y r s, 0 <= a -> 0 <= b -> a + b + a * b <= / 4 ->
  (-299 <= lo + lo')%Z -> (hi + hi' <= 299)%Z -> near a lo hi x r -> near b lo' hi' y s ->
  near (a + b + a * b + u + (a + b + a * b) * u) (lo + lo') (hi + hi') (fmul x y) (r * s).
Proof.
  intros a b lo hi lo' hi' x y r s A B C L H (Dx & Fx & X & Mx) (Dy & Fy & Y & My).
  assert (0 <= a * b) by (apply Rmult_le_pos; assumption).
  apply (near_rounds _ _ _ _ (float_value x * float_value y)); try assumption; try lra.
  - apply rel_mul; assumption.
  - apply mag_mul; assumption.
  - intros O. apply fmul_rounds; assumption.
Qed.

(** Multiplication by one and addition of zero change nothing. *)
Lemma near_exact : forall a lo hi x z r, near a lo hi x r -> (Rabs (float_value x) < overflow -> rounds (float_value x) z) ->
  0 <= a <= / 4 -> (-299 <= lo)%Z -> (hi <= 299)%Z -> near a lo hi z r.
Proof.
  intros a lo hi x z r (D & F & X & M) H A L U.
  assert (M' : mag (-300) 300 (float_value x)).
  { eapply mag_weaken; [| |eapply mag_rel; [|exact X|exact M]]; try lia. lra. }
  specialize (H (no_overflow _ _ M')). pose proof (rounds_exact _ _ H (double_form x D)) as E. destruct H as (Dz & Fz & _).
  split; [exact Dz|]. split; [exact Fz|]. rewrite E. split; assumption.
Qed.
Lemma near_one : forall a lo hi x r, near a lo hi x r -> 0 <= a <= / 4 -> (-299 <= lo)%Z -> (hi <= 299)%Z ->
  near a lo hi (fmul x (fl 1 0)) r.
Proof.
  intros a lo hi x r N A L U. apply (near_exact a lo hi x); try assumption. intros O. destruct N as (D & F & _).
  assert (V : float_value (fl 1 0) = 1) by (vm_compute; lra).
  replace (float_value x) with (float_value x * float_value (fl 1 0)) by (rewrite V; ring).
  apply fmul_rounds; try assumption; [vm_compute; intuition discriminate|exact I|]. rewrite V, Rmult_1_r. exact O.
Qed.
Lemma near_zero : forall a lo hi x r, near a lo hi x r -> 0 <= a <= / 4 -> (-299 <= lo)%Z -> (hi <= 299)%Z ->
  near a lo hi (fadd x (S754_zero false)) r.
Proof.
  intros a lo hi x r N A L U. apply (near_exact a lo hi x); try assumption. intros O. destruct N as (D & F & _).
  replace (float_value x) with (float_value x + float_value (S754_zero false)) by (cbn [float_value]; ring).
  apply fadd_rounds; try assumption; [exact I|exact I|]. cbn [float_value]. rewrite Rplus_0_r. exact O.
Qed.
Lemma near_weaken : forall a b lo hi x r, a <= b -> near a lo hi x r -> near b lo hi x r.
Proof. intros a b lo hi x r H (D & F & X & M). split; [exact D|]. split; [exact F|]. split; [eapply rel_weaken; eassumption|exact M]. Qed.

(** ** Cells *)

Definition close (a : R) (lo hi : Z) (x : option float) (r : option R) : Prop :=
  match x, r with
  | None, None => True
  | Some x, Some r => near a lo hi x r
  | _, _ => False
  end.

Lemma worth_near : forall un c f, In (un, c, f) unit_table -> near u (-9) 9 (fl (fst f) (snd f)) (worth_of f).
Proof.
  intros un c f I. assert (E : worth_of f = dec_value (mkDec false (fst f) (snd f))) by (unfold worth_of, dec_value; cbn [dneg dman dexp]; ring).
  rewrite E. apply near_dec; try lia. rewrite <- E. right. unfold worth_of.
  assert (G : fst f = 1%N /\ (-9 <= snd f <= 9)%Z).
  { cbn in I. repeat (destruct I as [I|I]; [injection I as <- <- <-; cbn; split; [reflexivity|lia]|]). contradiction. }
  destruct G as [-> [A B]]. rewrite Rmult_1_l, Rabs_pos_eq by apply Rlt_le, p10_pos. split; apply p10_le; assumption.
Qed.

Lemma u_pos : 0 < u. Proof. unfold u. lra. Qed.

Lemma in_unit_close : forall un c f x r, In (un, c, f) unit_table -> close u (-100) 100 x r ->
  close (7 / 2 * u) (-109) 109 (in_unit f x) (times f r).
Proof.
  intros un c f [x|] [r|] I H; try contradiction; [|exact Logic.I]. cbn [close in_unit times option_map]. cbn in H.
  pose proof (near_mul u u (-100) 100 (-9) 9 x (fl (fst f) (snd f)) r (worth_of f)) as N.
  assert (G : near (7 / 2 * u) (-109) 109 (fmul x (fl (fst f) (snd f))) (r * worth_of f)).
  { eapply near_weaken; [|apply N]; try lia; try (unfold u; lra); [exact H|eapply worth_near; exact I]. }
  apply near_zero; try lia; try (unfold u; lra). apply near_one; try lia; try (unfold u; lra). exact G.
Qed.
Lemma in_unit_exact : forall x r, close u (-100) 100 x r -> close u (-100) 100 (in_unit (1%N, 0%Z) x) r.
Proof.
  intros [x|] [r|] H; try contradiction; [|exact Logic.I]. cbn [close in_unit times option_map fst snd]. cbn in H.
  apply near_zero; try lia; try (unfold u; lra). apply near_one; try lia; try (unfold u; lra).
  apply near_one; try lia; try (unfold u; lra). exact H.
Qed.

Lemma percent_close : forall v p r q, close (7 / 2 * u) (-109) 109 v r -> close u (-100) 100 p q ->
  close (7 * u) (-211) 207 (percent v p) (match r, q with Some r, Some q => Some (r * q / 100) | _, _ => None end).
Proof.
  intros [v|] [p|] [r|] [q|] V P; try contradiction; try exact I. cbn [close percent] in *.
  assert (N : near (23 / 4 * u) (-209) 209 (fmul v p) (r * q)).
  { eapply near_weaken; [|apply (near_mul (7 / 2 * u) u (-109) 109 (-100) 100); try lia; try (unfold u; lra); assumption]. unfold u. lra. }
  destruct N as (D & F & X & M).
  assert (H : float_value (fl 100 0) = 100) by (vm_compute; lra).
  assert (S : near (23 / 4 * u + u + 23 / 4 * u * u) (-211) 207 (fdiv (fmul v p) (fl 100 0)) (r * q / 100)).
  { apply (near_rounds _ _ _ _ (float_value (fmul v p) / 100)); try lia; try (unfold u; lra).
    - apply rel_scale, X.
    - unfold Rdiv. change (-211)%Z with (-209 + -2)%Z. change 207%Z with (209 + -2)%Z. apply mag_mul; [exact M|].
      right. rewrite Rabs_pos_eq by lra. change (powerRZ 10 (-2)) with (/ (10 * (10 * 1))). split; lra.
    - intros O. rewrite <- H. apply fdiv_rounds; try assumption; [vm_compute; intuition discriminate|exact I|rewrite H; lra|rewrite H; exact O]. }
  eapply near_weaken; [|exact S]. unfold u. lra.
Qed.

Lemma fabs_value : forall x, finite x -> float_value (fabs x) = Rabs (float_value x).
Proof.
  intros [s|s| |s m e] F; try contradiction; cbn [fabs SFabs float_value]; [rewrite Rabs_R0; reflexivity|].
  assert (0 < powerRZ 2 e) by (apply powerRZ_lt; lra). assert (1 <= IZR (Z.pos m)) by (apply IZR_le; lia).
  destruct s; [|rewrite Rabs_pos_eq; nra]. rewrite Rabs_left; nra.
Qed.
Lemma magnitude_close : forall a lo hi x r, close a lo hi x r -> close a lo hi (magnitude x) (option_map Rabs r).
Proof.
  intros a lo hi [x|] [r|] H; try contradiction; [|exact I]. cbn [close magnitude option_map] in *. destruct H as (D & F & X & M).
  split; [destruct x; exact D|]. split; [destruct x; exact F|]. split; [rewrite fabs_value by exact F; apply rel_abs, X|].
  destruct M as [->|M]; [left; apply Rabs_R0|right; rewrite Rabs_Rabsolu; exact M].
Qed.

Lemma close_agrees : forall a lo hi n x r, (0 <= n <= 53)%Z -> a <= IZR (2 ^ (53 - n)) * u -> close a lo hi x r -> agrees n (as_cell x) r.
Proof.
  intros a lo hi n [x|] [r|] N A H; try contradiction; [|exact I]. destruct H as (_ & F & X & _). split; [exact F|].
  unfold rel in X. eapply Rle_trans; [exact X|]. apply Rmult_le_compat_r; [apply Rabs_pos|].
  eapply Rle_trans; [exact A|]. rewrite <- u_power. right. rewrite !powerRZ_bpow. change 2%Z with (radix_val radix2) at 1.
  rewrite IZR_Zpower by lia. rewrite <- bpow_plus. f_equal. ring.
Qed.

Lemma at_column_close : forall a lo hi xs rs j, Forall2 (close a lo hi) xs rs -> close a lo hi (at_column xs j) (real_at rs j).
Proof.
  intros a lo hi xs rs j F. unfold at_column, real_at. revert j. induction F as [|x r xs rs H F IH]; intros [|j]; cbn [nth_error]; try exact I; [exact H|apply IH].
Qed.

Lemma uncertainty_close : forall un c g b w xs rs, In (un, c, g) unit_table ->
  match w with Absolute _ m x => exists un c, In (un, c, (m, x)) unit_table | _ => True end ->
  Forall2 (close u (-100) 100) xs rs ->
  close (7 * u) (-211) 207 (uncertainty_of b g w xs) (real_uncertainty b g w rs).
Proof.
  intros un c g b w xs rs G W F. destruct w as [|j m x|j]; cbn [uncertainty_of real_uncertainty].
  - exact I.
  - destruct W as (un' & c' & W). apply magnitude_close.
    pose proof (in_unit_close _ _ _ _ _ W (at_column_close _ _ _ _ _ j F)) as C.
    destruct (in_unit (m, x) (at_column xs j)) as [y|], (times (m, x) (real_at rs j)) as [r|]; try contradiction; [|exact I].
    cbn [close] in *. eapply near_weaken with (a := 7 / 2 * u); [unfold u; lra|]. destruct C as (D & E & X & M).
    split; [exact D|]. split; [exact E|]. split; [exact X|]. eapply mag_weaken; [| |exact M]; lia.
  - pose proof (percent_close _ _ _ _ (in_unit_close _ _ _ _ _ G (at_column_close _ _ _ _ _ b F)) (in_unit_exact _ _ (at_column_close _ _ _ _ _ j F))) as C.
    apply magnitude_close in C. destruct (times g (real_at rs b)), (real_at rs j); exact C.
Qed.

(** ** Tables *)

Definition stands (x : option float) (r : option R) : Prop :=
  match x, r with
  | None, None => True
  | Some x, Some r => exists d, x = float_of_dec d /\ r = dec_value d
  | _, _ => False
  end.

Lemma text_number : forall t r, stands_for t r -> exists x, number_text t x /\ stands x r.
Proof.
  intros t [r|] H; cbn [stands_for] in H.
  - destruct H as [sg ip fr G|sg ip fr k minus ds G D Nn|sg ip fr k minus ds G D L].
    + exists (Some (decimal sg ip fr 0)). split; [apply number_plain, G|]. eexists. split; reflexivity.
    + exists (Some (decimal sg ip fr (exponent minus ds))). split; [apply number_E; assumption|]. eexists. split; reflexivity.
    + exists (Some (decimal sg ip fr (exponent minus ds))). split; [apply number_sign; assumption|]. eexists. split; reflexivity.
  - subst t. exists None. split; [constructor|exact I].
Qed.

Lemma choose_list : forall {A B} (P : nat -> A -> B -> Prop) l, (forall i a, nth_error l i = Some a -> exists b, P i a b) ->
  exists m, length m = length l /\ forall i a b, nth_error l i = Some a -> nth_error m i = Some b -> P i a b.
Proof.
  intros A B P l. revert P. induction l as [|a l IH]; intros P H.
  - exists []. split; [reflexivity|]. intros [|i] a b E; discriminate.
  - destruct (H 0%nat a eq_refl) as [b Hb]. destruct (IH (fun i => P (S i))) as (m & L & M).
    { intros i x E. apply (H (S i)), E. }
    exists (b :: m). split; [cbn; congruence|]. intros [|i] x y; cbn [nth_error].
    + intros E F. injection E as <-. injection F as <-. exact Hb.
    + apply M.
Qed.
Lemma Forall2_nth : forall {A B} (P : A -> B -> Prop) l m, length l = length m ->
  (forall i a b, nth_error l i = Some a -> nth_error m i = Some b -> P a b) -> Forall2 P l m.
Proof.
  intros A B P. induction l as [|a l IH]; intros [|b m] L H; try discriminate; constructor.
  - apply (H 0%nat); reflexivity.
  - apply IH; [cbn in L; congruence|]. intros i x y. apply (H (S i)).
Qed.

Lemma real_written : forall section heads rrows, real_table section heads rrows ->
  exists rows, written_table section heads rows /\ Forall2 (Forall2 stands) rows rrows.
Proof.
  intros section heads rrows (H0 & Hc & Hf & Hl & Hh & Hw & Hr).
  set (k := lines_per_row (length heads)) in *.
  destruct (choose_list (fun i row xs => length xs = length row /\ forall j r x, nth_error row j = Some r -> nth_error xs j = Some x ->
     (exists t, table_cell section (1 + (2 + i) * k) j t /\ number_text t x) /\ stands x r) rrows) as (rows & L & M).
  { intros i row E. destruct (choose_list (fun j r x => (exists t, table_cell section (1 + (2 + i) * k) j t /\ number_text t x) /\ stands x r) row) as (xs & Lx & Mx).
    - intros j r F. destruct (Hr i row j r E F) as (t & C & T). destruct (text_number t r T) as (x & N & S). exists x. split; [exists t; split; assumption|exact S].
    - exists xs. split; [exact Lx|exact Mx]. }
  assert (LL : forall i xs, nth_error rows i = Some xs -> exists row, nth_error rrows i = Some row).
  { intros i xs E. destruct (nth_error rrows i) as [row|] eqn:F; [eauto|]. apply nth_error_None in F.
    assert (i < length rows)%nat by (apply nth_error_Some; congruence). lia. }
  exists rows. split.
  - split; [exact H0|]. split; [exact Hc|]. split; [rewrite L; exact Hf|]. split; [rewrite L; exact Hl|]. split; [exact Hh|]. split.
    + apply Forall_forall. intros xs I. apply In_nth_error in I. destruct I as [i E]. destruct (LL i xs E) as [row F].
      destruct (M i row xs F E) as [Lx _]. rewrite Lx. rewrite Forall_forall in Hw. apply Hw. eapply nth_error_In, F.
    + intros i xs j x E X. destruct (LL i xs E) as [row F]. destruct (M i row xs F E) as [Lx G].
      destruct (nth_error row j) as [r|] eqn:R.
      * exact (proj1 (G j r x R X)).
      * apply nth_error_None in R. assert (j < length xs)%nat by (apply nth_error_Some; congruence). lia.
  - apply Forall2_nth; [exact L|]. intros i xs row E F. destruct (M i row xs F E) as [Lx G]. apply Forall2_nth; [exact Lx|].
    intros j x r X R. exact (proj2 (G j r x R X)).
Qed.
Lemma real_common_written : forall text heads rrow, real_common text heads rrow ->
  exists row, common_table text heads row /\ Forall2 stands row rrow.
Proof.
  intros text heads rrow [(-> & -> & N)|(section & H & W)].
  - exists []. split; [left; auto|constructor].
  - destruct (real_written section heads [rrow] W) as (rows & R & F). inversion F as [|row q rows' q' Hr F' E1 E2]; subst. inversion F'; subst.
    exists row. split; [right; exists section; split; assumption|exact Hr].
Qed.
Lemma stands_close : forall xs rs, Forall2 stands xs rs -> (forall r, In (Some r) rs -> ordinary r) -> Forall2 (close u (-100) 100) xs rs.
Proof.
  intros xs rs F. induction F as [|x r xs rs H F IH]; intros O; constructor.
  - destruct x as [x|], r as [r|]; try contradiction; [|exact I]. destruct H as (d & -> & ->). apply near_dec; try lia. apply O. left. reflexivity.
  - apply IH. intros q I. apply O. right. exact I.
Qed.
