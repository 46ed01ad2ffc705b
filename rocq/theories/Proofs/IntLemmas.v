(** Printing and reading of integers. *)
From Coq Require Import String List Ascii NArith ZArith Bool Arith Lia.
From Verif.Model Require Import Py.
From Verif.Spec Require Import Text.
From Verif.Proofs Require Import StrLemmas NumLemmas.
Import ListNotations.
Local Open Scope list_scope.

Lemma value10_snoc : forall ds d, value10 (ds ++ [d]) = (value10 ds * 10 + d)%N.
Proof. intros. unfold value10. now rewrite fold_left_app. Qed.

Lemma n_digits_aux_spec : forall fuel n acc, (n < 2 ^ N.of_nat fuel)%N -> 0 < fuel ->
  exists ds, n_digits_aux fuel n acc = digits_text ds ++ acc /\ is_digits ds /\ ds <> [] /\
    value10 ds = n.
Proof.
  induction fuel as [|fuel IH]; intros n acc Hn Hf; [lia|].
  cbn [n_digits_aux].
  assert (Hmod : (n mod 10 < 10)%N) by (apply N.mod_lt; lia).
  destruct (N.eqb_spec (n / 10) 0) as [E|E].
  - exists [n mod 10]%N. repeat split; auto; try discriminate.
    + now constructor.
    + assert (DM : n = (10 * (n / 10) + n mod 10)%N) by (apply N.div_mod; discriminate). rewrite E in DM.
      unfold value10. cbn [fold_left]. rewrite N.mul_0_l, N.add_0_l. rewrite N.mul_0_r, N.add_0_l in DM. now symmetry.
  - assert (Hq : (n / 10 < 2 ^ N.of_nat fuel)%N).
    { apply N.div_lt_upper_bound; [lia|].
      rewrite Nat2N.inj_succ, N.pow_succ_r' in Hn. lia. }
    assert (Hf' : 0 < fuel).
    { destruct fuel; [|lia]. change (2 ^ N.of_nat 0)%N with 1%N in Hq. exfalso. apply E. now apply N.lt_1_r. }
    destruct (IH (n / 10)%N (dig_chr (n mod 10) :: acc) Hq Hf') as (ds & E1 & D & NE & V).
    exists (ds ++ [n mod 10]%N). repeat split.
    + rewrite E1, digits_text_app, <- app_assoc. reflexivity.
    + apply Forall_app. split; auto.
    + destruct ds; discriminate.
    + rewrite value10_snoc, V. rewrite N.mul_comm. symmetry. apply N.div_mod. lia.
Qed.

Lemma size_nat_bound : forall n, (n < 2 ^ N.of_nat (S (N.size_nat n)))%N.
Proof.
  destruct n as [|p]; [reflexivity|]. cbn [N.size_nat].
  rewrite Nat2N.inj_succ, N.pow_succ_r'.
  assert (H : (Npos p < 2 ^ N.of_nat (Pos.size_nat p))%N).
  { induction p as [p IH|p IH|]; cbn [Pos.size_nat]; try reflexivity;
      rewrite Nat2N.inj_succ, N.pow_succ_r'; lia. }
  lia.
Qed.

Lemma n_to_str_spec : forall n, exists ds,
  n_to_str n = digits_text ds /\ is_digits ds /\ ds <> [] /\ value10 ds = n.
Proof.
  intro n. unfold n_to_str.
  destruct (n_digits_aux_spec (S (N.size_nat n)) n [] (size_nat_bound n) ltac:(lia))
    as (ds & E & H). rewrite app_nil_r in E. eauto.
Qed.

Lemma digits_no_underscore : forall ds, is_digits ds -> ~ In "_"%char (digits_text ds).
Proof.
  intros ds D H. unfold digits_text in H. apply in_map_iff in H. destruct H as (d & E & I).
  unfold is_digits in D. rewrite Forall_forall in D. apply D in I.
  apply digit_is_dig in I. rewrite E in I. discriminate.
Qed.

Lemma digits_ends_not_space : forall ds, is_digits ds ->
  (forall c t, digits_text ds = c :: t -> is_space c = false) /\
  (forall t c, digits_text ds = t ++ [c] -> is_space c = false).
Proof.
  intros ds D. assert (H : forall c, In c (digits_text ds) -> is_space c = false).
  { intros c H. unfold digits_text in H. apply in_map_iff in H. destruct H as (d & <- & I).
    unfold is_digits in D. rewrite Forall_forall in D. now apply digit_not_space, D. }
  split; intros; apply H; rewrite H0; [now left|]. apply in_or_app. right. now left.
Qed.

Lemma take_sign_digits : forall ds, is_digits ds -> take_sign (digits_text ds) = (false, digits_text ds).
Proof.
  intros [|d ds] D; auto. cbn. inversion D as [|? ? H]; subst.
  destruct (Ascii.eqb_spec (digit_char d) "-"%char) as [E|E].
  - apply digit_is_dig in H. rewrite E in H. discriminate.
  - destruct (Ascii.eqb_spec (digit_char d) "+"%char) as [E'|E']; auto.
    apply digit_is_dig in H. rewrite E' in H. discriminate.
Qed.

Lemma int_of_digits : forall a ds b, num_blank a -> num_blank b -> is_digits ds -> ds <> [] ->
  int_of_str (a ++ digits_text ds ++ b) = Some (Z.of_N (value10 ds)).
Proof.
  intros a ds b Ha Hb D NE. unfold int_of_str. rewrite num_strip_surround by auto.
  destruct (digits_ends_not_space ds D) as [H1 H2].
  rewrite num_strip_id by (intros; apply not_space_num_space; eauto).
  rewrite drop_underscores_id by now apply digits_no_underscore.
  rewrite take_sign_digits by auto.
  destruct (digits_text ds) eqn:E; [destruct ds; [contradiction|discriminate]|].
  rewrite <- E. rewrite digits_forallb by auto. now rewrite n_of_digits_text.
Qed.

Lemma int_of_neg_digits : forall ds, is_digits ds -> ds <> [] ->
  int_of_str ("-"%char :: digits_text ds) = Some (- Z.of_N (value10 ds))%Z.
Proof.
  intros ds D NE. unfold int_of_str.
  destruct (digits_ends_not_space ds D) as [H1 H2].
  rewrite num_strip_id.
  - cbn [drop_underscores]. change (Ascii.eqb "-"%char "_"%char) with false. cbv iota.
    rewrite drop_underscores_id by now apply digits_no_underscore. cbn [option_map take_sign].
    change (Ascii.eqb "-"%char "-"%char) with true. cbv iota.
    destruct (digits_text ds) eqn:E; [destruct ds; [contradiction|discriminate]|].
    rewrite <- E. rewrite digits_forallb by auto. now rewrite n_of_digits_text.
  - intros c t E. injection E as <- _. reflexivity.
  - intros t c E. apply not_space_num_space. destruct t as [|x t].
    + injection E as <-. destruct ds; [contradiction|discriminate].
    + injection E as _ E. eauto.
Qed.

Lemma int_of_z_to_str : forall z, int_of_str (z_to_str z) = Some z.
Proof.
  intros [|p|p].
  - reflexivity.
  - unfold z_to_str. destruct (n_to_str_spec (Z.to_N (Zpos p))) as (ds & -> & D & NE & V).
    pose proof (int_of_digits [] ds [] (Forall_nil _) (Forall_nil _) D NE) as H.
    cbn [app] in H. rewrite app_nil_r in H. rewrite H, V. reflexivity.
  - unfold z_to_str. destruct (n_to_str_spec (Npos p)) as (ds & -> & D & NE & V).
    rewrite int_of_neg_digits by auto. now rewrite V.
Qed.

Lemma int_of_n_to_str : forall n, int_of_str (n_to_str n) = Some (Z.of_N n).
Proof.
  intro n. rewrite <- (int_of_z_to_str (Z.of_N n)). destruct n; reflexivity.
Qed.

Lemma z_to_str_inj : forall a b, z_to_str a = z_to_str b -> a = b.
Proof.
  intros a b E. pose proof (int_of_z_to_str a) as H. rewrite E, int_of_z_to_str in H. congruence.
Qed.

(** Padding with zeros does not change the value. *)
Lemma value10_zeros : forall k ds, value10 (repeat 0%N k ++ ds) = value10 ds.
Proof.
  intros k ds. unfold value10. rewrite fold_left_app. f_equal.
  induction k; cbn; auto.
Qed.

Lemma digits_text_inj : forall a b, is_digits a -> is_digits b -> digits_text a = digits_text b -> a = b.
Proof.
  induction a as [|x a IH]; intros [|y b] Da Db E; try discriminate; auto.
  inversion Da; inversion Db; subst. cbn in E. injection E as E1 E2.
  f_equal; auto. rewrite <- (digit_dig_val x), <- (digit_dig_val y) by auto. now rewrite E1.
Qed.

Lemma zfill_digits : forall n ds, is_digits ds -> length ds <= n ->
  zfill n (digits_text ds) = digits_text (repeat 0%N (n - length ds) ++ ds).
Proof.
  intros n ds D L. rewrite digits_text_app.
  assert (E : digits_text (repeat 0%N (n - length ds)) = repeat "0"%char (n - length ds)).
  { unfold digits_text. induction (n - length ds); cbn; [reflexivity|]. f_equal. exact IHn0. }
  rewrite E. unfold zfill.
  replace (length (digits_text ds)) with (length ds) by (unfold digits_text; now rewrite map_length).
  destruct (digits_text ds) as [|c t] eqn:T; [now rewrite app_nil_r|].
  assert (Hc : is_dig c = true).
  { pose proof (digits_forallb ds D) as F. rewrite T in F. cbn in F. now apply andb_true_iff in F. }
  destruct (Ascii.eqb_spec c "+"%char) as [->|]; [discriminate|].
  destruct (Ascii.eqb_spec c "-"%char) as [->|]; [discriminate|]. reflexivity.
Qed.
