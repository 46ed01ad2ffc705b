(** Proofs about number texts: float() and parseFORTRANNumber. *)
From Coq Require Import String List Ascii NArith ZArith Bool Arith Lia.
From Verif.Model Require Import Py PyFloat Utilities.
From Verif.Spec Require Import Text.
From Verif.Proofs Require Import StrLemmas.
Import ListNotations.
Local Open Scope list_scope.

(** ** digits *)

Lemma digit_cases : forall d, (d < 10)%N -> In d [0;1;2;3;4;5;6;7;8;9]%N.
Proof.
  intros d H. cbn. destruct d as [|p]; auto.
  do 4 (destruct p as [p|p|]; try lia; auto 12); cbn in H; lia.
Qed.

Lemma digit_prop : forall P : N -> bool,
  forallb P [0;1;2;3;4;5;6;7;8;9]%N = true -> forall d, (d < 10)%N -> P d = true.
Proof. intros P H d Hd. rewrite forallb_forall in H. apply H. now apply digit_cases. Qed.

Ltac by_digit d Hd :=
  let H := fresh in
  pose proof (digit_cases d Hd) as H; cbn in H;
  repeat (destruct H as [H|H]; [subst d; try reflexivity; try discriminate; try (vm_compute; congruence)|]);
  try contradiction.

Lemma digit_is_dig : forall d, (d < 10)%N -> is_dig (digit_char d) = true.
Proof. intros d Hd. by_digit d Hd. Qed.
Lemma digit_not_space : forall d, (d < 10)%N -> is_space (digit_char d) = false.
Proof. intros d Hd. by_digit d Hd. Qed.
Lemma digit_dig_val : forall d, (d < 10)%N -> dig_val (digit_char d) = d.
Proof. intros d Hd. by_digit d Hd. Qed.
Lemma digit_lower : forall d, (d < 10)%N -> lower_c (digit_char d) = digit_char d.
Proof. intros d Hd. by_digit d Hd. Qed.

(** A character test that no digit passes. *)
Definition not_digit (P : ascii -> bool) : Prop :=
  forallb (fun d => negb (P (digit_char d))) [0;1;2;3;4;5;6;7;8;9]%N = true.
Lemma not_digit_false : forall P, not_digit P -> forall d, (d < 10)%N -> P (digit_char d) = false.
Proof.
  intros P H d Hd. pose proof (digit_prop _ H d Hd) as K. cbn in K.
  now apply negb_true_iff in K.
Qed.

Lemma dig_digit : forall c, is_dig c = true -> exists d, (d < 10)%N /\ c = digit_char d.
Proof.
  intros c H. exists (dig_val c).
  pose proof (forall_ascii (fun c => implb (is_dig c)
     ((dig_val c <? 10)%N && Ascii.eqb c (digit_char (dig_val c)))) ltac:(vm_compute; reflexivity) c) as K.
  cbn beta in K. rewrite H in K. cbn [implb] in K. apply andb_true_iff in K. destruct K as [K1 K2].
  apply N.ltb_lt in K1. apply Ascii.eqb_eq in K2. auto.
Qed.

Lemma n_of_digits_text : forall ds, is_digits ds -> n_of_digits (digits_text ds) = value10 ds.
Proof.
  intros ds H. unfold n_of_digits, value10. generalize 0%N as acc.
  induction H as [|d ds Hd H IH]; intro acc; cbn; auto.
  rewrite digit_dig_val by auto. apply IH.
Qed.

Lemma digits_forallb : forall ds, is_digits ds -> forallb is_dig (digits_text ds) = true.
Proof.
  intros ds H. induction H; cbn; auto. rewrite digit_is_dig; auto.
Qed.

Lemma digits_text_app : forall a b, digits_text (a ++ b) = digits_text a ++ digits_text b.
Proof. intros. apply map_app. Qed.

Lemma span_dig_digits : forall ds r, is_digits ds ->
  (forall c t, r = c :: t -> is_dig c = false) -> span_dig (digits_text ds ++ r) = (digits_text ds, r).
Proof.
  intros ds r H Hr. induction H as [|d ds Hd H IH]; cbn.
  - destruct r as [|c t]; auto. cbn. now rewrite (Hr c t).
  - fold (digits_text ds). rewrite digit_is_dig by auto. now rewrite IH.
Qed.

(** ** underscores *)

Lemma drop_underscores_id : forall s b, ~ In "_"%char s -> drop_underscores b s = Some s.
Proof.
  induction s as [|c s IH]; intros b H; cbn; auto.
  destruct (Ascii.eqb_spec c "_"%char) as [->|N].
  - exfalso. apply H. now left.
  - rewrite IH; auto. intro; apply H; now right.
Qed.

(** ** float() of a literal *)

Lemma float_of_str_same_strip : forall s t, num_strip s = num_strip t -> float_of_str s = float_of_str t.
Proof. intros s t H. unfold float_of_str. now rewrite H. Qed.

Lemma take_sign_text : forall sg u,
  (forall c t, u = c :: t -> c <> "+"%char /\ c <> "-"%char) ->
  take_sign (sign_text sg ++ u) = (is_minus sg, u).
Proof.
  intros sg u H. destruct sg; cbn; auto.
  destruct u as [|c t]; auto. destruct (H c t eq_refl) as [N1 N2]. cbn.
  destruct (Ascii.eqb_spec c "-"%char); [contradiction|].
  destruct (Ascii.eqb_spec c "+"%char); [contradiction|]. reflexivity.
Qed.

Definition unsigned_text (ip : list N) (fr : option (list N)) : str :=
  digits_text ip ++ match fr with Some fp => "."%char :: digits_text fp | None => [] end.

Lemma unsigned_head : forall ip fr r, good_mantissa ip fr ->
  exists c t, unsigned_text ip fr ++ r = c :: t /\ (is_dig c = true \/ c = "."%char).
Proof.
  intros ip fr r (H1 & H2 & H3). unfold unsigned_text. destruct ip as [|d ip].
  - destruct fr as [fp|]; [|exfalso; auto]. cbn. eauto.
  - cbn. inversion H1; subst. exists (digit_char d). eexists. split; [reflexivity|].
    left. now apply digit_is_dig.
Qed.

Lemma scan_udec_text : forall neg ip fr r e, good_mantissa ip fr ->
  (forall c t, r = c :: t -> is_dig c = false /\ c <> "."%char) ->
  scan_exp r = e ->
  scan_udec neg (unsigned_text ip fr ++ r) =
  option_map (fun e => mkDec neg (value10 (ip ++ frac_digits fr))
                         (e - Z.of_nat (length (frac_digits fr)))) e.
Proof.
  intros neg ip fr r e (H1 & H2 & H3) Hr He. unfold scan_udec, unsigned_text.
  destruct fr as [fp|].
  - cbn [frac_digits] in *. rewrite <- app_assoc, <- app_comm_cons.
    rewrite span_dig_digits; auto.
    2:{ intros c t E. injection E as <- _. reflexivity. }
    cbn [Ascii.eqb Bool.eqb]. rewrite span_dig_digits; auto.
    2:{ intros c t E. now apply (Hr c t). }
    rewrite <- digits_text_app. pose proof (n_of_digits_text (ip ++ fp)) as V.
    unfold digits_text at 2. rewrite map_length.
    destruct (digits_text (ip ++ fp)) eqn:M.
    + exfalso. apply H3. destruct (ip ++ fp); [auto|discriminate].
    + rewrite He, V by (apply Forall_app; auto). reflexivity.
  - cbn [frac_digits] in *. rewrite !app_nil_r in *.
    rewrite span_dig_digits; auto.
    2:{ intros c t E. now apply (Hr c t). }
    pose proof (n_of_digits_text ip H1) as V.
    assert (digits_text ip <> []) as Ni.
    { intro M. apply H3. destruct ip; [auto|discriminate]. }
    destruct r as [|c t].
    + rewrite app_nil_r. destruct (digits_text ip) eqn:M; [contradiction|].
      rewrite He, V. reflexivity.
    + destruct (Hr c t eq_refl) as [_ N]. destruct (Ascii.eqb_spec c "."%char); [contradiction|].
      rewrite app_nil_r. destruct (digits_text ip) eqn:M; [contradiction|].
      rewrite He, V. reflexivity.
Qed.

Lemma lower_head : forall c t w d, lower (c :: t) = w -> lower_c c = d ->
  match w with x :: _ => x = d | [] => False end.
Proof. intros. subst. reflexivity. Qed.

Lemma not_special : forall c t, (is_dig c = true \/ c = "."%char) ->
  str_eqb (lower (c :: t)) (lit "inf") || str_eqb (lower (c :: t)) (lit "infinity") = false /\
  str_eqb (lower (c :: t)) (lit "nan") = false.
Proof.
  intros c t H.
  assert (lower_c c <> "i"%char /\ lower_c c <> "n"%char) as [A B].
  { destruct H as [H| ->]; [|split; discriminate].
    destruct (dig_digit c H) as (d & Hd & ->). rewrite digit_lower by auto.
    split; by_digit d Hd. }
  cbn. destruct (Ascii.eqb_spec (lower_c c) "i"%char); [contradiction|].
  destruct (Ascii.eqb_spec (lower_c c) "n"%char); [contradiction|]. auto.
Qed.

(** The main reading lemma: a mantissa followed by [r]. *)
Lemma float_of_mantissa : forall sg ip fr r s, good_mantissa ip fr ->
  num_strip s = mantissa_text sg ip fr ++ r ->
  ~ In "_"%char (mantissa_text sg ip fr ++ r) ->
  (forall c t, r = c :: t -> is_dig c = false /\ c <> "."%char) ->
  float_of_str s =
  option_map float_of_dec
   (option_map (fun e => mkDec (is_minus sg) (value10 (ip ++ frac_digits fr))
                         (e - Z.of_nat (length (frac_digits fr)))) (scan_exp r)).
Proof.
  intros sg ip fr r s G Hs Hu Hr. unfold float_of_str. rewrite Hs.
  rewrite drop_underscores_id by auto.
  unfold mantissa_text. rewrite <- app_assoc. fold (unsigned_text ip fr).
  destruct (unsigned_head ip fr r G) as (c & t & E & Hc).
  rewrite take_sign_text.
  2:{ intros c' t' E'. rewrite E in E'. injection E' as <- <-.
      destruct Hc as [Hc| ->]; [|split; discriminate].
      split; intros ->; discriminate. }
  destruct (not_special c t Hc) as [S1 S2].
  rewrite <- E in S1, S2. rewrite S1, S2.
  now rewrite (scan_udec_text _ ip fr r _ G Hr eq_refl).
Qed.

(** ** characters of mantissas *)

Lemma mantissa_forall : forall (P : ascii -> Prop) sg ip fr,
  good_mantissa ip fr -> P "+"%char -> P "-"%char -> P "."%char ->
  (forall d, (d < 10)%N -> P (digit_char d)) -> Forall P (mantissa_text sg ip fr).
Proof.
  intros P sg ip fr (H1 & H2 & _) Pp Pm Pd Pdig. unfold mantissa_text.
  assert (forall ds, is_digits ds -> Forall P (digits_text ds)) as D.
  { intros ds H. unfold digits_text. apply Forall_map. eapply Forall_impl; [|exact H]. auto. }
  apply Forall_app. split; [destruct sg; cbn; auto|].
  apply Forall_app. split; [auto|].
  destruct fr as [fp|]; [constructor; auto|constructor].
Qed.

Lemma mantissa_notin : forall x sg ip fr, good_mantissa ip fr ->
  x <> "+"%char -> x <> "-"%char -> x <> "."%char -> not_digit (Ascii.eqb x) ->
  ~ In x (mantissa_text sg ip fr).
Proof.
  intros x sg ip fr G N1 N2 N3 N4 H.
  assert (Forall (fun c => x <> c) (mantissa_text sg ip fr)) as F.
  { apply mantissa_forall; auto. intros d Hd E.
    pose proof (not_digit_false _ N4 d Hd) as K. rewrite E in K. now rewrite Ascii.eqb_refl in K. }
  rewrite Forall_forall in F. now apply (F x).
Qed.

Lemma mantissa_ends : forall sg ip fr, good_mantissa ip fr ->
  exists m x, mantissa_text sg ip fr = m ++ [x] /\ (is_dig x = true \/ x = "."%char).
Proof.
  intros sg ip fr (H1 & H2 & H3). unfold mantissa_text. destruct fr as [fp|].
  - destruct (app_last_inv _ fp) as [->|(fp' & d & ->)].
    + exists (sign_text sg ++ digits_text ip), "."%char. cbn. rewrite app_assoc. auto.
    + exists (sign_text sg ++ digits_text ip ++ "."%char :: digits_text fp'), (digit_char d).
      rewrite digits_text_app. cbn. split.
      * now rewrite <- !app_assoc, <- app_comm_cons.
      * left. apply digit_is_dig. cbn in H2. apply Forall_app in H2. destruct H2 as [_ H2]. now inversion H2.
  - destruct (app_last_inv _ ip) as [->|(ip' & d & ->)].
    + exfalso. now apply H3.
    + exists (sign_text sg ++ digits_text ip'), (digit_char d).
      rewrite digits_text_app, app_nil_r. cbn. split; [now rewrite <- app_assoc|].
      left. apply digit_is_dig. apply Forall_app in H1. destruct H1 as [_ H1]. now inversion H1.
Qed.

Lemma mantissa_starts : forall sg ip fr, good_mantissa ip fr ->
  exists x m, mantissa_text sg ip fr = x :: m /\ is_space x = false.
Proof.
  intros sg ip fr G. unfold mantissa_text. fold (unsigned_text ip fr).
  destruct (unsigned_head ip fr [] G) as (c & t & E & H). rewrite app_nil_r in E.
  rewrite E. destruct sg; cbn; eauto. exists c, t. split; auto.
  destruct H as [H| ->]; auto. destruct (dig_digit c H) as (d & Hd & ->). now apply digit_not_space.
Qed.

Lemma strip_ends : forall x m t d, is_space x = false -> is_space d = false ->
  strip (x :: m ++ t ++ [d]) = x :: m ++ t ++ [d].
Proof.
  intros x m t d Hx Hd. apply strip_id.
  - intros c u E. now injection E as <- _.
  - intros u c E.
    assert (x :: m ++ t ++ [d] = (x :: m ++ t) ++ [d]) as K by (cbn; now rewrite app_assoc).
    rewrite K in E. apply app_inj_tail in E. destruct E as [_ <-]. auto.
Qed.

Lemma num_strip_both : forall s, strip s = s -> num_strip s = s.
Proof.
  intros s H. pose proof (strip_trimmed s) as T. rewrite H in T. destruct T as (a & b & _ & _ & _ & T1 & T2).
  apply num_strip_id; intros.
  - apply not_space_num_space. apply not_space_white. eapply T1; eauto.
  - apply not_space_num_space. apply not_space_white. eapply T2; eauto.
Qed.

(** ** counting and replacing characters *)

Lemma count_char_app : forall c a b, count_char c (a ++ b) = count_char c a + count_char c b.
Proof. intros. unfold count_char. rewrite filter_app, app_length. reflexivity. Qed.

Lemma count_char_0 : forall c s, ~ In c s -> count_char c s = 0.
Proof.
  intros c s H. unfold count_char. induction s as [|x s IH]; cbn; auto.
  destruct (Ascii.eqb_spec c x) as [->|N].
  - exfalso. apply H. now left.
  - apply IH. intro; apply H; now right.
Qed.

Lemma replace_char_app : forall c r a b,
  replace_char c r (a ++ b) = replace_char c r a ++ replace_char c r b.
Proof. intros. unfold replace_char. apply flat_map_app. Qed.

Lemma replace_char_notin : forall c r s, ~ In c s -> replace_char c r s = s.
Proof.
  intros c r s H. unfold replace_char. induction s as [|x s IH]; cbn; auto.
  destruct (Ascii.eqb_spec x c) as [->|N].
  - exfalso. apply H. now left.
  - cbn. rewrite IH; auto. intro; apply H; now right.
Qed.

Lemma replace_sp_repeat : forall k, replace_char sp [] (repeat sp k) = [].
Proof. induction k; cbn; auto. Qed.

Lemma last_n_app : forall a b, last_n (length b) (a ++ b) = b.
Proof.
  intros. unfold last_n. rewrite app_length. replace (length a + length b - length b) with (length a) by lia.
  rewrite skipn_app, skipn_all, Nat.sub_diag. reflexivity.
Qed.

Lemma drop_last_n_app : forall a b, drop_last_n (length b) (a ++ b) = a.
Proof.
  intros. unfold drop_last_n. rewrite app_length. replace (length a + length b - length b) with (length a) by lia.
  rewrite firstn_app, firstn_all, Nat.sub_diag. cbn. apply app_nil_r.
Qed.

(** ** the repair *)

Definition exp_sign (m : bool) : ascii := if m then "-"%char else "+"%char.

Lemma repair_two : forall pre m d1 d2, (d1 < 10)%N -> (d2 < 10)%N -> ~ In "E"%char pre ->
  fortran_repair (pre ++ [exp_sign m; digit_char d1; digit_char d2]) =
  replace_char sp [] pre ++ ["E"%char; exp_sign m; digit_char d1; digit_char d2].
Proof.
  intros pre m d1 d2 H1 H2 HE. unfold fortran_repair.
  change 3 with (length [exp_sign m; digit_char d1; digit_char d2]).
  rewrite last_n_app, drop_last_n_app, count_char_app, (count_char_0 "E" pre HE).
  assert (forall m d1 d2, (d1 < 10)%N -> (d2 < 10)%N ->
     count_char "E" [exp_sign m; digit_char d1; digit_char d2] = 0 /\
     (1 <=? count_char "+" [exp_sign m; digit_char d1; digit_char d2] +
            count_char "-" [exp_sign m; digit_char d1; digit_char d2]) = true /\
     replace_char sp [] (replace_char
       (if count_char "-" [exp_sign m; digit_char d1; digit_char d2] =? 1 then "-"%char else "+"%char)
       ["E"%char; if count_char "-" [exp_sign m; digit_char d1; digit_char d2] =? 1 then "-"%char else "+"%char]
       [exp_sign m; digit_char d1; digit_char d2]) = ["E"%char; exp_sign m; digit_char d1; digit_char d2]) as K.
  { clear. intros m d1 d2 H1 H2. destruct m; by_digit d1 H1; by_digit d2 H2; repeat split; reflexivity. }
  destruct (K m d1 d2 H1 H2) as (K1 & K2 & K3). rewrite K1, K2. cbn [Nat.add Nat.ltb Nat.leb andb].
  rewrite replace_char_app. now rewrite K3.
Qed.

Lemma repair_one : forall pre x m d, (d < 10)%N -> ~ In "E"%char pre ->
  x <> "E"%char -> x <> "+"%char -> x <> "-"%char ->
  fortran_repair (pre ++ [x; exp_sign m; digit_char d]) =
  replace_char sp [] (pre ++ [x]) ++ ["E"%char; exp_sign m; digit_char d].
Proof.
  intros pre x m d H1 HE X1 X2 X3. unfold fortran_repair.
  change 3 with (length [x; exp_sign m; digit_char d]).
  rewrite last_n_app, drop_last_n_app, count_char_app, (count_char_0 "E" pre HE).
  assert (forall c t, c <> x -> count_char c (x :: t) = count_char c t) as CC.
  { intros c t N. unfold count_char. cbn. destruct (Ascii.eqb_spec c x); [contradiction|reflexivity]. }
  rewrite !CC by auto.
  assert (forall m d, (d < 10)%N ->
     count_char "E" [exp_sign m; digit_char d] = 0 /\
     (1 <=? count_char "+" [exp_sign m; digit_char d] + count_char "-" [exp_sign m; digit_char d]) = true /\
     (if count_char "-" [exp_sign m; digit_char d] =? 1 then "-"%char else "+"%char) = exp_sign m /\
     replace_char sp [] (replace_char (exp_sign m) ["E"%char; exp_sign m] [exp_sign m; digit_char d])
       = ["E"%char; exp_sign m; digit_char d]) as K.
  { clear. intros m d H. destruct m; by_digit d H; repeat split; reflexivity. }
  destruct (K m d H1) as (K1 & K2 & K3 & K4). rewrite K1, K2, K3. cbn [Nat.add Nat.ltb Nat.leb andb].
  change (x :: [exp_sign m; digit_char d]) with ([x] ++ [exp_sign m; digit_char d]).
  rewrite (replace_char_app (exp_sign m)).
  rewrite (replace_char_notin (exp_sign m) _ [x]).
  2:{ intros [->|[]]. destruct m; cbn in *; congruence. }
  rewrite !replace_char_app, K4. now rewrite <- app_assoc.
Qed.

Lemma mantissa_no_sp : forall sg ip fr, good_mantissa ip fr ->
  replace_char sp [] (mantissa_text sg ip fr) = mantissa_text sg ip fr.
Proof.
  intros. apply replace_char_notin. apply mantissa_notin; auto; try discriminate. reflexivity.
Qed.

Lemma scan_exp_sign : forall m ed, is_digits ed -> ed <> [] ->
  scan_exp ("E"%char :: exp_sign m :: digits_text ed) = Some (if m then - Z.of_N (value10 ed) else Z.of_N (value10 ed))%Z.
Proof.
  intros m ed H N. unfold scan_exp. change (Ascii.eqb "E" "e" || Ascii.eqb "E" "E")%char with true. cbv iota.
  assert (take_sign (exp_sign m :: digits_text ed) = (m, digits_text ed)) as -> by (destruct m; reflexivity).
  pose proof (digits_forallb ed H) as F. pose proof (n_of_digits_text ed H) as V.
  destruct (digits_text ed) eqn:E; [destruct ed; [contradiction|discriminate]|].
  now rewrite F, V.
Qed.

Lemma repaired_value : forall sg ip fr m ed, good_mantissa ip fr -> is_digits ed -> ed <> [] ->
  float_of_str (mantissa_text sg ip fr ++ "E"%char :: exp_sign m :: digits_text ed) =
  Some (float_of_dec (mkDec (is_minus sg) (value10 (ip ++ frac_digits fr))
     ((if m then - Z.of_N (value10 ed) else Z.of_N (value10 ed)) - Z.of_nat (length (frac_digits fr))))).
Proof.
  intros sg ip fr m ed G He N.
  assert (~ In "_"%char (mantissa_text sg ip fr ++ "E"%char :: exp_sign m :: digits_text ed)) as U.
  { rewrite in_app_iff. intros [H|[H|[H|H]]]; try discriminate.
    - revert H. apply mantissa_notin; auto; try discriminate. reflexivity.
    - destruct m; discriminate.
    - unfold digits_text in H. apply in_map_iff in H. destruct H as (d & E & Hd).
      unfold is_digits in He. rewrite Forall_forall in He. specialize (He d Hd). by_digit d He. }
  rewrite (float_of_mantissa sg ip fr ("E"%char :: exp_sign m :: digits_text ed)); auto.
  - rewrite scan_exp_sign by auto. reflexivity.
  - destruct (mantissa_starts sg ip fr G) as (x & t & -> & Hx).
    destruct (app_last_inv _ ed) as [->|(ed' & d & ->)]; [contradiction|].
    rewrite digits_text_app. cbn [digits_text map].
    change (x :: t) with ([x] ++ t).
    replace (([x] ++ t) ++ "E"%char :: exp_sign m :: digits_text ed' ++ [digit_char d])
      with (x :: t ++ ("E"%char :: exp_sign m :: digits_text ed') ++ [digit_char d])
      by (cbn; now rewrite <- ?app_assoc).
    apply num_strip_both. apply strip_ends; auto. apply digit_not_space.
    apply Forall_app in He. destruct He as [_ He]. now inversion He.
  - intros c u E. injection E as <- _. split; [reflexivity|discriminate].
Qed.

Lemma digits_text_last : forall ed, is_digits ed -> ed <> [] ->
  exists t x, digits_text ed = t ++ [x] /\ is_space x = false.
Proof.
  intros ed H N. destruct (app_last_inv _ ed) as [->|(ed' & d & ->)]; [contradiction|].
  rewrite digits_text_app. exists (digits_text ed'), (digit_char d). split; auto.
  apply digit_not_space. apply Forall_app in H. destruct H as [_ H]. now inversion H.
Qed.

Lemma missing_exponent : forall sg ip fr k m ed,
  good_mantissa ip fr -> is_digits ed -> (length ed = 1 \/ length ed = 2) ->
  parseFORTRANNumber (mantissa_text sg ip fr ++ repeat sp k ++ exp_sign m :: digits_text ed) =
  Ok (Some (float_of_dec (mkDec (is_minus sg) (value10 (ip ++ frac_digits fr))
     ((if m then - Z.of_N (value10 ed) else Z.of_N (value10 ed)) - Z.of_nat (length (frac_digits fr)))))).
Proof.
  intros sg ip fr k m ed G He Hl.
  set (s := mantissa_text sg ip fr ++ repeat sp k ++ exp_sign m :: digits_text ed).
  assert (ed <> []) as Ne by (intros ->; cbn in Hl; lia).
  assert (strip s = s) as Hs.
  { unfold s. destruct (mantissa_starts sg ip fr G) as (x & t & -> & Hx).
    destruct (digits_text_last ed He Ne) as (t' & y & -> & Hy).
    rewrite <- app_comm_cons. replace (x :: t ++ repeat sp k ++ exp_sign m :: t' ++ [y])
      with (x :: t ++ (repeat sp k ++ exp_sign m :: t') ++ [y]) by now rewrite <- app_assoc.
    now apply strip_ends. }
  assert (float_of_str s = None) as HN.
  { rewrite (float_of_mantissa sg ip fr (repeat sp k ++ exp_sign m :: digits_text ed)); [|exact G|now apply num_strip_both| |].
    - destruct k; cbn; [destruct m; reflexivity|reflexivity].
    - rewrite !in_app_iff. intros [H|[H|[H|H]]].
      + revert H. apply mantissa_notin; auto; try discriminate. reflexivity.
      + apply repeat_spec in H. discriminate.
      + destruct m; discriminate.
      + unfold digits_text in H. apply in_map_iff in H. destruct H as (d & E & Hd).
        unfold is_digits in He. rewrite Forall_forall in He. specialize (He d Hd). by_digit d He.
    - intros c t E. destruct k; cbn in E; injection E as <- _.
      + destruct m; split; try reflexivity; discriminate.
      + split; [reflexivity|discriminate]. }
  unfold parseFORTRANNumber. rewrite Hs, HN.
  assert (str_eqb s [] = false) as ->.
  { apply str_eqb_neq. unfold s. destruct (mantissa_starts sg ip fr G) as (x & t & -> & Hx). discriminate. }
  assert (fortran_repair s = mantissa_text sg ip fr ++ "E"%char :: exp_sign m :: digits_text ed) as ->.
  { assert (~ In "E"%char (mantissa_text sg ip fr ++ repeat sp k)) as HE.
    { rewrite in_app_iff. intros [H|H].
      - revert H. apply mantissa_notin; auto; try discriminate. reflexivity.
      - apply repeat_spec in H. discriminate. }
    unfold s. destruct ed as [|d1 [|d2 [|? ?]]]; cbn in Hl; try lia.
    - inversion He; subst. rewrite app_assoc.
      assert (exists p x, mantissa_text sg ip fr ++ repeat sp k = p ++ [x] /\
               (is_dig x = true \/ x = "."%char \/ x = sp)) as (p & x & Ep & Hx).
      { destruct k.
        - cbn. rewrite app_nil_r. destruct (mantissa_ends sg ip fr G) as (p & x & E & Hx).
          exists p, x. tauto.
        - exists (mantissa_text sg ip fr ++ repeat sp k), sp.
          split; auto. rewrite <- app_assoc. f_equal. replace (S k) with (k + 1) by lia.
          now rewrite repeat_app. }
      assert (x <> "E"%char /\ x <> "+"%char /\ x <> "-"%char) as (X1 & X2 & X3).
      { destruct Hx as [Hx|[->| ->]]; repeat split; try discriminate; intros ->; discriminate. }
      rewrite Ep. rewrite <- app_assoc. cbn [app digits_text map].
      rewrite repair_one; auto.
      + rewrite <- Ep. rewrite replace_char_app, mantissa_no_sp, replace_sp_repeat, app_nil_r by auto. reflexivity.
      + intro H. apply HE. rewrite Ep, in_app_iff. now left.
    - inversion He; subst. inversion H2; subst. rewrite app_assoc. cbn [digits_text map].
      rewrite repair_two; auto.
      rewrite replace_char_app, mantissa_no_sp, replace_sp_repeat, app_nil_r by auto. reflexivity. }
  now rewrite repaired_value.
Qed.

(** Blanks before the E. *)
Lemma gapped_exponent : forall sg ip fr k m ed, good_mantissa ip fr -> is_digits ed -> ed <> [] ->
  parseFORTRANNumber (mantissa_text sg ip fr ++ repeat sp k ++ "E"%char :: exp_sign m :: digits_text ed) =
  Ok (Some (float_of_dec (mkDec (is_minus sg) (value10 (ip ++ frac_digits fr))
     ((if m then - Z.of_N (value10 ed) else Z.of_N (value10 ed)) - Z.of_nat (length (frac_digits fr)))))).
Proof.
  intros sg ip fr k m ed G He Ne. set (t := "E"%char :: exp_sign m :: digits_text ed).
  assert (T : ~ In sp t).
  { unfold t. intros [H|[H|H]]; [discriminate|destruct m; discriminate|]. unfold digits_text in H. apply in_map_iff in H. destruct H as (d & E & Hd).
    unfold is_digits in He. rewrite Forall_forall in He. specialize (He d Hd). by_digit d He. }
  set (s := mantissa_text sg ip fr ++ repeat sp k ++ t).
  assert (strip s = s) as Hs.
  { unfold s, t. destruct (mantissa_starts sg ip fr G) as (x & u & -> & Hx).
    destruct (digits_text_last ed He Ne) as (t' & y & -> & Hy).
    rewrite <- app_comm_cons. replace (x :: u ++ repeat sp k ++ "E"%char :: exp_sign m :: t' ++ [y])
      with (x :: u ++ (repeat sp k ++ "E"%char :: exp_sign m :: t') ++ [y]) by now rewrite <- app_assoc.
    now apply strip_ends. }
  assert (Z : str_eqb s [] = false).
  { apply str_eqb_neq. unfold s. destruct (mantissa_starts sg ip fr G) as (x & u & -> & Hx). discriminate. }
  unfold parseFORTRANNumber. rewrite Hs, Z. destruct k as [|k].
  - unfold s, t. cbn [repeat app]. now rewrite repaired_value.
  - assert (float_of_str s = None) as ->.
    { rewrite (float_of_mantissa sg ip fr (repeat sp (S k) ++ t)); [|exact G|now apply num_strip_both| |].
      - reflexivity.
      - unfold t. rewrite !in_app_iff. intros [H|[H|[H|[H|H]]]].
        + revert H. apply mantissa_notin; auto; try discriminate. reflexivity.
        + apply repeat_spec in H. discriminate.
        + discriminate.
        + destruct m; discriminate.
        + unfold digits_text in H. apply in_map_iff in H. destruct H as (d & E & Hd).
          unfold is_digits in He. rewrite Forall_forall in He. specialize (He d Hd). by_digit d He.
      - intros c u E. cbn in E. injection E as <- _. split; [reflexivity|discriminate]. }
    assert (fortran_repair s = mantissa_text sg ip fr ++ t) as ->.
    { assert (C : count_char "E" s <? 1 = false).
      { apply Nat.ltb_ge. unfold s, t. rewrite app_assoc. unfold count_char. rewrite filter_app, app_length. cbn [filter].
        change (Ascii.eqb "E" "E") with true. cbn [length]. lia. }
      unfold fortran_repair. rewrite C. cbv zeta. rewrite andb_false_l. unfold s.
      rewrite !replace_char_app, mantissa_no_sp, replace_sp_repeat by auto. cbn [app]. f_equal.
      clear - T. induction t as [|c t IH]; [reflexivity|]. unfold replace_char in *. cbn [flat_map].
      destruct (Ascii.eqb c sp) eqn:E; [apply Ascii.eqb_eq in E; elim T; now left|]. cbn [app]. f_equal. apply IH. intros I. apply T. now right. }
    unfold t. now rewrite repaired_value.
Qed.

(** ** rejection of foreign characters *)

Lemma span_dig_spec : forall s a b, span_dig s = (a, b) -> s = a ++ b /\ forallb is_dig a = true.
Proof.
  induction s as [|c s IH]; cbn; intros a b H.
  - injection H as <- <-. auto.
  - destruct (is_dig c) eqn:E.
    + destruct (span_dig s) as [a' b'] eqn:K. injection H as <- <-.
      destruct (IH _ _ eq_refl) as [-> F]. cbn. rewrite E. auto.
    + injection H as <- <-. auto.
Qed.

Lemma number_charb : forall c, existsb (Ascii.eqb c) (lit "0123456789.+-_eEiInNfFtTyYaA") = true <-> number_char c.
Proof. intro c. apply cmem_In. Qed.

Lemma dig_number : forall c, is_dig c = true -> number_char c.
Proof.
  intros c H. apply number_charb.
  pose proof (forall_ascii (fun c => implb (is_dig c) (existsb (Ascii.eqb c) (lit "0123456789.+-_eEiInNfFtTyYaA")))
    ltac:(vm_compute; reflexivity) c) as K. cbn beta in K. now rewrite H in K.
Qed.

Lemma digs_number : forall s, forallb is_dig s = true -> Forall number_char s.
Proof.
  intros s H. rewrite forallb_forall in H. apply Forall_forall. intros c Hc. apply dig_number. auto.
Qed.

Lemma take_sign_number : forall s b u, take_sign s = (b, u) -> Forall number_char u -> Forall number_char s.
Proof.
  intros s b u H F. destruct s as [|c s]; cbn in H; [constructor|].
  destruct (Ascii.eqb_spec c "-"%char) as [->|]; [injection H as <- <-; constructor; auto; apply number_charb; reflexivity|].
  destruct (Ascii.eqb_spec c "+"%char) as [->|]; [injection H as <- <-; constructor; auto; apply number_charb; reflexivity|].
  injection H as <- <-. auto.
Qed.

Lemma scan_exp_number : forall s e, scan_exp s = Some e -> Forall number_char s.
Proof.
  intros s e H. destruct s as [|c s]; [constructor|]. cbn in H.
  destruct (Ascii.eqb c "e" || Ascii.eqb c "E")%char eqn:E; [|discriminate].
  constructor.
  - apply number_charb. apply orb_true_iff in E. destruct E as [E|E]; apply Ascii.eqb_eq in E; subst; reflexivity.
  - destruct (take_sign s) as [b u] eqn:T. eapply take_sign_number; eauto.
    destruct u; [constructor|]. destruct (forallb is_dig (a :: u)) eqn:F; [|discriminate].
    now apply digs_number.
Qed.

Lemma scan_udec_number : forall neg s d, scan_udec neg s = Some d -> Forall number_char s.
Proof.
  intros neg s d H. unfold scan_udec in H.
  destruct (span_dig s) as [ip r] eqn:E1. apply span_dig_spec in E1. destruct E1 as [-> F1].
  apply Forall_app. split; [now apply digs_number|].
  destruct r as [|c r1].
  - constructor.
  - destruct (Ascii.eqb_spec c "."%char) as [->|N].
    + destruct (span_dig r1) as [fp r'] eqn:E2. apply span_dig_spec in E2. destruct E2 as [-> F2].
      constructor; [apply number_charb; reflexivity|]. apply Forall_app. split; [now apply digs_number|].
      destruct (ip ++ fp); [discriminate|]. destruct (scan_exp r') eqn:E3; [|discriminate].
      eapply scan_exp_number; eauto.
    + destruct (ip ++ []); [discriminate|]. destruct (scan_exp (c :: r1)) eqn:E3; [|discriminate].
      eapply scan_exp_number; eauto.
Qed.

Lemma lower_number : forall u w, lower u = lit w -> Forall number_char (lit w) ->
  (forall c, In (lower_c c) (lit w) -> number_char c) -> Forall number_char u.
Proof.
  intros u w H _ K. apply Forall_forall. intros c Hc. apply K. rewrite <- H. unfold lower. now apply in_map.
Qed.

Lemma lower_special : forall w, (w = "inf" \/ w = "infinity" \/ w = "nan")%string ->
  forall u, lower u = lit w -> Forall number_char u.
Proof.
  intros w Hw u H. apply Forall_forall. intros c Hc.
  assert (In (lower_c c) (lit w)) as K by (rewrite <- H; unfold lower; now apply in_map).
  apply number_charb.
  pose proof (forall_ascii (fun c => implb (existsb (Ascii.eqb (lower_c c)) (lit "infinitynan"))
     (existsb (Ascii.eqb c) (lit "0123456789.+-_eEiInNfFtTyYaA"))) ltac:(vm_compute; reflexivity) c) as Q.
  cbn beta in Q. apply cmem_In in K.
  assert (existsb (Ascii.eqb (lower_c c)) (lit "infinitynan") = true) as Q2.
  { apply cmem_In in K. apply cmem_In.
    destruct Hw as [->|[->| ->]]; cbn in K; cbn; intuition. }
  now rewrite Q2 in Q.
Qed.

Lemma drop_underscores_chars : forall s b t, drop_underscores b s = Some t ->
  forall c, In c s -> c = "_"%char \/ In c t.
Proof.
  induction s as [|x s IH]; cbn; intros b t H c Hc; [contradiction|].
  destruct (Ascii.eqb_spec x "_"%char) as [->|N].
  - destruct Hc as [<-|Hc]; auto. destruct s as [|d s]; [discriminate|].
    destruct (b && is_dig d); [|discriminate]. eapply IH; eauto.
  - destruct (drop_underscores (is_dig x) s) as [t'|] eqn:E; [|discriminate].
    cbn in H. injection H as <-. destruct Hc as [<-|Hc]; [right; now left|].
    destruct (IH _ _ E c Hc); [auto|right; now right].
Qed.

Lemma float_chars : forall s f, float_of_str s = Some f -> Forall number_char (num_strip s).
Proof.
  intros s f H. unfold float_of_str in H.
  destruct (drop_underscores false (num_strip s)) as [t|] eqn:E; [|discriminate].
  assert (Forall number_char t) as F.
  { destruct (take_sign t) as [b u] eqn:T. eapply take_sign_number; eauto.
    destruct (str_eqb (lower u) (lit "inf") || str_eqb (lower u) (lit "infinity")) eqn:S1.
    - apply orb_true_iff in S1. destruct S1 as [S1|S1]; apply str_eqb_eq in S1;
        eapply lower_special; try exact S1; auto.
    - destruct (str_eqb (lower u) (lit "nan")) eqn:S2.
      + apply str_eqb_eq in S2. eapply lower_special; try exact S2; auto.
      + destruct (scan_udec b u) eqn:S3; [|discriminate]. eapply scan_udec_number; eauto. }
  apply Forall_forall. intros c Hc. destruct (drop_underscores_chars _ _ _ E c Hc) as [->|K].
  - apply number_charb. reflexivity.
  - rewrite Forall_forall in F. auto.
Qed.

Lemma replace_char_keeps : forall c x r s, In x s -> x <> c -> In x (replace_char c r s).
Proof.
  intros c x r s H N. unfold replace_char. apply in_flat_map. exists x. split; auto.
  destruct (Ascii.eqb_spec x c); [contradiction|now left].
Qed.

Lemma repair_keeps : forall s c, In c s -> ~ number_char c -> c <> sp -> In c (fortran_repair s).
Proof.
  intros s c H N1 N2. unfold fortran_repair. apply replace_char_keeps; auto.
  destruct ((count_char "E" s <? 1) && _); auto.
  rewrite in_app_iff. unfold drop_last_n, last_n.
  rewrite <- (firstn_skipn (length s - 3) s) in H. apply in_app_iff in H. destruct H as [H|H]; auto.
  right. apply replace_char_keeps; auto.
  destruct (_ =? _); intros ->; apply N1; apply number_charb; reflexivity.
Qed.

Lemma in_strip : forall s c, In c s -> ~ white c -> In c (strip s).
Proof.
  intros s c H N. destruct (strip_trimmed s) as (a & b & E & Ha & Hb & _).
  rewrite E in H. rewrite !in_app_iff in H. unfold blank in *. rewrite Forall_forall in Ha, Hb.
  destruct H as [H|[H|H]]; auto; exfalso; apply N; auto.
Qed.

Lemma in_num_strip : forall s c, In c s -> ~ white c -> In c (num_strip s).
Proof.
  intros s c H N. destruct (num_strip_decomp s) as (a & b & E & Ha & Hb).
  rewrite E in H. rewrite !in_app_iff in H. unfold num_blank in *. rewrite Forall_forall in Ha, Hb.
  destruct H as [H|[H|H]]; auto; exfalso; apply N; apply num_white_white; auto.
Qed.

Lemma foreign_rejected : forall s c, In c s -> ~ number_char c -> ~ white c ->
  parseFORTRANNumber s = Raise BrokenNumberError.
Proof.
  intros s c H N W. assert (In c (strip s)) as HS by now apply in_strip.
  assert (In c (num_strip s)) as HS' by now apply in_num_strip.
  assert (c <> sp) as Nsp. { intros ->. apply W. apply is_space_white. reflexivity. }
  unfold parseFORTRANNumber.
  destruct (str_eqb_spec (strip s) []) as [E|E]; [rewrite E in HS; contradiction|].
  destruct (float_of_str s) eqn:F.
  { apply float_chars in F. rewrite Forall_forall in F. exfalso. apply N. now apply F. }
  destruct (float_of_str (fortran_repair (strip s))) eqn:F2; auto.
  apply float_chars in F2. rewrite Forall_forall in F2. exfalso. apply N. apply F2.
  apply in_num_strip; auto. now apply repair_keeps.
Qed.

Lemma number_not_space : forall c, number_char c -> is_space c = false.
Proof.
  intros c H. apply number_charb in H.
  pose proof (forall_ascii (fun c => implb (existsb (Ascii.eqb c) (lit "0123456789.+-_eEiInNfFtTyYaA"))
     (negb (is_space c))) ltac:(vm_compute; reflexivity) c) as K.
  cbn beta in K. rewrite H in K. cbn in K. now apply negb_true_iff in K.
Qed.

Lemma parse_of_float : forall s f, float_of_str s = Some f -> parseFORTRANNumber s = Ok (Some f).
Proof.
  intros s f H. unfold parseFORTRANNumber.
  destruct (str_eqb_spec (strip s) []) as [E|E].
  - pose proof (float_chars s f H) as F.
    assert (num_strip s = []) as Z.
    { destruct (num_strip s) as [|c t] eqn:K; auto. inversion F; subst.
      rewrite <- strip_num_strip, K in E. apply strip_blank in E. inversion E; subst.
      apply number_not_space in H2. apply is_space_white in H4. congruence. }
    unfold float_of_str in H. rewrite Z in H. discriminate.
  - now rewrite H.
Qed.

(** ** totality of parseFORTRANNumber *)

Lemma parse_total : forall s,
  (parseFORTRANNumber s = Ok None /\ blank s) \/
  ((exists f, parseFORTRANNumber s = Ok (Some f)) /\ ~ blank s) \/
  (parseFORTRANNumber s = Raise BrokenNumberError /\ ~ blank s).
Proof.
  intro s. rewrite <- strip_blank. unfold parseFORTRANNumber.
  destruct (str_eqb_spec (strip s) []) as [E|E]; auto.
  destruct (float_of_str s); [right; left; eauto|].
  destruct (float_of_str (fortran_repair (strip s))); [right; left; eauto|right; right; auto].
Qed.

Lemma parse_surround : forall a s b, num_blank a -> num_blank b ->
  parseFORTRANNumber (a ++ s ++ b) = parseFORTRANNumber s.
Proof.
  intros a s b Ha Hb.
  pose proof (strip_surround a s b (num_blank_blank _ Ha) (num_blank_blank _ Hb)) as H.
  unfold parseFORTRANNumber. rewrite H.
  now rewrite (float_of_str_same_strip (a ++ s ++ b) s (num_strip_surround a s b Ha Hb)).
Qed.

(** Texts with a capital E: only blanks are removed. *)
Lemma parse_with_E : forall s core, trimmed s core -> In "E"%char core -> float_of_str s = None ->
  parseFORTRANNumber s =
  match float_of_str (filter (fun c => negb (Ascii.eqb c sp)) core) with
  | Some f => Ok (Some f) | None => Raise BrokenNumberError end.
Proof.
  intros s core T HE HN. apply strip_iff in T. unfold parseFORTRANNumber. rewrite T, HN.
  destruct (str_eqb_spec core []) as [->|E]; [contradiction|].
  assert (count_char "E" core <? 1 = false) as C.
  { apply Nat.ltb_ge. unfold count_char. apply in_split in HE. destruct HE as (x & y & ->).
    rewrite filter_app, app_length. cbn. lia. }
  unfold fortran_repair. rewrite C. cbn [andb].
  assert (forall t, replace_char sp [] t = filter (fun c => negb (Ascii.eqb c sp)) t) as R.
  { unfold replace_char. induction t as [|c t IH]; cbn; auto. destruct (Ascii.eqb c sp); cbn; now rewrite IH. }
  now rewrite R.
Qed.

(** Three-digit exponents without E are rejected. *)
Lemma three_digit_exponent : forall sg ip fr k m d1 d2 d3,
  good_mantissa ip fr -> (d1 < 10)%N -> (d2 < 10)%N -> (d3 < 10)%N ->
  parseFORTRANNumber (mantissa_text sg ip fr ++ repeat sp k ++ exp_sign m :: digits_text [d1; d2; d3])
  = Raise BrokenNumberError.
Proof.
  intros sg ip fr k m d1 d2 d3 G H1 H2 H3.
  assert (is_digits [d1; d2; d3]) as He by (repeat constructor; auto).
  set (s := mantissa_text sg ip fr ++ repeat sp k ++ exp_sign m :: digits_text [d1; d2; d3]).
  assert (strip s = s) as Hs.
  { unfold s. destruct (mantissa_starts sg ip fr G) as (x & t & -> & Hx).
    cbn [app]. replace (x :: t ++ repeat sp k ++ exp_sign m :: digits_text [d1; d2; d3])
      with (x :: t ++ (repeat sp k ++ [exp_sign m; digit_char d1; digit_char d2]) ++ [digit_char d3])
      by (rewrite <- app_assoc; reflexivity).
    apply strip_ends; auto. now apply digit_not_space. }
  assert (forall j, ~ In "_"%char (mantissa_text sg ip fr ++ repeat sp j ++ exp_sign m :: digits_text [d1; d2; d3])) as HU.
  { intro j. rewrite !in_app_iff. intros [H|[H|[H|H]]].
    - revert H. apply mantissa_notin; auto; try discriminate. reflexivity.
    - apply repeat_spec in H. discriminate.
    - destruct m; discriminate.
    - unfold digits_text in H. apply in_map_iff in H. destruct H as (d & E & Hd).
      unfold is_digits in He. rewrite Forall_forall in He. specialize (He d Hd). by_digit d He. }
  assert (forall j t, num_strip t = mantissa_text sg ip fr ++ repeat sp j ++ exp_sign m :: digits_text [d1; d2; d3] ->
          float_of_str t = None) as HN.
  { intros j t Ht. rewrite (float_of_mantissa sg ip fr (repeat sp j ++ exp_sign m :: digits_text [d1; d2; d3])); auto.
    - destruct j; cbn; [destruct m; reflexivity|reflexivity].
    - intros c u E. destruct j; cbn in E; injection E as <- _.
      + destruct m; split; try reflexivity; discriminate.
      + split; [reflexivity|discriminate]. }
  unfold parseFORTRANNumber. rewrite Hs, (HN k s (num_strip_both s Hs)).
  assert (str_eqb s [] = false) as ->.
  { apply str_eqb_neq. unfold s. destruct (mantissa_starts sg ip fr G) as (x & t & -> & Hx). discriminate. }
  assert (fortran_repair s = mantissa_text sg ip fr ++ repeat sp 0 ++ exp_sign m :: digits_text [d1; d2; d3]) as R.
  { unfold fortran_repair.
    assert (s = (mantissa_text sg ip fr ++ repeat sp k ++ [exp_sign m]) ++ digits_text [d1; d2; d3]) as S3.
    { unfold s. rewrite <- !app_assoc. reflexivity. }
    change 3 with (length (digits_text [d1; d2; d3])). rewrite S3.
    rewrite last_n_app, drop_last_n_app.
    assert (1 <=? count_char "+" (digits_text [d1; d2; d3]) + count_char "-" (digits_text [d1; d2; d3]) = false) as ->.
    { clear - H1 H2 H3. by_digit d1 H1; by_digit d2 H2; by_digit d3 H3. }
    rewrite andb_false_r. rewrite !replace_char_app, mantissa_no_sp, replace_sp_repeat by auto.
    cbn [repeat app]. rewrite <- app_assoc. f_equal.
    rewrite (replace_char_notin sp [] (digits_text _)).
    - destruct m; reflexivity.
    - intro H. unfold digits_text in H. apply in_map_iff in H. destruct H as (d & E & Hd).
      unfold is_digits in He. rewrite Forall_forall in He. specialize (He d Hd). by_digit d He. }
  rewrite R. rewrite (HN 0); auto. apply num_strip_both.
  destruct (mantissa_starts sg ip fr G) as (x & t & -> & Hx).
  cbn [app repeat]. replace (x :: t ++ exp_sign m :: digits_text [d1; d2; d3])
      with (x :: t ++ [exp_sign m; digit_char d1; digit_char d2] ++ [digit_char d3]) by reflexivity.
  apply strip_ends; auto. now apply digit_not_space.
Qed.
