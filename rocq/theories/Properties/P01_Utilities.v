(** Properties C01-C07: exfor_utilities. *)
From Coq Require Import String List Ascii NArith ZArith Bool Arith.
From Coq Require Import Floats.SpecFloat.
From Verif.Model Require Import Py PyFloat Utilities.
From Verif.Spec Require Import Text.
From Verif.Proofs Require Import StrLemmas UtilLemmas NumLemmas FloatLemmas.
Import ListNotations.
Local Open Scope list_scope.

(** C01 *)
Theorem C01_unique_elements : forall (A : Type) (eqb : A -> A -> bool),
  (forall a b, eqb a b = true <-> a = b) ->
  forall l, NoDup (unique eqb l) /\ forall x, In x (unique eqb l) <-> In x l.
Proof. exact (fun A eqb H l => conj (unique_NoDup eqb H l) (unique_In eqb H l)). Qed.
Print Assumptions C01_unique_elements.

Theorem C01_unique_order : forall (A : Type) (eqb : A -> A -> bool),
  (forall a b, eqb a b = true <-> a = b) ->
  forall l u1 u2 u3 x y, unique eqb l = u1 ++ x :: u2 ++ y :: u3 ->
  exists l1 l2, l = l1 ++ x :: l2 /\ ~ In x l1 /\ ~ In y l1.
Proof. exact @unique_order. Qed.
Print Assumptions C01_unique_order.

Theorem C01_unique_idempotent : forall (A : Type) (eqb : A -> A -> bool),
  (forall a b, eqb a b = true <-> a = b) ->
  forall l, unique eqb (unique eqb l) = unique eqb l.
Proof. exact @unique_idem. Qed.
Print Assumptions C01_unique_idempotent.

Example C01_example : unique str_eqb [lit "b"; lit "a"; lit "b"; lit "c"; lit "a"] = [lit "b"; lit "a"; lit "c"].
Proof. reflexivity. Qed.

(** C02 *)
Theorem C02_parse_outcomes : forall s,
  (parseFORTRANNumber s = Ok None /\ blank s) \/
  ((exists f, parseFORTRANNumber s = Ok (Some f)) /\ ~ blank s) \/
  (parseFORTRANNumber s = Raise BrokenNumberError /\ ~ blank s).
Proof. exact parse_total. Qed.
Print Assumptions C02_parse_outcomes.

Theorem C02_parse_surrounding_blanks : forall a s b, num_blank a -> num_blank b ->
  parseFORTRANNumber (a ++ s ++ b) = parseFORTRANNumber s.
Proof. exact parse_surround. Qed.
Print Assumptions C02_parse_surrounding_blanks.

(** Nothing but number characters and blanks is ever accepted. *)
Theorem C02_parse_rejects_foreign_characters : forall s c,
  In c s -> ~ number_char c -> ~ white c -> parseFORTRANNumber s = Raise BrokenNumberError.
Proof. exact foreign_rejected. Qed.
Print Assumptions C02_parse_rejects_foreign_characters.

Example C02_example_surround : parseFORTRANNumber (lit "  " ++ lit "1.5" ++ [nl]) = parseFORTRANNumber (lit "1.5")
  /\ parseFORTRANNumber (lit "1.5") = Ok (Some (fl 15 (-1))).
Proof. split; vm_compute; reflexivity. Qed.
(** The separators 28..31 are whitespace for strip() but not for float(): around a short
    negative number they change the answer. *)
Theorem C02_separators_change_the_answer : exists a s, blank a /\
  parseFORTRANNumber s = Ok (Some (float_of_dec (mkDec true 5 0))) /\
  parseFORTRANNumber (a ++ s) = Raise BrokenNumberError.
Proof.
  exists [ch 28], (lit "-5"). split; [constructor; [vm_compute; auto 10|constructor]|].
  split; vm_compute; reflexivity.
Qed.
Print Assumptions C02_separators_change_the_answer.
Example C02_example_foreign : In "D"%char (lit "1.5D-03") /\ ~ number_char "D"%char /\ ~ white "D"%char.
Proof. split; [cbn; auto 10|]. split; vm_compute; intuition discriminate. Qed.

(** C03 *)
Theorem C03_parse_agrees_with_float : forall s f,
  float_of_str s = Some f -> parseFORTRANNumber s = Ok (Some f).
Proof. exact parse_of_float. Qed.
Print Assumptions C03_parse_agrees_with_float.

(** float() itself on plain literals: the model of float() used above reads a mantissa with
    an optional E exponent as the rounded decimal number it denotes. *)
Theorem C03_float_of_literal : forall sg ip fr m ed,
  good_mantissa ip fr -> is_digits ed -> ed <> [] ->
  float_of_str (mantissa_text sg ip fr ++ "E"%char :: exp_sign m :: digits_text ed) =
  Some (float_of_dec (mkDec (is_minus sg) (value10 (ip ++ frac_digits fr))
     ((if m then - Z.of_N (value10 ed) else Z.of_N (value10 ed))
      - Z.of_nat (length (frac_digits fr))))).
Proof. exact repaired_value. Qed.
Print Assumptions C03_float_of_literal.

Example C03_example : parseFORTRANNumber (lit " -1.25e2") = Ok (Some (float_of_dec (mkDec true 125 0))).
Proof. vm_compute. reflexivity. Qed.
Example C03_example_literal :
  mantissa_text SMinus [1]%N (Some [2;5]%N) ++ "E"%char :: exp_sign true :: digits_text [0;3]%N = lit "-1.25E-03"
  /\ good_mantissa [1]%N (Some [2;5]%N) /\ is_digits [0;3]%N.
Proof. repeat split; try reflexivity; repeat constructor; discriminate. Qed.

(** C04 *)
Theorem C04_missing_exponent_letter : forall sg ip fr k m ed,
  good_mantissa ip fr -> is_digits ed -> (length ed = 1 \/ length ed = 2) ->
  parseFORTRANNumber (mantissa_text sg ip fr ++ repeat sp k ++ exp_sign m :: digits_text ed) =
  Ok (Some (float_of_dec (mkDec (is_minus sg) (value10 (ip ++ frac_digits fr))
     ((if m then - Z.of_N (value10 ed) else Z.of_N (value10 ed))
      - Z.of_nat (length (frac_digits fr)))))).
Proof. exact missing_exponent. Qed.
Print Assumptions C04_missing_exponent_letter.

(** With a capital E present, all blanks are removed before reading. *)
Theorem C04_inner_blanks_with_E : forall s core,
  trimmed s core -> In "E"%char core -> float_of_str s = None ->
  parseFORTRANNumber s =
  match float_of_str (filter (fun c => negb (Ascii.eqb c sp)) core) with
  | Some f => Ok (Some f) | None => Raise BrokenNumberError end.
Proof. exact parse_with_E. Qed.
Print Assumptions C04_inner_blanks_with_E.

Theorem C04_three_digit_exponent_rejected : forall sg ip fr k m d1 d2 d3,
  good_mantissa ip fr -> (d1 < 10)%N -> (d2 < 10)%N -> (d3 < 10)%N ->
  parseFORTRANNumber (mantissa_text sg ip fr ++ repeat sp k ++ exp_sign m :: digits_text [d1; d2; d3])
  = Raise BrokenNumberError.
Proof. exact three_digit_exponent. Qed.
Print Assumptions C04_three_digit_exponent_rejected.

Example C04_example : parseFORTRANNumber (lit "-1.25 -03") = Ok (Some (float_of_dec (mkDec true 125 (-5)))).
Proof. vm_compute. reflexivity. Qed.
Example C04_example_shape :
  mantissa_text SMinus [1]%N (Some [2;5]%N) ++ repeat sp 1 ++ exp_sign true :: digits_text [0;3]%N = lit "-1.25 -03"
  /\ good_mantissa [1]%N (Some [2;5]%N) /\ is_digits [0;3]%N.
Proof. repeat split; try reflexivity; repeat constructor; discriminate. Qed.
Example C04_example_E : parseFORTRANNumber (lit "1.5 E- 03") = Ok (Some (float_of_dec (mkDec false 15 (-4))))
  /\ float_of_str (lit "1.5 E- 03") = None.
Proof. split; vm_compute; reflexivity. Qed.

(** C05 *)
Theorem C05_chunkify_request : forall lines bs,
  chunkifyX4Request lines = bs <->
  blocks (keyword_line "ENTRY") (keyword_line "ENDENTRY") lines bs.
Proof. exact chunkifyX4Request_iff. Qed.
Print Assumptions C05_chunkify_request.

Example C05_example :
  chunkifyX4Request [lit "REQUEST"; lit "ENTRY      10001"; lit "x"; lit "ENDENTRY     2"; lit "junk";
                     lit "ENTRY      10002"; lit "ENDENTRY"; lit "ENTRY      10003"; lit "lost"]
  = [[lit "ENTRY      10001"; lit "x"; lit "ENDENTRY     2"]; [lit "ENTRY      10002"; lit "ENDENTRY"]].
Proof. vm_compute. reflexivity. Qed.

(** C06 *)
Theorem C06_table : forall (V : Type) (ds : list (list (str * V))) cols hd rows,
  list_of_dicts_to_table ds cols = (hd, rows) ->
  (forall c, cols = Some c -> hd = c) /\
  (cols = None -> NoDup hd /\ forall k, In k hd <-> exists d v, In d ds /\ In (k, v) d) /\
  length rows = length ds /\
  (forall i d, nth_error ds i = Some d -> NoDup (map fst d) ->
     exists row, nth_error rows i = Some row /\ length row = length hd /\
     forall j k, nth_error hd j = Some k ->
       exists cell, nth_error row j = Some cell /\
       (forall v, cell = Some v <-> In (k, v) d) /\
       (cell = None <-> ~ In k (map fst d))).
Proof. exact table_spec. Qed.
Print Assumptions C06_table.

Example C06_example :
  list_of_dicts_to_table [[(lit "a", 1); (lit "b", 2)]; [(lit "c", 3); (lit "a", 4)]] None
  = ([lit "a"; lit "b"; lit "c"], [[Some 1; Some 2; None]; [Some 4; None; Some 3]]).
Proof. reflexivity. Qed.

(** C07 *)
Theorem C07_within_symmetric : forall a b percent absTol,
  withinXPercent a b percent absTol = withinXPercent b a percent absTol.
Proof. exact within_sym. Qed.
Print Assumptions C07_within_symmetric.

Theorem C07_within_reflexive : forall a percent absTol,
  finite a -> fleb fzero percent = true -> withinXPercent a a percent absTol = Ok true.
Proof. exact within_refl. Qed.
Print Assumptions C07_within_reflexive.

Theorem C07_within_never_raises : forall a b percent absTol,
  exists r, withinXPercent a b percent absTol = Ok r.
Proof. exact within_total. Qed.
Print Assumptions C07_within_never_raises.

Theorem C07_all_within : forall aL bL percent absTol,
  allWithinXPercent aL bL percent absTol = Ok true <->
  Forall2 (fun a b => withinXPercent a b percent absTol = Ok true) aL bL.
Proof. exact all_within_iff. Qed.
Print Assumptions C07_all_within.

(** REFUTED clause: every finite number compares equal to its opposite, whatever the tolerance. *)
Theorem C07_opposites_accepted : forall a percent absTol,
  finite a -> withinXPercent a (SFopp a) percent absTol = Ok true.
Proof. exact within_opp. Qed.
Print Assumptions C07_opposites_accepted.

Theorem C07_within_rejects_different_refuted : exists a b,
  fltb (fl 9 0) (fabs (fsub a b)) = true /\
  withinXPercent a b default_percent default_absTol = Ok true.
Proof. exists (fl 5 0), (SFopp (fl 5 0)). split; vm_compute; reflexivity. Qed.
Print Assumptions C07_within_rejects_different_refuted.

Example C07_example : withinXPercent (fl 100 0) (fl 1005 (-1)) default_percent default_absTol = Ok true
  /\ withinXPercent (fl 100 0) (fl 102 0) default_percent default_absTol = Ok false
  /\ finite (fl 100 0) /\ fleb fzero default_percent = true.
Proof. repeat split; vm_compute; auto. Qed.
