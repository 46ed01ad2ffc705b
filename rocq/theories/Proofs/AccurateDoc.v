(** The simplified cross sections of an entry, as real numbers. *)
From Coq Require Import String List Ascii NArith ZArith Reals Bool Lia Lra.
From Verif.Model Require Import Py PyFloat Particle Reaction Field Section Entry Columns Dataset Pyparsing Grammars Shipped.
From Verif.Spec Require Import Text Exfor Tables DataSets Merging Codes Balance Doubles Document Accuracy.
From Verif.Proofs Require Import DocumentLemmas AccuracyLemmas.
Import ListNotations.
Local Open Scope list_scope.

Lemma existsb_Forall2 : forall {A B} (P : A -> B -> Prop) (f : A -> bool) (g : B -> bool) l m, Forall2 P l m ->
  (forall a b, P a b -> f a = g b) -> existsb f l = existsb g m.
Proof. induction 1 as [|a b l m H F IH]; intros E; cbn [existsb]; [reflexivity|]. rewrite (E a b H), IH by exact E. reflexivity. Qed.
Lemma Forall2_map_l : forall {A B C} (P : C -> B -> Prop) (f : A -> C) l m, Forall2 (fun a b => P (f a) b) l m -> Forall2 P (map f l) m.
Proof. induction 1; constructor; assumption. Qed.
Lemma close_given : forall a lo hi x r, close a lo hi x r -> is_given x = is_given r.
Proof. intros a lo hi [x|] [r|] H; try contradiction; reflexivity. Qed.

Lemma table_accurate : forall heads a f b g w rows rrows, cross_section_columns heads a f b g w ->
  Forall2 (Forall2 (close u (-100) 100)) rows rrows ->
  Forall2 (fun cells row => Forall2 (agrees 50) cells (real_row rrows a f b g w row)) (t_data (simplified_table rows a f b g w)) rrows.
Proof.
  intros heads a f b g w rows rrows C F. destruct C as [(ue & _ & He) (uv & _ & Hv) Hw _].
  assert (W : match w with Absolute _ m x => exists un c, In (un, c, (m, x)) unit_table | _ => True end).
  { destruct w as [|j m x|j]; try exact I. destruct Hw as (un & _ & Hw). eauto. }
  assert (U : forall xs rs, Forall2 (close u (-100) 100) xs rs ->
     close (7 * u) (-211) 207 (uncertainty_of b g w xs) (real_uncertainty b g w rs)) by (intros; eapply uncertainty_close; eassumption).
  assert (E : existsb (fun row => match uncertainty_of b g w row with Some _ => true | None => false end) rows
            = existsb (fun row => is_given (real_uncertainty b g w row)) rrows).
  { eapply existsb_Forall2; [exact F|]. intros xs rs G. exact (close_given _ _ _ _ _ (U xs rs G)). }
  unfold simplified_table, real_row. rewrite E. cbn [t_data]. apply Forall2_map_l.
  generalize (existsb (fun row => is_given (real_uncertainty b g w row)) rrows). intros given. clear E.
  induction F as [|xs rs rows rrows H F IH]; constructor; [|exact IH].
  cbn [app map]. constructor.
  { eapply close_agrees; [lia| |unfold energy_of; eapply in_unit_close; [exact He|apply at_column_close, H]]. unfold u. cbn. lra. }
  constructor.
  { eapply close_agrees; [lia| |eapply in_unit_close; [exact Hv|apply at_column_close, H]]. unfold u. cbn. lra. }
  destruct given; cbn [map]; constructor; [|constructor].
  eapply close_agrees; [lia| |apply U, H]. unfold u. cbn. lra.
Qed.

Lemma stands_some : forall xs rs j, Forall2 stands xs rs -> real_at rs j <> None -> at_column xs j <> None.
Proof.
  intros xs rs j F. revert j. induction F as [|x r xs rs H F IH]; intros j N.
  - destruct j; exfalso; apply N; reflexivity.
  - destruct j as [|j]; [|exact (IH j N)]. unfold real_at in N. unfold at_column. cbn [nth_error] in *.
    destruct x, r; try contradiction; congruence.
Qed.

Lemma doc_accurate : forall c e nm acos raw n num text text1 bib data r line h1 h2 hd q1 q2 qs a f b g w errs s ds errs' n' s',
  Forall particle_key (c_particles c) -> Forall compound_key (c_compounds c) -> e_g e = x4grammars c ->
  X4Entry e raw = Ok n -> getSimplifiedDataSets nm acos false n errs s = Ok (ds, errs', n', s') ->
  last_such (numbered num) raw text -> last_such (numbered (n_accnum n ++ tx "001")) raw text1 -> num <> n_accnum n ++ tx "001" ->
  sections_named text -> sections_named text1 ->
  has_section "BIB" text bib -> states_reaction bib r line -> good_reaction (c_particles c) r -> balances r ->
  kind (map PTok (quantities r)) CrossSection ->
  real_common text1 h1 q1 -> real_common text h2 q2 -> has_section "DATA" text data -> real_table data hd qs ->
  cross_section_columns (h1 ++ h2 ++ hd) a f b g w ->
  (exists row, In row qs /\ real_at (q1 ++ q2 ++ row) a <> None) ->
  (exists row, In row qs /\ real_at (q1 ++ q2 ++ row) b <> None) ->
  all_ordinary (q1 :: q2 :: qs) ->
  exists d rx R, dget key_eqb (n_accnum n, Some num, " "%char) ds = Some d /\
    ds_reaction d = Some (MRxn rx, PTok line) /\ tells r rx R /\ ds_class_of d = CrossSection /\ ds_simplified d = true /\
    Forall2 (fun cells row => Forall2 (agrees 50) cells (real_row (map (fun row => q1 ++ q2 ++ row) qs) a f b g w row))
            (t_data (ds_table d)) (map (fun row => q1 ++ q2 ++ row) qs).
Proof.
  intros c e nm acos raw n num text text1 bib data r line h1 h2 hd q1 q2 qs a f b g w errs s ds errs' n' s'
    P1 P2 P3 P4 P5 P6 P7 P8 P9 P10 P11 P12 P13 P14 P15 C1 C2 P16 T Col A B O.
  destruct (real_common_written _ _ _ C1) as (r1 & D1 & S1). destruct (real_common_written _ _ _ C2) as (r2 & D2 & S2).
  destruct (real_written _ _ _ T) as (rows & W & S3).
  assert (S : Forall2 (Forall2 stands) (map (fun row => r1 ++ r2 ++ row) rows) (map (fun row => q1 ++ q2 ++ row) qs)).
  { clear - S1 S2 S3. induction S3 as [|x y xs ys H F IH]; constructor; [|exact IH]. apply Forall2_app; [exact S1|apply Forall2_app; [exact S2|exact H]]. }
  assert (G : forall j, (exists row, In row qs /\ real_at (q1 ++ q2 ++ row) j <> None) -> exists row, In row rows /\ at_column (r1 ++ r2 ++ row) j <> None).
  { intros j (row & I & N). clear - S1 S2 S3 I N. induction S3 as [|x y xs ys H F IH]; [contradiction|]. destruct I as [->|I].
    - exists x. split; [now left|]. eapply stands_some; [|exact N]. apply Forall2_app; [exact S1|apply Forall2_app; [exact S2|exact H]].
    - destruct (IH I) as (z & J & Z). exists z. split; [now right|exact Z]. }
  pose proof (doc_cross c e nm raw n num text text1 bib data r line h1 h2 hd r1 r2 rows CrossSection) as X.
  destruct (X P1 P2 P3 P4 P6 P7 P8 P9 P10 P11 P12 P13 P14 P15 D1 D2 P16 W acos errs s ds errs' n' s' a f b g w eq_refl P5 Col (G a A) (G b B))
    as (d & rx & R & E1 & E2 & E3 & E4 & E5 & E6).
  exists d, rx, R. split; [exact E1|]. split; [exact E2|]. split; [exact E3|]. split; [exact E4|]. split; [exact E5|].
  rewrite E6. eapply table_accurate; [exact Col|].
  assert (O' : forall row x, In row (map (fun row => q1 ++ q2 ++ row) qs) -> In (Some x) row -> ordinary x).
  { intros row x I J. apply in_map_iff in I. destruct I as (q & <- & I). apply in_app_or in J. destruct J as [J|J].
    - apply (O q1 x); [now left|exact J].
    - apply in_app_or in J. destruct J as [J|J]; [apply (O q2 x); [right; now left|exact J]|apply (O q x); [right; right; exact I|exact J]]. }
  clear - S O'. induction S as [|x y xs ys H F IH]; constructor.
  - apply stands_close; [exact H|]. intros q I. apply (O' y q); [now left|exact I].
  - apply IH. intros row q I. apply O'. now right.
Qed.

(** ** Cells of any table *)

From Coq Require Import Floats.SpecFloat.
From Flocq Require Import Core.Core IEEE754.BinarySingleNaN.
From Verif.Proofs Require Import RoundLemmas ArithLemmas.
From Verif.Spec Require Readings.
Local Open Scope R_scope.

Lemma double_exists : forall r, Rabs r < overflow -> exists z, rounds r z.
Proof.
  intros r H. apply fits in H.
  set (m := Ztrunc (scaled_mantissa radix2 dexp2 (rnd r))). set (e := cexp radix2 dexp2 (rnd r)).
  assert (E : rnd r = F2R (Float radix2 m e)) by (apply generic_format_round; typeclasses eauto).
  assert (G : rnd (rnd r) = rnd r) by (apply round_generic; [typeclasses eauto|apply generic_format_round; typeclasses eauto]).
  pose proof (binary_normalize_correct fprec femax _ _ mode_NE m e false) as C. cbn zeta in C. rewrite <- E in C.
  cbn [round_mode] in C. rewrite G, H in C. destruct C as (V & F & _).
  exists (B2SF (binary_normalize fprec femax _ _ mode_NE m e false)). split; [apply B_double|]. split; [apply B_finite, F|].
  rewrite B_value. exact V.
Qed.
Lemma nearest_near : forall r x, nearest r x -> ordinary r -> near u (-100) 100 x r.
Proof.
  intros r x (D & F & N & _) O. split; [exact D|]. split; [exact F|]. split; [|exact O].
  assert (L : Rabs r < overflow) by (eapply no_overflow with (lo := (-100)%Z); eapply mag_weaken; [| |exact O]; lia).
  destruct (double_exists r L) as [z Z]. unfold rel. rewrite <- u_power.
  eapply Rle_trans; [apply (N z); apply Z|]. apply rounds_close; [exact Z|]. apply (small_enough 100). eapply mag_weaken; [| |exact O]; lia.
Qed.

Lemma worth_unit : forall un c f, In (un, c, f) unit_table -> fst (Readings.worth (Readings.tx un)) = fl (fst f) (snd f).
Proof.
  intros un c f I. cbn in I. repeat (destruct I as [I|I]; [injection I as <- <- <-; vm_compute; reflexivity|]). contradiction.
Qed.

Lemma cell_accurate : forall acos w t i j un c f row x r, Readings.place w t = Some j -> Readings.cosines w t = false ->
  nth_error (t_units t) j = Some (Some (Readings.tx un)) -> In (un, c, f) unit_table ->
  nth_error (t_data t) i = Some row -> nth_error row j = Some (VFloat x) -> nearest r x -> ordinary r ->
  exists y, Readings.cell acos w t i = Some y /\ within 50 y (r * worth_of f * (if Readings.so_half w then / 2 else 1)).
Proof.
  intros acos w t i j un c f row x r P NC U I Rw X N O. unfold Readings.cell, Readings.written_unit. rewrite P, U, Rw, X, NC.
  cbn [number]. eexists. split; [reflexivity|]. rewrite (worth_unit _ _ _ I).
  assert (G : near (7 / 2 * u) (-109) 109 (fmul x (fl (fst f) (snd f))) (r * worth_of f)).
  { eapply near_weaken; [|apply (near_mul u u (-100) 100 (-9) 9); try lia; try (unfold u; lra); [apply nearest_near; assumption|eapply worth_near; exact I]]. unfold u. lra. }
  assert (K : near (8 * u) (-110) 110 (fmul (fmul x (fl (fst f) (snd f))) (if Readings.so_half w then fl 5 (-1) else fl 1 0))
                   (r * worth_of f * (if Readings.so_half w then / 2 else 1))).
  { destruct (Readings.so_half w).
    - assert (Hf : near 0 (-1) 1 (fl 5 (-1)) (/ 2)).
      { split; [vm_compute; intuition discriminate|]. split; [exact Logic.I|]. split.
        - assert (V : float_value (fl 5 (-1)) = / 2) by (vm_compute; lra). unfold rel. rewrite V. replace (/ 2 - / 2) with 0 by ring. rewrite Rabs_R0. lra.
        - right. rewrite Rabs_pos_eq by lra. change (powerRZ 10 (-1)) with (/ (10 * 1)). change (powerRZ 10 1) with (10 * 1). split; lra. }
      eapply near_weaken; [|apply (near_mul (7 / 2 * u) 0 (-109) 109 (-1) 1); try lia; try (unfold u; lra); assumption]. unfold u. lra.
    - rewrite Rmult_1_r. eapply near_weaken with (a := 7 / 2 * u); [unfold u; lra|].
      destruct (near_one _ _ _ _ _ G ltac:(unfold u; lra) ltac:(lia) ltac:(lia)) as (A & B & C & M). split; [exact A|]. split; [exact B|]. split; [exact C|].
      eapply mag_weaken; [| |exact M]; lia. }
  pose proof (near_zero _ _ _ _ _ K ltac:(unfold u; lra) ltac:(lia) ltac:(lia)) as Z.
  exact (close_agrees (8 * u) (-110) 110 50 (Some _) (Some _) ltac:(lia) ltac:(unfold u; cbn; lra) Z).
Qed.

Lemma unit_accurate : forall text r un c f, denotes text r -> ordinary r -> In (un, c, f) unit_table ->
  exists x y, Utilities.parseFORTRANNumber text = Ok (Some x) /\ in_unit f (Some x) = Some y /\ within 51 y (r * worth_of f).
Proof.
  intros text r un c f D O I. destruct (NearestLemmas.denotes_dec text r D) as (d & <- & P). exists (float_of_dec d). eexists.
  split; [exact P|]. split; [reflexivity|].
  assert (C : close u (-100) 100 (Some (float_of_dec d)) (Some (dec_value d))) by (apply near_dec; try lia; exact O).
  pose proof (in_unit_close _ _ _ _ _ I C) as G.
  exact (close_agrees (7 / 2 * u) (-109) 109 51 (in_unit f (Some (float_of_dec d))) (times f (Some (dec_value d))) ltac:(lia) ltac:(unfold u; cbn; lra) G).
Qed.
