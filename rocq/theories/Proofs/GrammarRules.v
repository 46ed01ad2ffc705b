(** The grammars of the model read what the rules say of the grammars of Spec/Grammar.v. *)
From Coq Require Import String List Ascii NArith ZArith Bool Arith Lia.
From Verif.Model Require Import Py Particle Pyparsing Grammars.
From Verif.Spec Require Import Peg Grammar.
From Verif.Proofs Require Import SuffixLemmas PegLemmas.
Import ListNotations.
Local Open Scope list_scope.
Local Open Scope nat_scope.

(** commaSeparatedList returns texts only. *)
Definition texts (e : pe) : Prop := forall ws s t r, impl e ws s = Some (t, r) -> map PTok (toks t) = t.
Lemma toks_app : forall a b, toks (a ++ b) = toks a ++ toks b.
Proof. intros a b. apply flat_map_app. Qed.
Lemma texts_run : forall e ws pre s t r, texts e -> run e ws pre s = Some (t, r) -> map PTok (toks t) = t.
Proof. intros e ws pre s t r T E. exact (T _ _ _ _ E). Qed.
Lemma texts_Combine : forall e, texts (Combine e).
Proof. intros e ws s t r E. cbn [Combine impl] in E. destruct (run e false false s) as [[u v]|]; [|discriminate]. injection E as <- <-. reflexivity. Qed.
Lemma texts_Suppress : forall e, texts (Suppress e).
Proof. intros e ws s t r E. cbn [Suppress impl] in E. destruct (run e ws false s) as [[u v]|]; [|discriminate]. injection E as <- <-. reflexivity. Qed.
Lemma texts_First : forall l, Forall texts l -> texts (MatchFirst l).
Proof.
  intros l F ws s t r E. cbn [MatchFirst impl] in E. induction F as [|e l T F IH]; cbn [first_of] in E; [discriminate|].
  destruct (run e ws true s) as [[u v]|] eqn:R; [injection E as <- <-; exact (texts_run _ _ _ _ _ _ T R)|now apply IH].
Qed.
Lemma texts_Opt : forall e d, texts e -> map PTok (toks d) = d -> texts (OptionalD e d).
Proof.
  intros e d T D ws s t r E. cbn [OptionalD impl] in E. destruct (run e ws false s) as [[u v]|] eqn:R; injection E as <- <-; [|exact D].
  exact (texts_run _ _ _ _ _ _ T R).
Qed.
Lemma texts_And : forall e l, texts e -> Forall texts l -> texts (And e l).
Proof.
  intros e l T F ws s t r E. cbn [And impl] in E. destruct (run e ws false s) as [[u v]|] eqn:R; [|discriminate].
  assert (A : forall l, Forall texts l -> forall s t r, and_rest l ws s = Some (t, r) -> map PTok (toks t) = t).
  { clear. induction 1 as [|e l T F IH]; intros s t r E; cbn [and_rest] in E; [injection E as <- <-; reflexivity|].
    destruct (run e ws true s) as [[u v]|] eqn:R; [|discriminate]. destruct (and_rest l ws v) as [[u' v']|] eqn:A; [|discriminate].
    injection E as <- <-. rewrite toks_app, map_app, (texts_run _ _ _ _ _ _ T R), (IH _ _ _ A). reflexivity. }
  destruct (and_rest l ws v) as [[u' v']|] eqn:Q; [|discriminate]. injection E as <- <-.
  rewrite toks_app, map_app, (texts_run _ _ _ _ _ _ T R), (A l F _ _ _ Q). reflexivity.
Qed.
Lemma texts_Zero : forall e, texts e -> texts (ZeroOrMore e).
Proof.
  intros e T ws s t r E. cbn [ZeroOrMore impl] in E. destruct (run e ws false s) as [[u v]|] eqn:R; [|injection E as <- <-; reflexivity].
  assert (A : forall n s t r, loop n e ws s = (t, r) -> map PTok (toks t) = t).
  { clear -T. induction n as [|n IH]; intros s t r E; cbn [loop] in E; [injection E as <- <-; reflexivity|].
    destruct (run e ws true s) as [[u v]|] eqn:R; [|injection E as <- <-; reflexivity]. destruct (loop n e ws v) as [u' v'] eqn:L.
    injection E as <- <-. rewrite toks_app, map_app, (texts_run _ _ _ _ _ _ T R), (IH _ _ _ L). reflexivity. }
  destruct (loop (length v) e ws v) as [u' v'] eqn:Q. injection E as <- <-.
  rewrite toks_app, map_app, (texts_run _ _ _ _ _ _ T R), (A _ _ _ _ Q). reflexivity.
Qed.
Lemma comma_texts : texts commaSeparatedList.
Proof.
  assert (I : texts (OptionalD (MatchFirst [quotedString; commasepitem]) [PTok []])).
  { apply texts_Opt; [|reflexivity]. apply texts_First. repeat constructor; apply texts_Combine. }
  apply texts_And; [exact I|]. constructor; [|constructor]. apply texts_Zero, texts_And; [apply texts_Suppress|]. constructor; [exact I|constructor].
Qed.

Section Codes.
Variable c : codes.
Let ps := c_particles c.
Let cs := c_compounds c.
Let def := names ps cs.

Ltac den := repeat progress (rewrite ?(denote_And def), ?(denote_Or def), ?(denote_First def), ?(denote_Opt def), ?(denote_Some def), ?(denote_Any def),
  ?(denote_Not def), ?(denote_Group def), ?(denote_Drop def), ?(denote_Join def), ?(denote_Strip def), ?(denote_Tok def); cbn [map app]).

Lemma d_one_of : forall d l, denote def d (Grammar.one_of l) = Grammars.one_of l.
Proof.
  intros d l. unfold Grammar.one_of, Grammars.one_of. den. f_equal. rewrite map_map. apply map_ext. intros m. apply denote_Tok.
Qed.
Lemma d_nucleus : forall d, denote def d nucleus = x4nucleus.
Proof. intros [|d]; reflexivity. Qed.
Lemma d_particle : forall d, denote def d particle = x4particle.
Proof. intros [|d]; reflexivity. Qed.
Lemma d_projectile : forall d, denote def d projectile = x4projectile.
Proof. intros [|d]; reflexivity. Qed.
Local Opaque Grammar.one_of nucleus particle projectile.
Lemma d_target : forall d, denote def d (target cs) = x4target c.
Proof.
  intros d. unfold target, x4target. den. cbn [map]. den. cbn [map]. unfold compound. rewrite d_one_of, d_nucleus. now destruct d.
Qed.
Lemma d_residual : forall d, denote def d (residual cs) = x4residual c.
Proof.
  intros d. unfold residual, x4residual. den. cbn [map]. den. cbn [map]. unfold compound. rewrite d_one_of, d_nucleus. now destruct d.
Qed.
Lemma d_product : forall d, denote def d (product ps) = x4product c.
Proof.
  intros d. unfold product, x4product, x4basicparticle. den. cbn [map]. den. cbn [map]. den. rewrite d_one_of, d_nucleus. now destruct d.
Qed.
Local Opaque target residual product.
Lemma d_process : forall d, denote def d (process ps cs) = x4process c.
Proof.
  intros d. unfold process, x4process, listed, delimited. den. rewrite d_target. cbn [map app]. den. cbn [map].
  rewrite !d_product, d_residual, d_projectile. now destruct d.
Qed.
Local Opaque process.
Lemma d_reaction : forall d, denote def d (reaction ps cs) = x4reaction c.
Proof.
  intros d. unfold reaction, x4reaction, listed, delimited. den. cbn [map app]. den. cbn [map]. den. cbn [map]. den. rewrite !d_process. now destruct d.
Qed.
Local Opaque reaction.
Lemma d_nested : forall d, denote def d (GRef 0) = nestedExpr d.
Proof.
  induction d as [|d IH]; [reflexivity|]. cbn [denote nestedExpr]. f_equal. change (def 0) with nested. unfold nested.
  den. cbn [map]. den. cbn [map]. rewrite IH. now destruct d.
Qed.
Lemma d_factor : forall d, denote def d (factor ps cs) = x4compound_factor c d.
Proof.
  induction d as [|d IH].
  - unfold factor. den. cbn [map]. den. rewrite d_reaction. reflexivity.
  - unfold factor. den. cbn [map x4compound_factor]. den. rewrite d_reaction. do 3 f_equal. cbn [map]. f_equal.
    cbn [denote]. f_equal. change (def 1) with (combination ps cs). unfold combination, times. den. cbn [map app compound_tail].
    den. cbn [map]. den. cbn [map]. rewrite IH. destruct d; reflexivity.
Qed.
Lemma d_combination : forall d, denote def (S d) (GRef 1) = x4compound_expression c d.
Proof.
  intros d. cbn [denote]. unfold x4compound_expression. f_equal. change (def 1) with (combination ps cs). unfold combination, times.
  den. cbn [map app compound_tail]. den. cbn [map]. den. cbn [map]. rewrite d_factor. destruct d; reflexivity.
Qed.

Lemma one_of_sane : forall l, sane (Grammar.one_of l) = true.
Proof. intros l. Local Transparent Grammar.one_of. unfold Grammar.one_of. cbn [sane]. induction l; [reflexivity|exact IHl]. Qed.
Lemma one_of_eats : forall l, eats (Grammar.one_of l) = true.
Proof. intros l. unfold Grammar.one_of. cbn [eats]. induction l; [reflexivity|exact IHl]. Qed.
Lemma one_of_calls : forall l, calls_first (Grammar.one_of l) = false.
Proof. intros l. unfold Grammar.one_of. cbn [calls_first]. induction l; [reflexivity|exact IHl]. Qed.
Local Opaque Grammar.one_of.
Local Transparent nucleus particle projectile target residual product process reaction.
Ltac ev := repeat progress (cbn; rewrite ?one_of_sane, ?one_of_eats, ?one_of_calls; unfold compound).
Lemma target_sane : sane (target cs) = true.
Proof. unfold target. ev. reflexivity. Qed.
Lemma residual_sane : sane (residual cs) = true.
Proof. unfold residual. ev. reflexivity. Qed.
Lemma product_sane : sane (product ps) = true.
Proof. unfold product. ev. reflexivity. Qed.
Lemma target_eats : eats (target cs) = true.
Proof. unfold target. ev. reflexivity. Qed.
Local Opaque target residual product.
Lemma process_sane : sane (process ps cs) = true.
Proof. unfold process. ev. now rewrite target_sane, product_sane, residual_sane. Qed.
Lemma process_calls : calls_first (process ps cs) = false.
Proof.
  unfold process. cbn [calls_first]. rewrite target_eats. cbn [negb andb]. rewrite orb_false_r.
  Local Transparent target. unfold target. ev. reflexivity.
Qed.
Local Opaque target process.
Lemma reaction_sane : sane (reaction ps cs) = true.
Proof. unfold reaction. ev. now rewrite !process_sane. Qed.
Local Opaque reaction.
Lemma names_sane : forall n, sane (def n) = true.
Proof.
  intros [|n]; [reflexivity|]. change (def (S n)) with (combination ps cs). unfold combination, times, factor. ev. now rewrite reaction_sane.
Qed.
Local Transparent reaction.
Lemma names_eats : forall n, eats (def n) = true.
Proof. intros [|n]; reflexivity. Qed.
Lemma names_skips : forall n, skipping (def n) = true.
Proof. intros [|n]; reflexivity. Qed.
Lemma names_guarded : forall n, calls_first (def n) = false.
Proof. intros [|n]; reflexivity. Qed.

Lemma reads_of : forall g d s o, sane g = true -> length (expandtabs s) < d ->
  (reads_text def strip g (expandtabs s) o <-> parseString (denote def d g) s = o).
Proof.
  intros g d s o SA L. unfold parseString. apply denote_reads; auto using names_sane, names_eats, names_skips, names_guarded.
Qed.

Lemma rules_at : forall (e : pe) g d s o, sane g = true -> denote def d g = e -> length (expandtabs s) < d ->
  (parseString e s = o <-> reads_text def strip g (expandtabs s) o).
Proof. intros e g d s o SA <- L. symmetry. now apply reads_of. Qed.

Lemma all_rules : forall s,
  (forall o, g_particle (x4grammars c) s = o <-> reads_text def strip particle (expandtabs s) o) /\
  (forall o, g_nucleus (x4grammars c) s = o <-> reads_text def strip nucleus (expandtabs s) o) /\
  (forall o, g_chemical (x4grammars c) s = o <-> reads_text def strip (compound cs) (expandtabs s) o) /\
  (forall o, g_process (x4grammars c) s = o <-> reads_text def strip (process ps cs) (expandtabs s) o) /\
  (forall o, g_reaction (x4grammars c) s = o <-> reads_text def strip (reaction ps cs) (expandtabs s) o) /\
  (forall o, g_compound (x4grammars c) s = o <-> reads_text def strip (GRef 1) (expandtabs s) o) /\
  (forall o, g_reactionfield (x4grammars c) s = o <-> reads_text def strip reaction_field (expandtabs s) o) /\
  (forall o, g_textfield (x4grammars c) s = o <-> reads_text def strip text_field (expandtabs s) o) /\
  (forall o, g_refcode (x4grammars c) s = o <-> reads_text def strip reference (expandtabs s) o) /\
  (forall o, g_refcodetautology (x4grammars c) s = o <-> reads_text def strip reference_same (expandtabs s) o) /\
  (forall o, option_map (map PTok) (g_comma (x4grammars c) s) = o <-> reads_text def strip commas (expandtabs s) o).
Proof.
  intros s. set (d := S (length (expandtabs s))).
  assert (L : length (expandtabs s) < d) by (unfold d; lia).
  repeat apply conj; try (intros o).
  - apply (rules_at x4particle particle d); [reflexivity|apply d_particle|exact L].
  - apply (rules_at x4nucleus nucleus d); [reflexivity|apply d_nucleus|exact L].
  - apply (rules_at (x4chemical_compound c) (compound cs) d); [apply one_of_sane|apply d_one_of|exact L].
  - apply (rules_at (x4process c) (process ps cs) d); [apply process_sane|apply d_process|exact L].
  - apply (rules_at (x4reaction c) (reaction ps cs) d); [apply reaction_sane|apply d_reaction|exact L].
  - change (g_compound (x4grammars c) s) with (parseString (x4compound_expression c d) s).
    apply (rules_at (x4compound_expression c d) (GRef 1) (S d)); [reflexivity|apply d_combination|lia].
  - change (g_reactionfield (x4grammars c) s) with (parseString (x4reactionfield c d) s).
    apply (rules_at (x4reactionfield c d) reaction_field (S d)); [reflexivity| |lia].
    unfold reaction_field. rewrite denote_And, d_combination. reflexivity.
  - apply (rules_at x4textfield text_field d); [reflexivity|reflexivity|exact L].
  - change (g_refcode (x4grammars c) s) with (parseString (x4refcode d) s).
    apply (rules_at (x4refcode d) reference d); [reflexivity| |exact L].
    unfold reference. rewrite denote_And, d_nested. reflexivity.
  - change (g_refcodetautology (x4grammars c) s) with (parseString (x4refcodetautology d) s).
    apply (rules_at (x4refcodetautology d) reference_same d); [reflexivity| |exact L].
    unfold reference_same. rewrite denote_And. cbn [map]. rewrite denote_Some, denote_And. cbn [map]. rewrite d_nested. reflexivity.
  - rewrite <- (rules_at commaSeparatedList commas d s o); [|reflexivity|reflexivity|exact L].
    change (g_comma (x4grammars c) s) with (option_map toks (parseString commaSeparatedList s)).
    unfold parseString. destruct (run commaSeparatedList true true (expandtabs s)) as [[t r]|] eqn:R; [|reflexivity].
    cbn [option_map]. rewrite (texts_run _ _ _ _ _ _ comma_texts R). reflexivity.
Qed.

(** Every text has one outcome. *)
Lemma one_outcome : forall g s, sane g = true -> exists o, reads_text def strip g s o /\ forall o', reads_text def strip g s o' -> o' = o.
Proof.
  intros g s SA.
  pose proof (fun o => denote_reads def names_eats names_sane names_skips names_guarded (S (length s)) g s o SA (le_n _)) as R.
  eexists. split; [apply R; reflexivity|]. intros o' H. symmetry. now apply R.
Qed.
Lemma grammars_sane : Forall (fun g => sane g = true)
  [particle; nucleus; compound cs; process ps cs; reaction ps cs; GRef 1; reaction_field; text_field; reference; reference_same; commas].
Proof.
  repeat apply Forall_cons; try reflexivity; [apply one_of_sane|apply process_sane|apply reaction_sane|apply Forall_nil].
Qed.
Lemma always_answers : forall g s,
  In g [particle; nucleus; compound cs; process ps cs; reaction ps cs; GRef 1; reaction_field; text_field; reference; reference_same; commas] ->
  exists o, reads_text def strip g s o /\ forall o', reads_text def strip g s o' -> o' = o.
Proof. intros g s I. apply one_outcome. pose proof grammars_sane as F. rewrite Forall_forall in F. now apply F. Qed.
End Codes.

(** What the rules give no outcome for: something empty again and again, and a name that begins with
    itself. *)
Lemma no_outcome_repeat : forall def trim ws s o, ~ does def trim (GAny (GOpt (GTok (TLit [])) [])) ws s o.
Proof.
  intros def trim ws s o H.
  assert (N : forall x s r, reads (TLit []) x (Some (s, r)) -> False).
  { intros x s' r R. inversion R as [m r' M| | | | | | | | | | | | | | |]; subst. now apply M. }
  assert (D : forall ws s o, does def trim (GOpt (GTok (TLit [])) []) ws s o -> o = Some ([], s)).
  { intros w x y Q. inversion Q as [| | | |e d w' x' [t r] Q1|e d w' x' Q1| | | | | | | | | | | | | | |]; subst; [|reflexivity].
    inversion Q1; subst. exfalso. eapply N; eassumption. }
  assert (R : forall e ws s t r, repeats def trim e ws s t r -> e = GOpt (GTok (TLit [])) [] -> False).
  { intros e w x t r Q. induction Q as [e w x Q|e w x t s' t' r Q _ IH]; intros ->; [discriminate (D _ _ _ Q)|now apply IH]. }
  inversion H; subst.
  - eapply R; [eassumption|reflexivity].
  - match goal with Q : does _ _ _ _ _ None |- _ => discriminate (D _ _ _ Q) end.
Qed.
Lemma no_outcome_left : forall trim ws s o, ~ does (fun n => GAnd (GRef n) []) trim (GRef 0) ws s o.
Proof.
  intros trim ws s o H. remember (GRef 0) as g eqn:G.
  assert (X : forall g ws s o, does (fun n => GAnd (GRef n) []) trim g ws s o -> g = GRef 0 \/ g = GAnd (GRef 0) [] -> False).
  { clear. fix IH 5. intros g ws s o H E. destruct H; destruct E as [E|E]; try discriminate E.
    - injection E as -> ->. eapply IH; [eassumption|now left].
    - injection E as ->. eapply IH; [eassumption|now right]. }
  eapply X; [exact H|now left].
Qed.

(** ** Tabs *)
Lemma tab_width : forall col n, 0 < n <= 8 -> Nat.divide 8 (col + n) -> n = 8 - col mod 8.
Proof.
  intros col n B (k & K). pose proof (Nat.div_mod col 8 ltac:(lia)) as D. pose proof (Nat.mod_upper_bound col 8 ltac:(lia)) as U. lia.
Qed.
Lemma tab_stop : forall col, Nat.divide 8 (col + (8 - col mod 8)).
Proof.
  intros col. exists (S (col / 8)). pose proof (Nat.div_mod col 8 ltac:(lia)) as D. pose proof (Nat.mod_upper_bound col 8 ltac:(lia)) as U. lia.
Qed.
Lemma next_column : forall col, S (col mod 8) mod 8 = S col mod 8.
Proof. intros col. rewrite <- (Nat.add_1_r (col mod 8)), <- (Nat.add_1_r col). now rewrite Nat.add_mod_idemp_l. Qed.
Lemma untabbed_is : forall col s t, untabbed col s t -> t = expandtabs_from (col mod 8) s.
Proof.
  intros col s t U. induction U as [col|col n s t B D U IH|col c s t C U IH|col c s t C9 C10 C13 U IH]; cbn [expandtabs_from].
  - reflexivity.
  - replace (Ascii.eqb (ascii_of_N 9) (ch 9)) with true by reflexivity. rewrite <- (tab_width _ _ B D). f_equal.
    destruct D as (k & K). rewrite K in IH. rewrite Nat.mod_mul in IH by lia. exact IH.
  - replace (Ascii.eqb c (ch 9)) with false by (destruct C as [-> | ->]; reflexivity).
    replace (Ascii.eqb c nl || Ascii.eqb c cr) with true by (destruct C as [-> | ->]; reflexivity). now f_equal.
  - replace (Ascii.eqb c (ch 9)) with false by (symmetry; now apply Ascii.eqb_neq).
    replace (Ascii.eqb c nl) with false by (symmetry; now apply Ascii.eqb_neq).
    replace (Ascii.eqb c cr) with false by (symmetry; now apply Ascii.eqb_neq). cbn [orb]. rewrite next_column. now f_equal.
Qed.
Lemma untabbed_has : forall s col, untabbed col s (expandtabs_from (col mod 8) s).
Proof.
  induction s as [|c s IH]; intros col; cbn [expandtabs_from]; [constructor|].
  destruct (Ascii.eqb c (ch 9)) eqn:T.
  { apply Ascii.eqb_eq in T. subst c. pose proof (Nat.mod_upper_bound col 8 ltac:(lia)) as U.
    apply untabbed_tab; [lia|apply tab_stop|]. specialize (IH (col + (8 - col mod 8))).
    destruct (tab_stop col) as (k & K). rewrite K in IH at 2. now rewrite Nat.mod_mul in IH by lia. }
  apply Ascii.eqb_neq in T. destruct (Ascii.eqb c nl) eqn:L; [|destruct (Ascii.eqb c cr) eqn:R].
  - apply Ascii.eqb_eq in L. apply untabbed_line; [now left|]. exact (IH 0).
  - apply Ascii.eqb_eq in R. apply untabbed_line; [now right|]. exact (IH 0).
  - apply Ascii.eqb_neq in L, R. cbn [orb]. rewrite next_column. apply untabbed_char; try assumption. apply IH.
Qed.
Lemma untabbed_one : forall s, exists t, untabbed 0 s t /\ forall t', untabbed 0 s t' -> t' = t.
Proof. intros s. exists (expandtabs s). split; [exact (untabbed_has s 0)|]. intros t' U. exact (untabbed_is _ _ _ U). Qed.
Lemma untabbed_plain : forall s t, expandtabs s = t -> untabbed 0 s t.
Proof. intros s t <-. exact (untabbed_has s 0). Qed.
Lemma all_rules_untabbed : forall c s t, untabbed 0 s t ->
  let def := names (c_particles c) (c_compounds c) in
  (forall o, g_particle (x4grammars c) s = o <-> reads_text def strip particle t o) /\
  (forall o, g_nucleus (x4grammars c) s = o <-> reads_text def strip nucleus t o) /\
  (forall o, g_chemical (x4grammars c) s = o <-> reads_text def strip (compound (c_compounds c)) t o) /\
  (forall o, g_process (x4grammars c) s = o <-> reads_text def strip (process (c_particles c) (c_compounds c)) t o) /\
  (forall o, g_reaction (x4grammars c) s = o <-> reads_text def strip (reaction (c_particles c) (c_compounds c)) t o) /\
  (forall o, g_compound (x4grammars c) s = o <-> reads_text def strip (GRef 1) t o) /\
  (forall o, g_reactionfield (x4grammars c) s = o <-> reads_text def strip reaction_field t o) /\
  (forall o, g_textfield (x4grammars c) s = o <-> reads_text def strip text_field t o) /\
  (forall o, g_refcode (x4grammars c) s = o <-> reads_text def strip reference t o) /\
  (forall o, g_refcodetautology (x4grammars c) s = o <-> reads_text def strip reference_same t o) /\
  (forall o, option_map (map PTok) (g_comma (x4grammars c) s) = o <-> reads_text def strip commas t o).
Proof.
  intros c s t U. apply untabbed_is in U. change (expandtabs_from (0 mod 8) s) with (expandtabs s) in U. subst t. exact (all_rules c s).
Qed.
