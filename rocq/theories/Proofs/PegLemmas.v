(** The parser elements of the model against the rules of Spec/Peg.v: every outcome of the model
    follows from the rules, and the rules give no other. *)
From Coq Require Import String List Ascii NArith ZArith Bool Arith Lia.
From Verif.Model Require Import Py Particle Pyparsing Grammars.
From Verif.Spec Require Import Peg.
From Verif.Proofs Require Import SuffixLemmas.
Import ListNotations.
Local Open Scope list_scope.
Local Open Scope nat_scope.

(** * The rules give at most one outcome *)

Lemma ends_span : forall p a r, forallb p a = true -> ends p r -> span p (a ++ r) = (a, r).
Proof.
  intros p. induction a as [|c a IH]; intros r F E; cbn [app span].
  - destruct r as [|d r]; [reflexivity|]. cbn [span]. cbn [ends] in E. now rewrite E.
  - cbn [forallb] in F. apply andb_prop in F as [C F]. rewrite C, (IH r F E). reflexivity.
Qed.
Lemma span_ends : forall p s a r, span p s = (a, r) -> forallb p a = true /\ ends p r.
Proof.
  intros p. induction s as [|c s IH]; intros a r E; cbn [span] in E.
  - injection E as <- <-. split; [reflexivity|exact I].
  - destruct (p c) eqn:C; [|injection E as <- <-; split; [reflexivity|exact C]].
    destruct (span p s) as [a' r'] eqn:S. injection E as <- <-. destruct (IH a' r' eq_refl) as [F Q].
    cbn [forallb]. now rewrite C, F.
Qed.
Lemma hex_is : forall c, hex c = is_hex c.
Proof. reflexivity || (intros c; unfold hex, is_hex; reflexivity). Qed.

Lemma eqb_no : forall a b : ascii, a <> b -> Ascii.eqb a b = false.
Proof. intros a b N. now apply Ascii.eqb_neq. Qed.
Lemma ends_ext : forall p q r, (forall c, p c = q c) -> ends p r -> ends q r.
Proof. intros p q [|c r] E H; [exact I|]. cbn [ends] in *. now rewrite <- E. Qed.

Lemma quoted_reads : forall q a r, quoted q a r -> forall n, length (a ++ r) <= n -> quoted_body n q (a ++ r) = (a, r).
Proof.
  intros q a r H. induction H as [r S|c a r C1 C2 C3 C4 H IH|a r H IH|d a r Q D H IH|h a r Q N F E H IH]; intros n L; cbn [app] in *.
  - destruct n as [|n]; [destruct r; [reflexivity|cbn in L; lia]|]. destruct r as [|c t]; [reflexivity|]. cbn [quoted_body].
    cbn [stops] in S. destruct (Ascii.eqb c q) eqn:C.
    + destruct t as [|d t]; [reflexivity|]. now rewrite (eqb_no _ _ S).
    + destruct (Ascii.eqb c "\"%char).
      * destruct t as [|d t]; [reflexivity|]. destruct S as [-> S]. rewrite Ascii.eqb_refl.
        destruct (span is_hex t) as [[|h hs] u] eqn:P; [reflexivity|]. exfalso.
        destruct t as [|e t]; [discriminate P|]. cbn [ends] in S. rewrite hex_is in S. cbn [span] in P. rewrite S in P. discriminate P.
      * destruct S as [-> | ->]; [reflexivity|]. now rewrite orb_true_r.
  - destruct n as [|n]; [cbn in L; lia|]. cbn [quoted_body].
    rewrite (eqb_no _ _ C1), (eqb_no _ _ C2). unfold nl, cr. change (ch 10) with newline. change (ch 13) with (ascii_of_N 13).
    rewrite (eqb_no _ _ C3), (eqb_no _ _ C4). cbn [orb]. rewrite IH; [reflexivity|cbn in L; lia].
  - destruct n as [|n]; [cbn in L; lia|]. cbn [quoted_body]. rewrite Ascii.eqb_refl. rewrite IH; [reflexivity|cbn in L; lia].
  - destruct n as [|n]; [cbn in L; lia|]. cbn [quoted_body]. rewrite (eqb_no _ _ Q), Ascii.eqb_refl, (eqb_no _ _ D).
    rewrite IH; [reflexivity|cbn in L; lia].
  - destruct n as [|n]; [cbn in L; lia|]. cbn [quoted_body]. rewrite (eqb_no _ _ Q), !Ascii.eqb_refl.
    rewrite <- app_assoc. rewrite (ends_span is_hex h (a ++ r)); [|exact F|exact E].
    destruct h as [|h hs]; [now destruct N|]. rewrite IH; [reflexivity|].
    cbn [length] in L. rewrite <- app_assoc, app_length in L. cbn in L. lia.
Qed.
Lemma reads_quoted : forall n q s a r, length s <= n -> quoted_body n q s = (a, r) -> quoted q a r.
Proof.
  induction n as [|n IH]; intros q s a r L E.
  - destruct s; [|cbn in L; lia]. cbn in E. injection E as <- <-. apply quoted_stop. exact I.
  - destruct s as [|c s]; cbn [quoted_body] in E; [injection E as <- <-; apply quoted_stop; exact I|]. cbn [length] in L.
    destruct (Ascii.eqb c q) eqn:C.
    + apply Ascii.eqb_eq in C as ->.
      destruct s as [|d s]; [injection E as <- <-; apply quoted_stop; cbn [stops]; now rewrite Ascii.eqb_refl|].
      destruct (Ascii.eqb d q) eqn:D.
      * apply Ascii.eqb_eq in D as ->. destruct (quoted_body n q s) as [a' b'] eqn:B. injection E as <- <-.
        apply quoted_twice, (IH q s); [cbn in L; lia|exact B].
      * injection E as <- <-. apply quoted_stop. cbn [stops]. rewrite Ascii.eqb_refl. now apply Ascii.eqb_neq.
    + destruct (Ascii.eqb c "\"%char) eqn:K.
      * assert (K' := K). apply Ascii.eqb_eq in K' as ->. assert (Q : "\"%char <> q) by now apply Ascii.eqb_neq.
        destruct s as [|d s]; [injection E as <- <-; apply quoted_stop; cbn [stops]; now rewrite C, K|].
        destruct (Ascii.eqb d "x"%char) eqn:D.
        -- apply Ascii.eqb_eq in D as ->. destruct (span is_hex s) as [[|h hs] u] eqn:P.
           ++ injection E as <- <-. apply quoted_stop. cbn [stops]. rewrite C, K. split; [reflexivity|].
              destruct (span_ends _ _ _ _ P) as [_ X]. apply span_tail in P as ->. exact X.
           ++ destruct (quoted_body n q u) as [a' b'] eqn:B. injection E as <- <-.
              destruct (span_ends _ _ _ _ P) as [F X]. apply span_tail in P.
              assert (U : u = a' ++ b') by exact (quoted_tail _ _ _ _ _ B).
              change ("\"%char :: "x"%char :: h :: hs ++ a') with ("\"%char :: "x"%char :: (h :: hs) ++ a').
              apply quoted_hex; [exact Q|discriminate|exact F|now rewrite <- U|].
              apply (IH q u); [|exact B]. subst s. cbn [length] in L. rewrite app_length in L. lia.
        -- destruct (quoted_body n q s) as [a' b'] eqn:B. injection E as <- <-.
           apply quoted_back; [exact Q|now apply Ascii.eqb_neq|]. apply (IH q s); [cbn in L; lia|exact B].
      * destruct (Ascii.eqb c nl || Ascii.eqb c cr) eqn:W.
        -- injection E as <- <-. apply quoted_stop. cbn [stops]. rewrite C, K. apply orb_prop in W as [W|W]; apply Ascii.eqb_eq in W; auto.
        -- destruct (quoted_body n q s) as [a' b'] eqn:B. injection E as <- <-. apply orb_false_iff in W as [W1 W2].
           apply quoted_char; try (now apply Ascii.eqb_neq). apply (IH q s); [lia|exact B].
Qed.

(** The token as an element of the model. *)
Definition tok_pe (k : token) : pe :=
  match k with
  | TLit m => Literal m
  | TWord p q => Word2 p q
  | TShort p q n => WordMax p q n
  | TOne p => CharNotIn p
  | TLine => restOfLine
  | TEnd => LineEnd
  | TQuote q => QuoteStart q
  end.

Lemma prefix_spec : forall m s, is_prefix m s = true <-> exists r, s = m ++ r.
Proof.
  induction m as [|c m IH]; intros s; [split; [now exists s|reflexivity]|]. destruct s as [|d s]; cbn [is_prefix].
  - split; [discriminate|intros (r & E); discriminate].
  - rewrite andb_true_iff, IH, Ascii.eqb_eq. split.
    + intros (-> & r & ->). now exists r.
    + intros (r & E). injection E as -> ->. split; [reflexivity|now exists r].
Qed.
Lemma skipn_app_len : forall (m r : str), skipn (length m) (m ++ r) = r.
Proof. induction m; cbn; auto. Qed.

Lemma reads_impl : forall k s o ws, reads k s o -> impl (tok_pe k) ws s = o.
Proof.
  intros k s o ws H. destruct H as [m r N|m s H|p q c a r P F E|p q s E|p q n c a r P F E L|p q n s E|p q n c a r P F E L
    |p c r P|p c r P|p|a r N K|r| |c r N|q a r H|q s H]; cbn [tok_pe Literal Word2 WordMax CharNotIn restOfLine LineEnd QuoteStart impl].
  - destruct m as [|c m]; [now destruct N|]. rewrite (proj2 (prefix_spec (c :: m) _)) by now exists r.
    now rewrite skipn_app_len.
  - destruct m as [|c m]; [reflexivity|]. destruct H as [H|H]; [discriminate|]. destruct (is_prefix (c :: m) s) eqn:P; [|reflexivity].
    apply prefix_spec in P as (r & P). now destruct (H r).
  - rewrite P, ends_span by assumption. reflexivity.
  - destruct s as [|c s]; [reflexivity|]. cbn [ends] in E. now rewrite E.
  - rewrite P, ends_span by assumption. cbn [length] in L. apply Nat.leb_le in L. now rewrite L.
  - destruct s as [|c s]; [reflexivity|]. cbn [ends] in E. now rewrite E.
  - rewrite P, ends_span by assumption. cbn [length] in L. apply Nat.leb_gt in L. now rewrite L.
  - now rewrite P.
  - now rewrite P.
  - reflexivity.
  - rewrite (ends_span _ a r); [reflexivity| |].
    + apply forallb_forall. intros c I. apply negb_true_iff, Ascii.eqb_neq. intros ->. now apply N.
    + destruct K as [-> | (t & ->)]; [exact I|reflexivity].
  - reflexivity.
  - reflexivity.
  - unfold nl. change (ch 10) with newline. now rewrite (eqb_no _ _ N).
  - rewrite Ascii.eqb_refl, (quoted_reads q a r H) by lia. reflexivity.
  - destruct s as [|c s]; [reflexivity|]. cbn [ends] in H. now rewrite Ascii.eqb_sym, H.
Qed.
Lemma impl_reads : forall k ws s, reads k s (impl (tok_pe k) ws s).
Proof.
  intros k ws s. destruct k as [m|p q|p q n|p| | |q]; cbn [tok_pe Literal Word2 WordMax CharNotIn restOfLine LineEnd QuoteStart impl].
  - destruct m as [|c m]; [apply reads_lit_not; now left|]. destruct (is_prefix (c :: m) s) eqn:P.
    + apply prefix_spec in P as (r & ->). rewrite skipn_app_len. now apply reads_lit.
    + apply reads_lit_not. right. intros r ->. assert (X : is_prefix (c :: m) ((c :: m) ++ r) = true) by (apply prefix_spec; now exists r). congruence.
  - destruct s as [|c s]; [now apply reads_word_not|]. destruct (p c) eqn:P; [|now apply reads_word_not].
    destruct (span q s) as [a b] eqn:S. destruct (span_ends _ _ _ _ S) as [F E]. apply span_tail in S as ->. now apply reads_word.
  - destruct s as [|c s]; [now apply reads_short_not|]. destruct (p c) eqn:P; [|now apply reads_short_not].
    destruct (span q s) as [a b] eqn:S. destruct (span_ends _ _ _ _ S) as [F E]. apply span_tail in S as ->.
    destruct (Datatypes.S (length a) <=? n) eqn:L.
    + apply Nat.leb_le in L. now apply reads_short.
    + apply Nat.leb_gt in L. now apply reads_short_long.
  - destruct s as [|c s]; [apply reads_one_none|]. destruct (p c) eqn:P; [now apply reads_one_bad|now apply reads_one].
  - destruct (span _ s) as [a b] eqn:S. destruct (span_ends _ _ _ _ S) as [F E]. apply span_tail in S as ->. apply reads_line.
    + intros I. rewrite forallb_forall in F. specialize (F _ I). cbn in F. discriminate.
    + destruct b as [|c b]; [now left|]. right. cbn [ends] in E. apply negb_false_iff, Ascii.eqb_eq in E as ->. now exists b.
  - destruct s as [|c s]; [apply reads_end_text|]. destruct (Ascii.eqb c nl) eqn:E.
    + apply Ascii.eqb_eq in E as ->. apply reads_end.
    + apply reads_end_not. now apply Ascii.eqb_neq.
  - destruct s as [|c s]; [now apply reads_quote_not|]. destruct (Ascii.eqb c q) eqn:E.
    + apply Ascii.eqb_eq in E as ->. destruct (quoted_body (length s) q s) as [a b] eqn:B.
      pose proof (reads_quoted _ _ _ _ _ (le_n _) B) as H. apply quoted_tail in B. rewrite B. now apply reads_quote.
    + apply reads_quote_not. cbn [ends]. now rewrite Ascii.eqb_sym.
Qed.
Lemma reads_det : forall k s o o', reads k s o -> reads k s o' -> o = o'.
Proof. intros k s o o' H H'. apply (reads_impl k s o true) in H. apply (reads_impl k s o' true) in H'. congruence. Qed.

Lemma tok_keeps : forall k, keeps (match k with TLine | TEnd => false | _ => true end) (tok_pe k).
Proof.
  intros [m|p q|p q n|p| | |q].
  - apply keeps_Literal. - apply keeps_Word2. - apply keeps_WordMax. - apply keeps_CharNotIn.
  - apply keeps_restOfLine. - apply keeps_LineEnd. - apply keeps_QuoteStart.
Qed.

Lemma cons_inj : forall (x y : outcome) a b, x :: a = y :: b -> x = y /\ a = b.
Proof. intros x y a b E. split; congruence. Qed.
Lemma split_first : forall (a b c d : list outcome) o o', a ++ o :: b = c ++ o' :: d ->
  (a = c /\ o = o' /\ b = d) \/ (exists m, c = a ++ o :: m) \/ (exists m, a = c ++ o' :: m).
Proof.
  induction a as [|x a IH]; intros b c d o o' E; destruct c as [|y c]; cbn [app] in E.
  - injection E as -> ->. now left.
  - injection E as -> E. right. left. exists c. reflexivity.
  - injection E as -> E. right. right. exists a. reflexivity.
  - injection E as -> E. destruct (IH b c d o o' E) as [(-> & -> & ->)|[(m & ->)|(m & ->)]]; [now left| |];
      right; [left|right]; now exists m.
Qed.
Lemma best_det : forall os o o', best os o -> best os o' -> o = o'.
Proof.
  intros os o o' B B'.
  assert (N : forall t r, best os (Some (t, r)) -> best os None -> False).
  { intros t r (a & b & -> & _) F. cbn [best] in F. rewrite Forall_forall in F.
    assert (X : None = Some (t, r)) by (apply F, in_or_app; right; now left). discriminate X. }
  destruct o as [[t r]|], o' as [[t' r']|]; try reflexivity; try (exfalso; eauto; fail).
  destruct B as (a & b & E & W & NB), B' as (c & d & E' & W' & NB'). rewrite E in E'.
  destruct (split_first _ _ _ _ _ _ E') as [(_ & X & _)|[(m & ->)|(m & ->)]]; [exact X| |]; exfalso.
  - apply Forall_app in W' as [_ W']. inversion W' as [|? ? X _]; subst. cbn in X.
    rewrite <- app_assoc in E'. cbn [app] in E'. apply app_inv_head in E'. injection E' as ->.
    apply Forall_app in NB as [_ NB]. inversion NB as [|? ? Y _]; subst. cbn in Y. lia.
  - apply Forall_app in W as [_ W]. inversion W as [|? ? X _]; subst. cbn in X.
    rewrite <- app_assoc in E'. cbn [app] in E'. apply app_inv_head in E'. injection E' as <-.
    apply Forall_app in NB' as [_ NB']. inversion NB' as [|? ? Y _]; subst. cbn in Y. lia.
Qed.
Lemma best_fold : forall os a, exists o, fold_left longer os a = o /\
  match a with None => best os o | Some _ => best (a :: os) o end.
Proof.
  induction os as [|x os IH]; intros a; cbn [fold_left].
  - exists a. split; [reflexivity|]. destruct a as [[t r]|]; [|constructor]. exists [], []. repeat split; constructor.
  - destruct a as [[t r]|].
    + destruct x as [[t' r']|]; cbn [longer].
      * destruct (length r' <? length r) eqn:L.
        -- destruct (IH (Some (t', r'))) as (o & E & B). exists o. split; [exact E|].
           apply Nat.ltb_lt in L. destruct o as [[t'' r'']|]; [|inversion B; discriminate].
           destruct B as (a & b & S & W & NB). exists (Some (t, r) :: a), b. split; [cbn [app]; now rewrite <- S|]. split; [|exact NB].
           constructor; [|exact W]. cbn. destruct a as [|y a]; cbn [app] in S; apply cons_inj in S as [S1 S2].
           ++ injection S1 as _ <-. exact L.
           ++ subst y. inversion W as [|? ? X _]; subst. cbn in X. lia.
        -- destruct (IH (Some (t, r))) as (o & E & B). exists o. split; [exact E|].
           apply Nat.ltb_ge in L. destruct o as [[t'' r'']|]; [|inversion B; discriminate].
           destruct B as (a & b & S & W & NB). destruct a as [|y a]; cbn [app] in S; apply cons_inj in S as [S1 S2].
           ++ subst b. exists [], (Some (t', r') :: os). split; [now rewrite <- S1|]. split; [constructor|].
              constructor; [|exact NB]. cbn. injection S1 as _ <-. exact L.
           ++ subst y os. exists (Some (t, r) :: Some (t', r') :: a), b. split; [reflexivity|]. split; [|exact NB].
              inversion W as [|? ? X W']; subst. cbn in X. constructor; [exact X|]. constructor; [cbn; lia|exact W'].
      * destruct (IH (Some (t, r))) as (o & E & B). exists o. split; [exact E|].
        destruct o as [[t'' r'']|]; [|inversion B; discriminate].
        destruct B as (a & b & S & W & NB). destruct a as [|y a]; cbn [app] in S; apply cons_inj in S as [S1 S2].
        -- subst b. exists [], (None :: os). split; [now rewrite <- S1|]. split; [constructor|]. constructor; [exact I|exact NB].
        -- subst y os. exists (Some (t, r) :: None :: a), b. split; [reflexivity|]. split; [|exact NB].
           inversion W as [|? ? X W']; subst. constructor; [exact X|]. constructor; [exact I|exact W'].
    + cbn [longer]. destruct (IH x) as (o & E & B). exists o. split; [exact E|].
      destruct x as [r|]; [exact B|]. destruct o as [[t r]|].
      * destruct B as (a & b & -> & W & NB). exists (None :: a), b. split; [reflexivity|]. split; [|exact NB]. constructor; [exact I|exact W].
      * constructor; [reflexivity|exact B].
Qed.
Lemma longer_best : forall os, best os (fold_left longer os None).
Proof. intros os. destruct (best_fold os None) as (o & -> & B). exact B. Qed.

Section Recursion.
Variable def : nat -> gx.

Scheme does_m := Induction for does Sort Prop
with goes_m := Induction for goes_on Sort Prop
with tries_m := Induction for tries Sort Prop
with finds_m := Induction for finds Sort Prop
with repeats_m := Induction for repeats Sort Prop.
Combined Scheme parse_m from does_m, goes_m, tries_m, finds_m, repeats_m.

Lemma does_det :
  (forall g ws s o, does def strip g ws s o -> forall o', does def strip g ws s o' -> o = o') /\
  (forall l ws o1 o, goes_on def strip l ws o1 o -> forall o', goes_on def strip l ws o1 o' -> o = o') /\
  (forall l ws s os, tries def strip l ws s os -> forall os', tries def strip l ws s os' -> os = os') /\
  (forall l ws s o, finds def strip l ws s o -> forall o', finds def strip l ws s o' -> o = o') /\
  (forall e ws s t r, repeats def strip e ws s t r -> forall t' r', repeats def strip e ws s t' r' -> t = t' /\ r = r').
Proof.
  apply (parse_m def strip
    (fun g ws s o _ => forall o', does def strip g ws s o' -> o = o')
    (fun l ws o1 o _ => forall o', goes_on def strip l ws o1 o' -> o = o')
    (fun l ws s os _ => forall os', tries def strip l ws s os' -> os = os')
    (fun l ws s o _ => forall o', finds def strip l ws s o' -> o = o')
    (fun e ws s t r _ => forall t' r', repeats def strip e ws s t' r' -> t = t' /\ r = r')); intros;
  match goal with H : does _ _ _ _ _ ?o |- _ = ?o => inversion H; subst; clear H
                | H : goes_on _ _ _ _ _ ?o |- _ = ?o => inversion H; subst; clear H
                | H : tries _ _ _ _ _ ?o |- _ = ?o => inversion H; subst; clear H
                | H : finds _ _ _ _ _ ?o |- _ = ?o => inversion H; subst; clear H
                | H : repeats _ _ _ _ _ ?t ?r |- _ = ?t /\ _ => inversion H; subst; clear H end;
  repeat match goal with
  | IH : forall o, does def strip ?g ?ws ?s o -> ?x = o, H : does def strip ?g ?ws ?s ?y |- _ =>
      assert (x = y) by (exact (IH _ H)); clear H; subst
  | IH : forall o, goes_on def strip ?g ?ws ?s o -> ?x = o, H : goes_on def strip ?g ?ws ?s ?y |- _ =>
      assert (x = y) by (exact (IH _ H)); clear H; subst
  | IH : forall o, tries def strip ?g ?ws ?s o -> ?x = o, H : tries def strip ?g ?ws ?s ?y |- _ =>
      assert (x = y) by (exact (IH _ H)); clear H; subst
  | IH : forall o, finds def strip ?g ?ws ?s o -> ?x = o, H : finds def strip ?g ?ws ?s ?y |- _ =>
      assert (x = y) by (exact (IH _ H)); clear H; subst
  | H : Some _ = Some _ |- _ => injection H as; subst
  | IH : forall t r, repeats def strip ?g ?ws ?s t r -> _, H : repeats def strip ?g ?ws ?s _ _ |- _ =>
      destruct (IH _ _ H); clear H; subst
  end; try reflexivity; try discriminate; try (split; reflexivity).
  all: try (eapply reads_det; eassumption).
  all: try (eapply best_det; eassumption).
  all: try (match goal with H : forall u t r, ?o <> Some (PTok u :: t, r) |- _ => exfalso; apply (H _ _ _ eq_refl) end).
Qed.

(** * The elements of the model follow the rules *)

(** A grammar as an element of the model, unrolled [d] times. *)
Fixpoint denote (d : nat) : gx -> pe :=
  fix go (g : gx) : pe :=
    match g with
    | GTok k => tok_pe k
    | GAnd e l => And (go e) (map go l)
    | GOr l => Or (map go l)
    | GFirst l => MatchFirst (map go l)
    | GOpt e x => OptionalD (go e) x
    | GSome e => OneOrMore (go e)
    | GAny e => ZeroOrMore (go e)
    | GNot e => NotAny (go e)
    | GGroup e => Group (go e)
    | GDrop e => Suppress (go e)
    | GJoin e => Combine (go e)
    | GStrip e => strip_action (go e)
    | GRef n => match d with O => NoMatch | S d' => Forward (denote d' (def n)) end
    end.

Lemma denote_And : forall d e l, denote d (GAnd e l) = And (denote d e) (map (denote d) l).
Proof. now destruct d. Qed.
Lemma denote_Or : forall d l, denote d (GOr l) = Or (map (denote d) l).
Proof. now destruct d. Qed.
Lemma denote_First : forall d l, denote d (GFirst l) = MatchFirst (map (denote d) l).
Proof. now destruct d. Qed.
Lemma denote_Opt : forall d e x, denote d (GOpt e x) = OptionalD (denote d e) x.
Proof. now destruct d. Qed.
Lemma denote_Some : forall d e, denote d (GSome e) = OneOrMore (denote d e).
Proof. now destruct d. Qed.
Lemma denote_Any : forall d e, denote d (GAny e) = ZeroOrMore (denote d e).
Proof. now destruct d. Qed.
Lemma denote_Not : forall d e, denote d (GNot e) = NotAny (denote d e).
Proof. now destruct d. Qed.
Lemma denote_Group : forall d e, denote d (GGroup e) = Group (denote d e).
Proof. now destruct d. Qed.
Lemma denote_Drop : forall d e, denote d (GDrop e) = Suppress (denote d e).
Proof. now destruct d. Qed.
Lemma denote_Join : forall d e, denote d (GJoin e) = Combine (denote d e).
Proof. now destruct d. Qed.
Lemma denote_Strip : forall d e, denote d (GStrip e) = strip_action (denote d e).
Proof. now destruct d. Qed.
Lemma denote_Tok : forall d k, denote d (GTok k) = tok_pe k.
Proof. now destruct d. Qed.

(** Elements that consume something whenever they fit. *)
Fixpoint eats (g : gx) : bool :=
  match g with
  | GTok (TLine | TEnd) => false
  | GTok _ => true
  | GAnd e l => eats e || existsb eats l
  | GOr l | GFirst l => forallb eats l
  | GOpt _ _ | GAny _ | GNot _ => false
  | GSome e | GGroup e | GDrop e | GJoin e | GStrip e => eats e
  | GRef _ => true
  end.
(** What is repeated consumes something. *)
Fixpoint sane (g : gx) : bool :=
  match g with
  | GTok _ | GRef _ => true
  | GAnd e l => sane e && forallb sane l
  | GOr l | GFirst l => forallb sane l
  | GSome e | GAny e => eats e && sane e
  | GOpt e _ | GNot e | GGroup e | GDrop e | GJoin e | GStrip e => sane e
  end.
(** A name can be used before anything is consumed. *)
Fixpoint calls_first (g : gx) : bool :=
  match g with
  | GTok _ => false
  | GAnd e l => calls_first e || (negb (eats e) && existsb calls_first l)
  | GOr l | GFirst l => existsb calls_first l
  | GOpt e _ | GNot e | GSome e | GAny e | GGroup e | GDrop e | GJoin e | GStrip e => calls_first e
  | GRef _ => true
  end.

Hypothesis def_eats : forall n, eats (def n) = true.
Hypothesis def_sane : forall n, sane (def n) = true.
Hypothesis def_skips : forall n, skipping (def n) = true.
Hypothesis def_guarded : forall n, calls_first (def n) = false.

Fixpoint gx_rect' (P : gx -> Prop)
  (HTok : forall k, P (GTok k)) (HAnd : forall e l, P e -> Forall P l -> P (GAnd e l))
  (HOr : forall l, Forall P l -> P (GOr l)) (HFirst : forall l, Forall P l -> P (GFirst l))
  (HOpt : forall e d, P e -> P (GOpt e d)) (HSome : forall e, P e -> P (GSome e)) (HAny : forall e, P e -> P (GAny e))
  (HNot : forall e, P e -> P (GNot e)) (HGroup : forall e, P e -> P (GGroup e)) (HDrop : forall e, P e -> P (GDrop e))
  (HJoin : forall e, P e -> P (GJoin e)) (HStrip : forall e, P e -> P (GStrip e)) (HRef : forall n, P (GRef n))
  (g : gx) : P g :=
  let go := gx_rect' P HTok HAnd HOr HFirst HOpt HSome HAny HNot HGroup HDrop HJoin HStrip HRef in
  let all := fix all (l : list gx) : Forall P l :=
    match l with [] => Forall_nil P | e :: l' => Forall_cons e (go e) (all l') end in
  match g with
  | GTok k => HTok k
  | GAnd e l => HAnd e l (go e) (all l)
  | GOr l => HOr l (all l)
  | GFirst l => HFirst l (all l)
  | GOpt e d => HOpt e d (go e)
  | GSome e => HSome e (go e)
  | GAny e => HAny e (go e)
  | GNot e => HNot e (go e)
  | GGroup e => HGroup e (go e)
  | GDrop e => HDrop e (go e)
  | GJoin e => HJoin e (go e)
  | GStrip e => HStrip e (go e)
  | GRef n => HRef n
  end.

Lemma denote_flags : forall d g, callpre (denote d g) = before g /\ skipws (denote d g) = skipping g.
Proof.
  induction d as [|d IHd]; intros g; induction g using gx_rect'.
  all: try (destruct k; split; reflexivity).
  all: try exact IHg.
  all: try (split; [reflexivity|exact (proj2 IHg)]).
  all: try (split; [exact (proj1 IHg)|reflexivity]).
  all: try (split; reflexivity).
  split; [reflexivity|]. cbn [denote Forward skipws]. rewrite (proj2 (IHd (def n))). apply def_skips.
Qed.

Lemma map_keeps : forall d l, Forall (fun g => keeps (eats g) (denote d g)) l -> Forall (keeps false) (map (denote d) l).
Proof. intros d l H. rewrite Forall_map. eapply Forall_impl; [|exact H]. intros g. apply keeps_less. Qed.
Lemma all_keeps : forall d l, Forall (fun g => keeps (eats g) (denote d g)) l -> Forall (keeps (forallb eats l)) (map (denote d) l).
Proof.
  intros d l H. destruct (forallb eats l) eqn:A; [|now apply map_keeps].
  rewrite forallb_forall in A. rewrite Forall_map. rewrite Forall_forall in *. intros g I. specialize (H g I). now rewrite (A g I) in H.
Qed.
Lemma and_rest_eats : forall d l ws s t r, Forall (fun g => keeps (eats g) (denote d g)) l ->
  and_rest (map (denote d) l) ws s = Some (t, r) -> left_by (existsb eats l) r s.
Proof.
  intros d. induction l as [|g l IH]; intros ws s t r F E; cbn [map and_rest existsb] in *.
  - injection E as _ <-. apply left_refl.
  - inversion F as [|? ? K F']; subst. destruct (run (denote d g) ws true s) as [[t1 s1]|] eqn:R; [|discriminate].
    destruct (and_rest (map (denote d) l) ws s1) as [[t2 s2]|] eqn:A; [|discriminate]. injection E as _ <-.
    rewrite orb_comm. exact (left_trans _ _ _ _ _ (IH _ _ _ _ F' A) (run_keeps _ _ _ _ _ _ _ K R)).
Qed.
Lemma denote_keeps : forall d g, keeps (eats g) (denote d g).
Proof.
  induction d as [|d IHd]; intros g; induction g using gx_rect';
    rewrite ?denote_And, ?denote_Or, ?denote_First, ?denote_Opt, ?denote_Some, ?denote_Any, ?denote_Not, ?denote_Group,
      ?denote_Drop, ?denote_Join, ?denote_Strip, ?denote_Tok; cbn [eats].
  all: try (destruct k; apply tok_keeps).
  all: try (match goal with |- keeps _ (And _ _) => intros ws s t r E; cbn [And impl] in E;
    destruct (run (denote _ g) ws false s) as [[t1 s1]|] eqn:R; [|discriminate];
    destruct (and_rest (map (denote _) l) ws s1) as [[t2 s2]|] eqn:A; [|discriminate]; injection E as _ <-;
    rewrite orb_comm; exact (left_trans _ _ _ _ _ (and_rest_eats _ _ _ _ _ _ H A) (run_keeps _ _ _ _ _ _ _ IHg R)) end).
  all: try (match goal with |- keeps _ (Or _) => apply keeps_Or, all_keeps; assumption end).
  all: try (match goal with |- keeps _ (MatchFirst _) => apply keeps_MatchFirst, all_keeps; assumption end).
  all: try (match goal with |- keeps _ (OptionalD _ _) => eapply keeps_OptionalD; eassumption end).
  all: try (match goal with |- keeps _ (OneOrMore _) => apply keeps_OneOrMore; assumption end).
  all: try (match goal with |- keeps _ (ZeroOrMore _) => eapply keeps_ZeroOrMore; eassumption end).
  all: try (match goal with |- keeps _ (NotAny _) => apply keeps_NotAny end).
  all: try (match goal with |- keeps _ (Group _) => apply keeps_Group; assumption end).
  all: try (match goal with |- keeps _ (Suppress _) => apply keeps_Suppress; assumption end).
  all: try (match goal with |- keeps _ (Combine _) => apply keeps_Combine; assumption end).
  all: try (match goal with |- keeps _ (strip_action _) => apply keeps_strip; assumption end).
  - apply keeps_NoMatch.
  - cbn [denote]. apply keeps_Forward. rewrite <- (def_eats n). apply IHd.
Qed.

Lemma unblank_is : forall s, unblank s = skip_white s.
Proof. induction s as [|c s IH]; [reflexivity|]. cbn [unblank skip_white]. change (is_white c) with (blank c). destruct (blank c); [exact IH|reflexivity]. Qed.
Lemma run_start : forall d g ws s, run (denote d g) ws true s = impl (denote d g) ws (start g ws s).
Proof.
  intros d g ws s. unfold run, start. destruct (denote_flags d g) as [-> ->]. reflexivity.
Qed.
Lemma run_here : forall e ws s, run e ws false s = impl e ws s.
Proof. reflexivity. Qed.
Lemma start_len : forall g ws s, length (start g ws s) <= length s.
Proof.
  intros g ws s. unfold start. destruct (before g && skipping g && ws); [|lia]. apply tail_len, (skip_tail s).
Qed.

(** Texts short enough for [d] unrollings. *)
Definition short (d : nat) (g : gx) (s : str) : Prop := length s < d \/ (calls_first g = false /\ length s <= d).
Lemma short_less : forall d g s r, short d g s -> length r <= length s -> short d g r.
Proof. intros d g s r [H|[F H]] L; [left; lia|right; split; [exact F|lia]]. Qed.
Definition follows (d : nat) (g : gx) : Prop := forall ws s, short d g s -> does def strip g ws s (impl (denote d g) ws s).
Lemma follows_run : forall d g ws s, follows d g -> short d g s -> does def strip g ws (start g ws s) (run (denote d g) ws true s).
Proof. intros d g ws s F S. rewrite run_start. apply F. eapply short_less; [exact S|apply start_len]. Qed.

Lemma goes_follow : forall d l ws s t, Forall (follows d) l ->
  (length s < d \/ (existsb calls_first l = false /\ length s <= d)) ->
  goes_on def strip l ws (Some (t, s)) (more t (and_rest (map (denote d) l) ws s)).
Proof.
  intros d. induction l as [|g l IH]; intros ws s t F S; cbn [map and_rest].
  - cbn [more]. rewrite app_nil_r. apply go_end.
  - inversion F as [|? ? H F']; subst.
    assert (S1 : short d g s).
    { destruct S as [S|[S L]]; [now left|right]. cbn [existsb] in S. apply orb_false_iff in S as [S _]. now split. }
    eapply go_on; [apply (follows_run d g ws s H S1)|]. destruct (run (denote d g) ws true s) as [[t1 s1]|] eqn:R; [|apply go_not].
    cbn [more]. destruct (run_keeps _ _ _ _ _ _ _ (denote_keeps d g) R) as [T _]. apply tail_len in T.
    assert (S2 : length s1 < d \/ existsb calls_first l = false /\ length s1 <= d).
    { destruct S as [S|[S L]]; [left; lia|right]. cbn [existsb] in S. apply orb_false_iff in S as [_ S]. split; [exact S|lia]. }
    specialize (IH ws s1 (t ++ t1) F' S2). destruct (and_rest (map (denote d) l) ws s1) as [[t2 s2]|]; cbn [more] in *; [|exact IH].
    now rewrite app_assoc.
Qed.
Lemma tries_follow : forall d l ws s, Forall (follows d) l ->
  (length s < d \/ (existsb calls_first l = false /\ length s <= d)) ->
  tries def strip l ws s (map (fun e => run e ws true s) (map (denote d) l)).
Proof.
  intros d. induction l as [|g l IH]; intros ws s F S; cbn [map]; [constructor|].
  inversion F as [|? ? H F']; subst. constructor.
  - apply follows_run; [exact H|]. destruct S as [S|[S L]]; [now left|right]. cbn [existsb] in S. apply orb_false_iff in S as [S _]. now split.
  - apply IH; [exact F'|]. destruct S as [S|[S L]]; [now left|right]. cbn [existsb] in S. apply orb_false_iff in S as [_ S]. now split.
Qed.
Lemma finds_follow : forall d l ws s, Forall (follows d) l ->
  (length s < d \/ (existsb calls_first l = false /\ length s <= d)) ->
  finds def strip l ws s (first_of (map (denote d) l) ws s).
Proof.
  intros d. induction l as [|g l IH]; intros ws s F S; cbn [map first_of]; [constructor|].
  inversion F as [|? ? H F']; subst.
  assert (S1 : short d g s).
  { destruct S as [S|[S L]]; [now left|right]. cbn [existsb] in S. apply orb_false_iff in S as [S _]. now split. }
  pose proof (follows_run d g ws s H S1) as D. destruct (run (denote d g) ws true s) as [r|].
  - now apply find_this.
  - apply find_next; [exact D|]. apply IH; [exact F'|].
    destruct S as [S|[S L]]; [now left|right]. cbn [existsb] in S. apply orb_false_iff in S as [_ S]. now split.
Qed.
Lemma loop_follows : forall d g, follows d g -> eats g = true -> forall n ws s t r, short d g s -> length s <= n ->
  loop n (denote d g) ws s = (t, r) -> repeats def strip g ws s t r.
Proof.
  intros d g F E. induction n as [|n IH]; intros ws s t r S L Q; cbn [loop] in Q.
  - injection Q as <- <-. destruct s; [|cbn in L; lia]. apply repeat_end.
    pose proof (follows_run d g ws [] F S) as D. destruct (run (denote d g) ws true []) as [[t1 s1]|] eqn:R; [|exact D].
    exfalso. destruct (run_keeps _ _ _ _ _ _ _ (denote_keeps d g) R) as [_ X]. specialize (X E). cbn in X. lia.
  - pose proof (follows_run d g ws s F S) as D. destruct (run (denote d g) ws true s) as [[t1 s1]|] eqn:R.
    + destruct (loop n (denote d g) ws s1) as [t2 s2] eqn:O. injection Q as <- <-.
      destruct (run_keeps _ _ _ _ _ _ _ (denote_keeps d g) R) as [_ X]. specialize (X E).
      eapply repeat_on; [exact D|]. apply (IH ws s1 t2 s2); [|lia|exact O]. eapply short_less; [exact S|lia].
    + injection Q as <- <-. now apply repeat_end.
Qed.

Lemma calls_any : forall d l s, (length s < d \/ existsb calls_first l = false /\ length s <= d) -> Forall (fun g => short d g s) l.
Proof.
  intros d l s H. rewrite Forall_forall. intros g I. destruct H as [H|[H L]]; [now left|right]. split; [|exact L].
  destruct (calls_first g) eqn:E; [|reflexivity]. assert (X : existsb calls_first l = true) by (apply existsb_exists; now exists g). congruence.
Qed.

Lemma and_follows : forall d g l, follows d g -> Forall (follows d) l -> follows d (GAnd g l).
Proof.
  intros d g l H F ws s S.
  assert (S1 : short d g s).
  { destruct S as [S|[S L]]; [now left|right]. cbn [calls_first] in S. apply orb_false_iff in S as [S _]. now split. }
  rewrite denote_And. cbn [And impl]. rewrite run_here.
  eapply do_and; [apply (H ws s S1)|].
  destruct (impl (denote d g) ws s) as [[t1 s1]|] eqn:R; [|apply go_not].
  destruct (denote_keeps d g _ _ _ _ R) as [T X]. apply tail_len in T.
  refine (goes_follow d l ws s1 t1 F _).
  destruct S as [S|[S L]]; [left; lia|]. cbn [calls_first] in S. apply orb_false_iff in S as [_ S].
  destruct (eats g); cbn [negb andb] in S; [left; specialize (X eq_refl); lia|right; split; [exact S|lia]].
Qed.
Lemma all_follow : forall d g, sane g = true -> follows d g.
Proof.
  induction d as [|d IHd]; intros g; induction g using gx_rect'; intros SA ws s S; cbn [sane] in SA.
  all: try (rewrite denote_Tok; apply do_tok, impl_reads).
  (* GAnd *)
  all: try (match goal with H : Forall _ ?L |- does _ _ (GAnd _ ?L) _ _ _ =>
    apply andb_prop in SA as [SA1 SA2]; apply and_follows; [exact (IHg SA1)| |exact S];
    rewrite Forall_forall in *; intros x Ix; rewrite forallb_forall in SA2; apply (H x Ix), SA2, Ix end).
  (* GOr, GFirst *)
  all: try (match goal with H : Forall _ ?L |- _ =>
    assert (F : Forall (follows _) L) by (rewrite Forall_forall in *; intros x Ix; rewrite forallb_forall in SA; apply (H x Ix), SA, Ix);
    clear H;
    first [ (rewrite denote_Or; eapply do_or; [apply (tries_follow _ L ws s F S)|apply longer_best])
          | (rewrite denote_First; apply do_first, (finds_follow _ L ws s F S)) ] end).
  (* GOpt *)
  all: try (match goal with |- does _ _ (GOpt _ _) _ _ _ =>
    pose proof (IHg SA ws s S) as D; rewrite denote_Opt; cbn [OptionalD impl]; rewrite run_here;
    destruct (impl (denote _ g) ws s) as [r|]; [now apply do_opt|now apply do_opt_not] end).
  (* GSome *)
  all: try (match goal with |- does _ _ (GSome _) _ _ _ =>
    apply andb_prop in SA as [EA SA];
    pose proof (IHg SA ws s S) as D; rewrite denote_Some; cbn [OneOrMore impl]; rewrite run_here;
    destruct (impl (denote _ g) ws s) as [[t1 s1]|] eqn:R; [|now apply do_some_not];
    destruct (loop (length s1) (denote _ g) ws s1) as [t2 s2] eqn:O;
    destruct (denote_keeps _ g _ _ _ _ R) as [T _]; apply tail_len in T;
    eapply do_some; [exact D|]; refine (loop_follows _ g (IHg SA) EA _ ws s1 t2 s2 _ (le_n _) O);
    eapply short_less; [exact S|lia] end).
  (* GAny *)
  all: try (match goal with |- does _ _ (GAny _) _ _ _ =>
    apply andb_prop in SA as [EA SA];
    pose proof (IHg SA ws s S) as D; rewrite denote_Any; cbn [ZeroOrMore impl]; rewrite run_here;
    destruct (impl (denote _ g) ws s) as [[t1 s1]|] eqn:R; [|now apply do_any_not];
    destruct (loop (length s1) (denote _ g) ws s1) as [t2 s2] eqn:O;
    destruct (denote_keeps _ g _ _ _ _ R) as [T _]; apply tail_len in T;
    eapply do_any; [exact D|]; refine (loop_follows _ g (IHg SA) EA _ ws s1 t2 s2 _ (le_n _) O);
    eapply short_less; [exact S|lia] end).
  (* GNot *)
  all: try (match goal with |- does _ _ (GNot _) _ _ _ =>
    pose proof (follows_run _ g ws s (IHg SA) S) as D; rewrite denote_Not; cbn [NotAny impl];
    destruct (run (denote _ g) ws true s) as [r|]; cbn [is_some]; [eapply do_not; exact D|now apply do_not_not] end).
  (* GGroup, GDrop, GJoin, GStrip *)
  all: try (match goal with |- does _ _ (GGroup _) _ _ _ =>
    pose proof (IHg SA ws s S) as D; rewrite denote_Group; cbn [Group impl]; rewrite run_here;
    destruct (impl (denote _ g) ws s) as [[t1 s1]|]; [now apply do_group|now apply do_group_not] end).
  all: try (match goal with |- does _ _ (GDrop _) _ _ _ =>
    pose proof (IHg SA ws s S) as D; rewrite denote_Drop; cbn [Suppress impl]; rewrite run_here;
    destruct (impl (denote _ g) ws s) as [[t1 s1]|]; [eapply do_drop; exact D|now apply do_drop_not] end).
  all: try (match goal with |- does _ _ (GJoin _) _ _ _ =>
    pose proof (IHg SA false s S) as D; rewrite denote_Join; cbn [Combine impl]; rewrite run_here;
    destruct (impl (denote _ g) false s) as [[t1 s1]|]; [now apply do_join|now apply do_join_not] end).
  all: try (match goal with |- does _ _ (GStrip _) _ _ _ =>
    pose proof (IHg SA ws s S) as D; rewrite denote_Strip; cbn [strip_action impl];
    destruct (impl (denote _ g) ws s) as [[[|[u|u] t1] s1]|];
    first [now (eapply do_strip; exact D)|apply do_strip_not; [exact D|intros; discriminate]] end).
  (* GRef *)
  - destruct S as [S|[S _]]; [lia|discriminate S].
  - apply do_ref. cbn [denote Forward impl]. rewrite run_here. apply IHd; [apply def_sane|].
    destruct S as [S|[S _]]; [|discriminate S]. right. split; [apply def_guarded|lia].
Qed.

(** What the model reads of a text is what the rules say. *)
Theorem denote_reads : forall d g s o, sane g = true -> length s < d ->
  (reads_text def strip g s o <-> match run (denote d g) true true s with Some (t, _) => Some t | None => None end = o).
Proof.
  intros d g s o SA L.
  pose proof (follows_run d g true s (all_follow d g SA) (or_introl L)) as D. split.
  - intros (o' & D' & ->). rewrite (proj1 does_det _ _ _ _ D _ D'). reflexivity.
  - intros <-. now exists (run (denote d g) true true s).
Qed.
End Recursion.
