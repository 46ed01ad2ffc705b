(** What the grammars can return: how deep the pieces are nested, and which chemical compounds
    they contain. *)
From Coq Require Import String List Ascii NArith ZArith Bool Arith Lia.
From Verif.Model Require Import Py Dicts Particle Pyparsing Grammars Reaction Field.
From Verif.Proofs Require Import StrLemmas.
Import ListNotations.
Local Open Scope string_scope.
Local Open Scope list_scope.
Local Open Scope nat_scope.

(** Every piece that [e] returns satisfies [Q]. *)
Definition yields (e : pe) (Q : ptree -> Prop) : Prop := forall ws s t s', impl e ws s = Some (t, s') -> Forall Q t.

Lemma yields_run : forall e Q ws pre s t s', yields e Q -> run e ws pre s = Some (t, s') -> Forall Q t.
Proof. intros e Q ws pre s t s' Y H. unfold run in H. eapply Y, H. Qed.
Lemma yields_imp : forall e (Q R : ptree -> Prop), (forall t, Q t -> R t) -> yields e Q -> yields e R.
Proof. intros e Q R I Y ws s t s' H. eapply Forall_impl; [exact I|]. eapply Y, H. Qed.

Lemma yields_Literal : forall m (Q : ptree -> Prop), Q (PTok m) -> yields (Literal m) Q.
Proof.
  intros m Q H ws s t s' E. cbn [impl Literal] in E. destruct m; [discriminate|].
  match type of E with context [if ?b then _ else _] => destruct b end; [|discriminate].
  assert (t = [PTok (a :: m)]) by congruence. subst. constructor; [exact H|constructor].
Qed.
Lemma yields_Word2 : forall a b (Q : ptree -> Prop), (forall s, Q (PTok s)) -> yields (Word2 a b) Q.
Proof.
  intros a b Q H ws s t s' E. cbn [impl Word2] in E. destruct s; [discriminate|]. destruct (a a0); [|discriminate].
  destruct (span b s) as [x y]. assert (t = [PTok (a0 :: x)]) by congruence. subst. constructor; [apply H|constructor].
Qed.
Lemma yields_WordMax : forall a b n (Q : ptree -> Prop), (forall s, Q (PTok s)) -> yields (WordMax a b n) Q.
Proof.
  intros a b n Q H ws s t s' E. cbn [impl WordMax] in E. destruct s; [discriminate|]. destruct (a a0); [|discriminate].
  destruct (span b s) as [x y]. destruct (S (length x) <=? n); [|discriminate].
  assert (t = [PTok (a0 :: x)]) by congruence. subst. constructor; [apply H|constructor].
Qed.
Lemma yields_rest : forall (Q : ptree -> Prop), (forall s, Q (PTok s)) -> yields restOfLine Q.
Proof.
  intros Q H ws s t s' E. cbn [impl restOfLine] in E. destruct (span _ s) as [x y].
  assert (t = [PTok x]) by congruence. subst. constructor; [apply H|constructor].
Qed.
Lemma yields_Combine : forall e (Q : ptree -> Prop), (forall s, Q (PTok s)) -> yields (Combine e) Q.
Proof.
  intros e Q H ws s t s' E. cbn [impl Combine] in E. destruct (run e false false s) as [[x y]|]; [|discriminate].
  assert (t = [PTok (concat (map flat x))]) by congruence. subst. constructor; [apply H|constructor].
Qed.
Lemma yields_NoMatch : forall Q, yields NoMatch Q.
Proof. intros Q ws s t s' E. discriminate E. Qed.
Lemma yields_Suppress : forall e Q, yields (Suppress e) Q.
Proof. intros e Q ws s t s' E. cbn [impl Suppress] in E. destruct (run e ws false s) as [[x y]|]; [|discriminate]. assert (t = []) by congruence. subst. constructor. Qed.
Lemma yields_Group : forall e (Q R : ptree -> Prop), yields e Q -> (forall l, Forall Q l -> R (PGroup l)) -> yields (Group e) R.
Proof.
  intros e Q R Y H ws s t s' E. cbn [impl Group] in E. destruct (run e ws false s) as [[x y]|] eqn:X; [|discriminate].
  assert (t = [PGroup x]) by congruence. subst. constructor; [|constructor]. apply H. eapply yields_run; eauto.
Qed.
Lemma yields_rest_of : forall l Q, Forall (fun e => yields e Q) l -> forall ws s t s', and_rest l ws s = Some (t, s') -> Forall Q t.
Proof.
  intros l Q F. induction F as [|e l Y F IH]; intros ws s t s' E; cbn [and_rest] in E.
  - assert (t = []) by congruence. subst. constructor.
  - destruct (run e ws true s) as [[x y]|] eqn:X; [|discriminate]. destruct (and_rest l ws y) as [[x' y']|] eqn:X'; [|discriminate].
    assert (t = x ++ x') by congruence. subst. apply Forall_app. split; [eapply yields_run; eauto|eapply IH; eauto].
Qed.
Lemma yields_And : forall e l Q, yields e Q -> Forall (fun e => yields e Q) l -> yields (And e l) Q.
Proof.
  intros e l Q Y F ws s t s' E. cbn [impl And] in E.
  destruct (run e ws false s) as [[x y]|] eqn:X; [|discriminate]. destruct (and_rest l ws y) as [[x' y']|] eqn:X'; [|discriminate].
  assert (t = x ++ x') by congruence. subst. apply Forall_app. split; [eapply yields_run; eauto|eapply yields_rest_of; eauto].
Qed.
Lemma yields_Or : forall l Q, Forall (fun e => yields e Q) l -> yields (Or l) Q.
Proof.
  intros l Q F ws s. cbn [impl Or].
  assert (G : forall acc, (forall t s', acc = Some (t, s') -> Forall Q t) ->
     forall t s', fold_left longer (map (fun e => run e ws true s) l) acc = Some (t, s') -> Forall Q t).
  { induction F as [|e l Y F IH]; intros acc A t s' E; [now apply (A t s')|]. cbn [map fold_left] in E. eapply IH; [|exact E].
    intros t0 s0 L. unfold longer in L. destruct acc as [[ta ra]|], (run e ws true s) as [[tb rb]|] eqn:X.
    - destruct (length rb <? length ra); [|now apply (A t0 s0)]. assert (tb = t0) by congruence. subst. eapply yields_run; eauto.
    - now apply (A t0 s0).
    - assert (tb = t0) by congruence. subst. eapply yields_run; eauto.
    - discriminate. }
  intros t s' E. eapply G; [|exact E]. discriminate.
Qed.
Lemma yields_MatchFirst : forall l Q, Forall (fun e => yields e Q) l -> yields (MatchFirst l) Q.
Proof.
  intros l Q F ws s t s' E. cbn [impl MatchFirst] in E. induction F as [|e l Y F IH]; cbn [first_of] in E; [discriminate|].
  destruct (run e ws true s) as [r|] eqn:X; [|now apply IH]. assert (r = (t, s')) by congruence. subst. eapply yields_run; eauto.
Qed.
Lemma yields_Optional : forall e Q, yields e Q -> yields (Optional e) Q.
Proof.
  intros e Q Y ws s t s' E. cbn [impl Optional OptionalD] in E. destruct (run e ws false s) as [r|] eqn:X.
  - assert (r = (t, s')) by congruence. subst. eapply yields_run; eauto.
  - assert (t = []) by congruence. subst. constructor.
Qed.
Lemma yields_loop : forall n e Q ws s, yields e Q -> Forall Q (fst (loop n e ws s)).
Proof.
  induction n as [|n IH]; intros e Q ws s Y; cbn [loop]; [constructor|].
  destruct (run e ws true s) as [[t s']|] eqn:X; [|constructor]. specialize (IH e Q ws s' Y). destruct (loop n e ws s') as [t' s''].
  cbn [fst] in *. apply Forall_app. split; [eapply yields_run; eauto|exact IH].
Qed.
Lemma yields_ZeroOrMore : forall e Q, yields e Q -> yields (ZeroOrMore e) Q.
Proof.
  intros e Q Y ws s t s' E. cbn [impl ZeroOrMore] in E. destruct (run e ws false s) as [[x y]|] eqn:X.
  - pose proof (yields_loop (length y) e Q ws y Y) as L. destruct (loop (length y) e ws y) as [x' y'].
    assert (t = x ++ x') by congruence. subst. apply Forall_app. split; [eapply yields_run; eauto|exact L].
  - assert (t = []) by congruence. subst. constructor.
Qed.
Lemma yields_Forward : forall e Q, yields e Q -> yields (Forward e) Q.
Proof. intros e Q Y ws s t s' E. cbn [impl Forward] in E. eapply yields_run; eauto. Qed.
Lemma yields_parse : forall e Q s t, yields e Q -> parseString e s = Some t -> Forall Q t.
Proof.
  intros e Q s t Y H. unfold parseString in H. destruct (run e true true (expandtabs s)) as [[x y]|] eqn:X; [|discriminate].
  assert (x = t) by congruence. subst. eapply yields_run; eauto.
Qed.

(** ** The levels of nesting *)
Section Levels.
Variable c : codes.
(** a text; a text or a group of texts; ...; *)
Definition level0 (t : ptree) : Prop := exists s, t = PTok s.
Definition up (Q : ptree -> Prop) (t : ptree) : Prop := level0 t \/ exists l, t = PGroup l /\ Forall Q l.
Definition level1 := up level0.
(** Texts after the commas have no parentheses. *)
Definition level2 (t : ptree) : Prop := (exists s, t = PTok s /\ ~ In "("%char s) \/ exists l, t = PGroup l /\ Forall level1 l.
Definition level3 := up level2.
Lemma tok0 : forall s, level0 (PTok s).
Proof. intro s. now exists s. Qed.
Lemma tok_up : forall Q s, up Q (PTok s).
Proof. intros Q s. left. apply tok0. Qed.
Lemma group_up : forall Q l, Forall Q l -> up Q (PGroup l).
Proof. intros Q l F. right. eauto. Qed.
Lemma up_level0 : forall Q t, level0 t -> up Q t.
Proof. intros Q t L. now left. Qed.

Ltac toks := first [apply tok0|apply tok_up|intro; apply tok0|intro; apply tok_up].
Ltac step := match goal with
  | |- Forall _ [] => constructor
  | |- Forall _ (_ :: _) => constructor
  | |- yields (Suppress _) _ => apply yields_Suppress
  | |- yields (Literal _) _ => apply yields_Literal; toks
  | |- yields (Word _) _ => apply yields_Word2; toks
  | |- yields (WordMax _ _ _) _ => apply yields_WordMax; toks
  | |- yields (Combine _) _ => apply yields_Combine; toks
  | |- yields (Optional _) _ => apply yields_Optional
  | |- yields (ZeroOrMore _) _ => apply yields_ZeroOrMore
  | |- yields (And _ _) _ => apply yields_And
  | |- yields (Or _) _ => apply yields_Or
  | |- yields (MatchFirst _) _ => apply yields_MatchFirst
  end.
Lemma one_of_tok : forall keys (Q : ptree -> Prop), (forall s, In s keys -> Q (PTok s)) -> yields (one_of keys) Q.
Proof.
  intros keys Q H. unfold one_of. apply yields_Or. apply Forall_forall. intros e I. apply in_map_iff in I. destruct I as (k & <- & I).
  apply yields_Literal. now apply H.
Qed.
Lemma nucleus_level : yields x4nucleus level0.
Proof. unfold x4nucleus, dash, mathop, isomer_modifier, x4element, nums. cbn [map]. repeat step. Qed.
Lemma compound_level : yields (x4chemical_compound c) level0.
Proof. apply one_of_tok. intros. apply tok0. Qed.
Lemma either_level : yields (Group (MatchFirst [x4chemical_compound c; x4nucleus])) level1.
Proof.
  apply (yields_Group _ level0); [|apply group_up]. apply yields_MatchFirst. constructor; [apply compound_level|]. constructor; [apply nucleus_level|constructor].
Qed.
Lemma nucleus_group : yields (Group x4nucleus) level1.
Proof. apply (yields_Group _ level0); [apply nucleus_level|apply group_up]. Qed.
Lemma particle_level : forall Q : ptree -> Prop, (forall s, Q (PTok s)) -> yields x4particle Q.
Proof. intros Q H. unfold x4particle. now apply yields_Combine. Qed.
Lemma product_level : yields (x4product c) level1.
Proof.
  unfold x4product. apply yields_Or. constructor; [apply nucleus_group|]. constructor.
  { unfold x4basicparticle. repeat step. apply one_of_tok. intros. apply tok_up. }
  constructor; [apply particle_level; intro; apply tok_up|]. constructor; [|repeat step].
  apply (yields_Group _ level0); [|apply group_up]. unfold nums. repeat step. apply particle_level, tok0.
Qed.
Lemma process_level : yields (x4process c) level1.
Proof.
  unfold x4process, lpar, rpar, comma, delimited. apply yields_And.
  - unfold x4target. apply yields_Or. constructor; [apply either_level|]. repeat step.
  - cbn [app]. constructor; [step|]. constructor.
    { unfold x4projectile. apply yields_Or. constructor; [apply nucleus_group|]. constructor; [apply particle_level, tok_up|]. repeat step. }
    constructor; [step|]. constructor; [apply product_level|]. constructor.
    { apply yields_ZeroOrMore, yields_And; [step|]. constructor; [apply product_level|constructor]. }
    constructor; [step|]. constructor; [|constructor]. apply yields_Optional. unfold x4residual. apply yields_Or. constructor; [apply either_level|]. repeat step.
Qed.
Lemma span_chars : forall p s a b, span p s = (a, b) -> Forall (fun c => p c = true) a.
Proof.
  intros p. induction s as [|x s IH]; intros a b E; cbn [span] in E; [assert (a = []) by congruence; subst; constructor|].
  destruct (p x) eqn:P; [|assert (a = []) by congruence; subst; constructor]. destruct (span p s) as [a' b'] eqn:S.
  assert (a = x :: a') by congruence. subst. constructor; [exact P|]. now apply (IH a' b').
Qed.
Lemma word_level : forall p, p "("%char = false -> yields (Word p) level2.
Proof.
  intros p P ws s t s' E. cbn [impl Word Word2] in E. destruct s as [|x s]; [discriminate|]. destruct (p x) eqn:PX; [|discriminate].
  destruct (span p s) as [a b] eqn:S. apply span_chars in S. assert (t = [PTok (x :: a)]) by congruence. subst. constructor; [|constructor].
  left. exists (x :: a). split; [reflexivity|]. intros [->|I]; [congruence|]. rewrite Forall_forall in S. apply S in I. congruence.
Qed.
Lemma descriptor_level : yields (ZeroOrMore x4reaction_descriptor) level2.
Proof.
  unfold x4reaction_descriptor, lpar, rpar. assert (W : yields descr_word level2) by (apply word_level; reflexivity). repeat first [exact W|step].
Qed.
Lemma part_level : yields (reaction_part c) level2.
Proof.
  unfold reaction_part. apply yields_Or. constructor; [apply (yields_Group _ level1); [apply process_level|intros l F; right; eauto]|].
  constructor; [apply descriptor_level|constructor].
Qed.
Lemma reaction_level : yields (x4reaction c) level2.
Proof.
  unfold x4reaction, lpar, rpar, delimited. apply yields_And; [step|]. cbn [app]. constructor; [apply part_level|]. constructor; [|repeat step].
  apply yields_ZeroOrMore, yields_And; [step|]. constructor; [apply part_level|constructor].
Qed.
Lemma factor_level : forall depth, yields (x4compound_factor c depth) level3.
Proof.
  assert (G : yields (Group (x4reaction c)) level3) by (apply (yields_Group _ level2); [apply reaction_level|apply group_up]).
  induction depth as [|n IH]; cbn [x4compound_factor]; apply yields_MatchFirst; (constructor; [exact G|]); (constructor; [|constructor]);
    apply yields_And; try (apply yields_Literal; apply tok_up).
  - constructor; [apply yields_NoMatch|]. repeat step.
  - constructor; [|repeat step]. apply yields_Forward, yields_And; [exact IH|].
    unfold compound_tail, altmultop, addop. cbn [app]. repeat first [step|exact IH].
Qed.
Lemma expression_level : forall depth, yields (x4compound_expression c depth) level3.
Proof.
  intro depth. unfold x4compound_expression. pose proof (factor_level depth) as F. apply yields_Forward, yields_And; [exact F|].
  unfold compound_tail, altmultop, addop. cbn [app]. repeat first [step|exact F].
Qed.
Lemma field_level : forall depth, yields (x4reactionfield c depth) level3.
Proof.
  intro depth. unfold x4reactionfield. apply yields_And; [apply expression_level|]. constructor; [|constructor]. apply yields_rest, tok_up.
Qed.
Lemma expand_open : forall s col, In "("%char (expandtabs_from col s) -> In "("%char s.
Proof.
  induction s as [|x s IH]; intros col I; cbn [expandtabs_from] in I; [exact I|].
  destruct (Ascii.eqb x (ch 9)).
  - apply in_app_or in I. destruct I as [I|I]; [apply repeat_spec in I; discriminate I|]. right. eapply IH, I.
  - destruct I as [->|I]; [now left|]. right. eapply IH, I.
Qed.
Lemma skip_open : forall s x, In x (skip_white s) -> In x s.
Proof. induction s as [|y s IH]; intros x I; cbn [skip_white] in I; [exact I|]. destruct (is_white y); [right; now apply IH|exact I]. Qed.
(** A text without parentheses is not a reaction. *)
Lemma reaction_opens : forall s t, parseString (x4reaction c) s = Some t -> In "("%char s.
Proof.
  intros s t H. unfold parseString in H. destruct (run (x4reaction c) true true (expandtabs s)) as [[x y]|] eqn:R; [|discriminate]. clear H.
  apply (expand_open s 0). unfold expandtabs in R. set (u := expandtabs_from 0 s) in *. clearbody u.
  unfold run in R. cbn [callpre skipws x4reaction And lpar Suppress Literal andb] in R.
  match type of R with context [impl (x4reaction c) true ?v] => assert (V : forall z, In z v -> In z u) by apply skip_open; set (v0 := v) in * end.
  clearbody v0. unfold x4reaction in R. cbn [impl And] in R.
  destruct (run lpar true false v0) as [[a b]|] eqn:L; [|discriminate]. clear R. apply V.
  unfold run in L. cbn [andb lpar Suppress impl] in L. unfold run in L. cbn [andb impl Literal] in L.
  change (lit "(") with ["("%char] in L. cbn iota in L. destruct v0 as [|z v0]; [discriminate L|]. cbn [is_prefix] in L.
  destruct (Ascii.eqb "(" z) eqn:Z; [apply Ascii.eqb_eq in Z; subst; now left|]. cbn [andb] in L. discriminate L.
Qed.
End Levels.
