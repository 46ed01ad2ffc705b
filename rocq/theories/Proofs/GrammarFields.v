(** Combinations of reactions and whole REACTION fields as the grammars read them. *)
From Coq Require Import String List Ascii NArith ZArith Bool Arith Lia.
From Verif.Model Require Import Py Particle Pyparsing Grammars.
From Verif.Spec Require Import Text Codes General.
From Verif.Proofs Require Import StrLemmas ParseLemmas GrammarLemmas GrammarCodes GrammarReactions GrammarGeneral.
Import ListNotations.
Local Open Scope list_scope.
Local Open Scope nat_scope.

Scheme cfactor_m := Minimality for cfactor Sort Prop
  with cterm_m := Minimality for cterm Sort Prop
  with cexpr_m := Minimality for cexpr Sort Prop.
Combined Scheme combination_m from cfactor_m, cterm_m, cexpr_m.

(** * Where a combination starts *)

Definition soft (d : ascii) : bool := qchar d || is_white d.
(** Soft characters up to a parenthesis. *)
Definition leads (y : str) : Prop := exists w r, y = w ++ "("%char :: r /\ forallb soft w = true.
(** A parenthesis, then soft characters up to another one. *)
Definition opens (x : str) : Prop := exists y, skip_white x = "("%char :: y /\ leads y.

Lemma leads_skip : forall y, leads y -> leads (skip_white y).
Proof.
  intros y (w & r & -> & W). induction w as [|d w IH]; [exists [], r; auto|].
  cbn [app skip_white]. cbn [forallb] in W. apply andb_prop in W as [D W].
  destruct (is_white d); [exact (IH W)|]. exists (d :: w), r. split; [reflexivity|]. cbn [forallb]. now rewrite D.
Qed.
Lemma leads_suffix : forall v y q, leads y -> y = v ++ q -> forallb qchar v = true -> leads q.
Proof.
  induction v as [|d v IH]; intros y q L E V; [now rewrite <- (app_nil_l q), <- E|].
  cbn [forallb] in V. apply andb_prop in V as [D V].
  destruct L as (w & r & -> & W). destruct w as [|e w]; cbn [app] in E.
  - injection E as <- _. discriminate.
  - injection E as <- E. cbn [forallb] in W. apply andb_prop in W as [_ W].
    apply (IH (w ++ "("%char :: r)); auto. exists w, r. auto.
Qed.
Lemma leads_next : forall y, leads y -> fol (fun d => qchar d || Ascii.eqb d "("%char) (skip_white y).
Proof.
  intros y (w & r & -> & W). induction w as [|d w IH]; [reflexivity|].
  cbn [forallb] in W. apply andb_prop in W as [D W]. cbn [app skip_white].
  destruct (is_white d) eqn:E; [exact (IH W)|]. cbn [fol]. unfold soft in D. rewrite E, orb_false_r in D. now rewrite D.
Qed.

Lemma span_spec : forall p s a b, span p s = (a, b) -> s = a ++ b /\ forallb p a = true.
Proof.
  intros p. induction s as [|d s IH]; intros a b H; cbn [span] in H.
  - injection H as <- <-. auto.
  - destruct (p d) eqn:D; [|injection H as <- <-; auto].
    destruct (span p s) as [a' b']. injection H as <- <-. destruct (IH a' b' eq_refl) as [-> A].
    split; [reflexivity|]. cbn [forallb]. now rewrite D.
Qed.

Section Keys.
Variable c : codes.
Hypothesis KP : Forall particle_key (c_particles c).
Hypothesis KC : Forall compound_key (c_compounds c).
Let coded := written (c_particles c) (c_compounds c).

(** A combination in parentheses is not a reaction. *)
Lemma reaction_not : forall x y, skip_white x = "("%char :: y -> opens y -> run (x4reaction c) true true x = None.
Proof.
  intros x y X (z & Y & L).
  rewrite run_pre by reflexivity. rewrite X. unfold x4reaction. cbn [And impl].
  assert (P : run lpar true false ("("%char :: y) = Some ([], y)) by reflexivity.
  rewrite P. unfold delimited. cbn [app and_rest].
  assert (H1 : run (Group (x4process c)) true true y = None).
  { rewrite run_Group. assert (R : run (x4process c) true true y = None); [|now rewrite R].
    apply (And_refuses (x4target c) _ _ eq_refl (target_refuses c KC) y). rewrite Y. reflexivity. }
  assert (H2 : run x4reaction_descriptor true true y = None).
  { unfold x4reaction_descriptor. rewrite run_Or. cbn [map fold_left]. rewrite !none_longer.
    assert (W : run descr_word true true y = None).
    { apply (Word2_refuses (alphanum_or "/*+-") (alphanum_or "/*+-")). rewrite Y. reflexivity. }
    rewrite W, none_longer. rewrite run_pre by reflexivity. rewrite Y. cbn [And impl].
    assert (P2 : run lpar true false ("("%char :: z) = Some ([], z)) by reflexivity.
    rewrite P2. cbn [and_rest].
    destruct (run descr_word true true z) as [[t q]|] eqn:Q; [|reflexivity].
    assert (R : run rpar true true q = None); [|now rewrite R].
    apply (Suppress_refuses _ _ (Literal_head ")"%char [])).
    assert (Lq : leads q).
    { rewrite run_pre in Q by reflexivity. unfold descr_word, Word in Q. cbn [Word2 impl] in Q.
      destruct (skip_white z) as [|d s] eqn:Z; [discriminate|].
      destruct (alphanum_or "/*+-" d) eqn:D; [|discriminate].
      destruct (span (alphanum_or "/*+-") s) as [a b] eqn:Sp. injection Q as _ <-.
      apply span_spec in Sp as [-> A]. apply leads_skip in L. rewrite Z in L.
      apply (leads_suffix (d :: a) _ b L eq_refl). cbn [forallb].
      change (qchar d && forallb qchar a = true). change (qchar d = true) in D. rewrite D. exact A. }
    eapply fol_weaken; [|exact (leads_next q Lq)]. intros d D. chars D. }
  assert (H3 : run (reaction_part c) true true y = Some ([], y) \/ run (reaction_part c) true true y = Some ([], skip_white y)).
  { unfold reaction_part. rewrite run_Or. cbn [map fold_left]. rewrite H1, !none_longer, run_ZeroOrMore, H2.
    destruct (_ && _ && true); auto. }
  assert (H4 : forall q, skip_white q = skip_white y ->
     and_rest [ZeroOrMore (And (Suppress (Literal (lit ","))) [reaction_part c]); rpar] true q = None).
  { intros q E. cbn [and_rest]. rewrite run_ZeroOrMore.
    assert (H5 : run (And (Suppress (Literal (lit ","))) [reaction_part c]) true true q = None).
    { apply (And_refuses (Suppress (Literal (lit ","))) _ (fol (fun d => negb (Ascii.eqb ","%char d))));
        [reflexivity| |rewrite E, Y; reflexivity].
      apply Suppress_refuses, (Literal_head ","%char []). }
    rewrite H5. cbn [andb callpre skipws And Suppress Literal].
    assert (R : run rpar true true (skip_white q) = None); [|now rewrite R].
    apply (Suppress_refuses _ _ (Literal_head ")"%char [])). rewrite skip_idem, E, Y. reflexivity. }
  cbn [and_rest] in H4.
  destruct H3 as [-> | ->].
  - specialize (H4 y eq_refl). cbn [app]. now rewrite H4.
  - specialize (H4 (skip_white y) (skip_idem y)). cbn [app]. now rewrite H4.
Qed.

(** The text of a nuclide is soft. *)
Lemma soft_spaced : forall ts s, Forall (fun t => forallb soft t = true) ts -> spaced ts s -> forallb soft s = true.
Proof.
  intros ts s F S. revert F. induction S as [|w t ts s W S IH]; intros F; [reflexivity|].
  inversion F; subst. rewrite !forallb_app, !andb_true_iff. repeat split; auto.
  apply forallb_forall. intros d I. rewrite Forall_forall in W. unfold soft. now rewrite (gap_white d (W d I)), orb_true_r.
Qed.
Lemma digits_soft : forall w, Forall digit w -> forallb soft w = true.
Proof.
  intros w W. apply forallb_forall. intros d I. rewrite Forall_forall in W. specialize (W d I).
  apply digit_dig in W. chars W.
Qed.
Lemma nuclide_soft : forall n, good_nuclide n -> Forall (fun t => forallb soft t = true) (nuclide_tokens n).
Proof.
  intros n ([_ Z] & [_ A] & Is & (a & t & E & C & T)). unfold nuclide_tokens.
  assert (Sy : forallb soft (n_sym n) = true).
  { rewrite E. apply capital_cap in C. cbn [forallb]. rewrite andb_true_iff. split; [chars C|].
    destruct T as [->|(d & -> & D)]; [reflexivity|]. apply letter_alpha in D. cbn [forallb]. rewrite andb_true_r. chars D. }
  rewrite Forall_app. split.
  - repeat apply Forall_cons; try apply Forall_nil; auto using digits_soft.
  - rewrite Forall_forall. intros x I. apply in_flat_map in I as (i & Ii & I). rewrite Forall_forall in Is.
    destruct (Is i Ii) as (O & L & D). unfold isomer_tokens in I. destruct I as [<-|[<-|I]].
    + assert (B : cmem (i_op i) (lit "+-*/") = true) by now apply cmem_In. cbn [forallb]. rewrite andb_true_r. chars B.
    + assert (B : isomer_letter (i_letter i) = true) by now apply cmem_In. cbn [forallb]. rewrite andb_true_r. chars B.
    + destruct (i_number i); [destruct I|]. destruct I as [<-|[]]. now apply digits_soft.
Qed.

Lemma spot_soft : forall p, good_spot target_sums (c_compounds c) p -> Forall (fun t => forallb soft t = true) (spot_tokens p).
Proof.
  intros [n|k|w] G; cbn [good_spot spot_tokens] in *; [now apply nuclide_soft| |].
  - constructor; [|constructor]. apply forallb_forall. intros d D. pose proof (compound_chars c KC k G) as Q.
    rewrite forallb_forall in Q. unfold soft. now rewrite (Q d D).
  - constructor; [|constructor]. cbn [target_sums In] in G. destruct G as [<-|[<-|[<-|[]]]]; reflexivity.
Qed.
Lemma reaction_opens : forall ts l s k, coded ts l -> spaced ts s -> opens (s ++ k).
Proof.
  intros ts l s k (r & (GT & _) & -> & _) S. unfold general_tokens in S. cbn [app] in S.
  destruct (first_token (tx "(") _ s k (s ++ k) "("%char [] eq_refl eq_refl S (near_refl _)) as (s1 & X & S1).
  exists (s1 ++ k). split; [exact X|]. unfold gprocess_tokens in S1. rewrite <- !app_assoc in S1.
  destruct (spaced_app _ _ _ S1) as (s2 & s3 & -> & S2 & S3).
  cbn [app] in S3. inversion S3 as [|w t ts s4 W S4 E1 E2]; subst.
  exists (s2 ++ w), (s4 ++ k). split; [now rewrite <- !app_assoc|].
  rewrite forallb_app. rewrite (soft_spaced _ _ (spot_soft _ GT) S2). cbn [andb].
  apply forallb_forall. intros d I. rewrite Forall_forall in W. unfold soft. now rewrite (gap_white d (W d I)), orb_true_r.
Qed.

Lemma opens_leads : forall x, opens x -> leads x.
Proof.
  intros x (y & X & _). destruct (skip_decomp x) as (w & E & W). exists w, y. split; [now rewrite <- X|].
  apply forallb_forall. intros d I. rewrite Forall_forall in W. unfold soft. now rewrite (W d I), orb_true_r.
Qed.

Lemma combination_opens :
  (forall ts l, cfactor coded ts l -> forall s k, spaced ts s -> opens (s ++ k)) /\
  (forall ts l, cterm coded ts l -> forall s k, spaced ts s -> opens (s ++ k)) /\
  (forall ts l, cexpr coded ts l -> forall s k, spaced ts s -> opens (s ++ k)).
Proof.
  apply combination_m.
  - intros ts l G s k S. exact (reaction_opens ts l s k G S).
  - intros ts l _ IH s k S.
    destruct (first_token (tx "(") _ s k (s ++ k) "("%char [] eq_refl eq_refl S (near_refl _)) as (s1 & X & S1).
    exists (s1 ++ k). split; [exact X|]. destruct (spaced_app _ _ _ S1) as (s2 & s3 & -> & S2 & S3).
    rewrite <- app_assoc. apply opens_leads, IH, S2.
  - auto.
  - intros op ts l ts' l' _ _ IH _ _ s k S. destruct (spaced_app _ _ _ S) as (s2 & s3 & -> & S2 & S3).
    rewrite <- app_assoc. apply IH, S2.
  - auto.
  - intros op ts l ts' l' _ _ IH _ _ s k S. destruct (spaced_app _ _ _ S) as (s2 & s3 & -> & S2 & S3).
    rewrite <- app_assoc. apply IH, S2.
Qed.

(** * Reading combinations *)

Definition expression (factor : pe) : pe :=
  Forward (And factor (compound_tail factor ++ [ZeroOrMore (And addop (factor :: compound_tail factor))])).
Lemma factor_S : forall d, x4compound_factor c (S d) =
  MatchFirst [Group (x4reaction c);
              And (Literal (lit "(")) [expression (x4compound_factor c d); Literal (lit ")")]].
Proof. reflexivity. Qed.

(** The opening parentheses among the tokens. *)
Definition is_par (t : str) : bool := str_eqb t (tx "(").
Definition pars (ts : list str) : nat := length (filter is_par ts).
Lemma pars_app : forall a b, pars (a ++ b) = pars a + pars b.
Proof. intros a b. unfold pars. now rewrite filter_app, app_length. Qed.
Lemma pars_len : forall ts s, spaced ts s -> pars ts <= length s.
Proof.
  intros ts s S. induction S as [|w t ts s W S IH]; [auto|]. unfold pars in *. cbn [filter].
  rewrite !app_length. destruct (is_par t) eqn:P; [|lia]. apply str_eqb_eq in P as ->.
  change (length (tx "(")) with 1. cbn [length]. lia.
Qed.

Definition not_mul (d : ascii) : bool := negb (cmem d (lit "*/=")).
Definition not_add (d : ascii) : bool := negb (cmem d (lit "+-")).
Definition not_op (d : ascii) : bool := negb (cmem d (lit "*/=+-")).

Lemma altmultop_parses : forall op, In op [tx "*"; tx "//"; tx "/"; tx "="] ->
  parses altmultop [op] [PTok op] (nxt (fun d => Ascii.eqb d "("%char)).
Proof.
  intros op I s k x S F N. unfold altmultop. rewrite run_MatchFirst.
  assert (E : forall a u, op = a :: u -> is_white a = false -> skip_white x = op ++ k).
  { intros a u Eo W. destruct (first_token op [] s k x a u Eo W S N) as (s' & -> & S'). inversion S'; subst. reflexivity. }
  exists k. split; [|apply near_refl].
  assert (L : forall m, run (Literal m) true true x =
     match m with [] => None | _ => if is_prefix m (skip_white x) then Some ([PTok m], skipn (length m) (skip_white x)) else None end).
  { intros m. rewrite run_pre by reflexivity. reflexivity. }
  cbn [first_of]. rewrite !L.
  destruct I as [<-|[<-|[<-|[<-|[]]]]].
  - rewrite (E _ _ eq_refl eq_refl). reflexivity.
  - rewrite (E _ _ eq_refl eq_refl). reflexivity.
  - rewrite (E _ _ eq_refl eq_refl). destruct k as [|d k]; [reflexivity|].
    assert (D : fol (fun d => negb (Ascii.eqb "/"%char d)) (d :: k)).
    { apply nxt_fol; [intros e H; chars H|]. eapply nxt_weaken; [|exact F]. intros e H. chars H. }
    cbn [fol] in D. apply negb_true_iff in D.
    change (is_prefix (lit "//") (tx "/" ++ d :: k)) with (Ascii.eqb "/"%char d && true). rewrite D. reflexivity.
  - rewrite (E _ _ eq_refl eq_refl). reflexivity.
Qed.
Lemma altmultop_refuses : refuses altmultop (fol not_mul).
Proof.
  apply MatchFirst_refuses. repeat apply Forall_cons; try apply Forall_nil;
    (eapply refuses_weaken; [refine (Literal_head _ _)|]; intros k; apply fol_weaken; intros d D; chars D).
Qed.
Lemma addop_refuses : refuses addop (fol not_add).
Proof.
  apply MatchFirst_refuses. repeat apply Forall_cons; try apply Forall_nil;
    (eapply refuses_weaken; [refine (Literal_head _ _)|]; intros k; apply fol_weaken; intros d D; chars D).
Qed.
Lemma addop_parses : forall op, In op [tx "+"; tx "-"] -> parses addop [op] [PTok op] any.
Proof.
  intros op I. destruct I as [<-|[<-|[]]].
  - apply (oneof_parses (lit "+-") "+"%char); [now left|reflexivity].
  - apply (oneof_parses (lit "+-") "-"%char); [right; now left|reflexivity].
Qed.

Definition opened (ts : list str) : Prop := forall s k, spaced ts s -> nxt (fun d => Ascii.eqb d "("%char) (s ++ k).
Lemma opens_opened : forall ts, (forall s k, spaced ts s -> opens (s ++ k)) -> opened ts.
Proof. intros ts H s k S. destruct (H s k S) as (y & X & _). unfold nxt. rewrite X. reflexivity. Qed.

(** What is known of the operators and factors after the first factor. *)
Definition mul_item (d : nat) (i : list str * list ptree) : Prop :=
  exists op ts l, In op [tx "*"; tx "//"; tx "/"; tx "="] /\ i = (op :: ts, PTok op :: l) /\
    parses (x4compound_factor c d) ts l any /\ opened ts.
Definition term_split (d : nat) (ts : list str) (l : list ptree) : Prop :=
  exists ts0 l0 items, ts = ts0 ++ concat (map fst items) /\ l = l0 ++ concat (map snd items) /\
    parses (x4compound_factor c d) ts0 l0 any /\ opened ts0 /\ Forall (mul_item d) items.
Definition add_item (d : nat) (i : list str * list ptree) : Prop :=
  exists op ts l, In op [tx "+"; tx "-"] /\ i = (op :: ts, PTok op :: l) /\ term_split d ts l.
Definition expr_split (d : nat) (ts : list str) (l : list ptree) : Prop :=
  exists ts0 l0 items, ts = ts0 ++ concat (map fst items) /\ l = l0 ++ concat (map snd items) /\
    term_split d ts0 l0 /\ Forall (add_item d) items.

Lemma muls_chain : forall d items, Forall (mul_item d) items ->
  chain (And altmultop [x4compound_factor c d]) (fol not_mul) items.
Proof.
  intros d items H. induction H as [|i items (op & ts & l & O & -> & P & Op) _ IH]; [constructor|].
  apply chain_cons with (F := any); [| |exact (fun _ _ _ _ => I)|exact IH].
  - destruct O as [<-|[<-|[<-|[<-|[]]]]]; (eexists _, _, _; split; reflexivity).
  - apply (parses_And altmultop [x4compound_factor c d] [op] [PTok op] (nxt (fun d => Ascii.eqb d "("%char)) ts l any);
      [reflexivity|apply altmultop_parses, O|apply rest_one, P|].
    intros s k S _. apply Op, S.
Qed.
Lemma muls_parse : forall d items, Forall (mul_item d) items ->
  parses (ZeroOrMore (And altmultop [x4compound_factor c d])) (concat (map fst items)) (concat (map snd items)) (nxt not_mul).
Proof.
  intros d items H. apply ZeroOrMore_parses; [|now apply muls_chain].
  apply And_refuses; [reflexivity|apply altmultop_refuses].
Qed.
Lemma term_parses : forall d ts l, term_split d ts l ->
  parses_rest (x4compound_factor c d :: compound_tail (x4compound_factor c d)) ts l (nxt not_mul).
Proof.
  intros d ts l (ts0 & l0 & items & -> & -> & P & _ & H).
  eapply rest_cons; [exact P| |exact (fun _ _ _ _ => I)]. apply rest_one, muls_parse, H.
Qed.
Lemma add_nxt : forall d items s k, Forall (add_item d) items -> spaced (concat (map fst items)) s ->
  nxt not_op k -> nxt not_mul (s ++ k).
Proof.
  intros d items s k H S K. destruct H as [|i items (op & ts & l & O & -> & _) _].
  - inversion S; subst. eapply nxt_weaken; [|exact K]. intros e E. chars E.
  - cbn [map concat fst app] in S. destruct O as [<-|[<-|[]]]; (eapply nxt_spaced; [exact S|reflexivity|reflexivity]).
Qed.
Lemma adds_chain : forall d items, Forall (add_item d) items ->
  chain (And addop (x4compound_factor c d :: compound_tail (x4compound_factor c d))) (fol not_op) items.
Proof.
  intros d items H. induction H as [|i items (op & ts & l & O & -> & P) H IH]; [constructor|].
  apply chain_cons with (F := nxt not_mul); [| | |exact IH].
  - destruct O as [<-|[<-|[]]]; (eexists _, _, _; split; reflexivity).
  - apply (parses_And addop (x4compound_factor c d :: compound_tail (x4compound_factor c d)) [op] [PTok op] any ts l (nxt not_mul));
      [reflexivity|apply addop_parses, O|apply term_parses, P|exact (fun _ _ _ _ => I)].
  - intros s k S K. exact (add_nxt d items s k H S K).
Qed.

Lemma run_Forward : forall e x, skipws e = true -> callpre e = true -> run (Forward e) true true x = run e true true x.
Proof. intros e x W C. unfold run. cbn [Forward callpre skipws impl andb]. rewrite W, C. cbn [andb]. reflexivity. Qed.

Lemma factor_skipws : forall d, skipws (x4compound_factor c d) = true.
Proof. intros [|d]; reflexivity. Qed.
Lemma expression_parses : forall d ts l, expr_split d ts l ->
  parses (expression (x4compound_factor c d)) ts l (nxt not_op).
Proof.
  intros d ts l H s k x S K N.
  destruct H as (ts0 & l0 & items & -> & -> & (ts1 & l1 & muls & -> & -> & P & _ & HM) & HA).
  unfold expression. rewrite run_Forward by (reflexivity || apply factor_skipws).
  rewrite <- app_assoc.
  refine (parses_And (x4compound_factor c d) _ ts1 l1 any
            (concat (map fst muls) ++ concat (map fst items)) (concat (map snd muls) ++ concat (map snd items))
            (nxt not_op) (factor_skipws d) P _ (fun _ _ _ _ => I) s k x _ K N).
  - unfold compound_tail at 1. cbn [app].
    eapply rest_cons; [apply muls_parse, HM| |intros s0 k0 S0 K0; exact (add_nxt d items s0 k0 HA S0 K0)].
    apply rest_one. apply ZeroOrMore_parses; [|now apply adds_chain].
    apply And_refuses; [reflexivity|]. eapply refuses_weaken; [apply addop_refuses|].
    intros k0. apply fol_weaken. intros e E. chars E.
  - rewrite app_assoc. exact S.
Qed.

(** After a single factor, the whitespace is skipped too. *)
Lemma expression_factor : forall d ts l, parses (x4compound_factor c d) ts l any ->
  forall s k x, spaced ts s -> nxt not_op k -> near x (s ++ k) ->
  run (expression (x4compound_factor c d)) true true x = Some (l, skip_white k).
Proof.
  intros d ts l P s k x S K N. unfold expression. rewrite run_Forward by (reflexivity || apply factor_skipws).
  destruct (P s k (skip_white x) S I (near_skipped _ _ N)) as (k1 & E & N1).
  rewrite run_pre by (reflexivity || apply factor_skipws). cbn [And impl].
  rewrite run_skip in E. unfold run at 1. cbn [andb]. rewrite E. unfold compound_tail at 1. cbn [app and_rest].
  rewrite !run_ZeroOrMore.
  assert (M : run (And altmultop [x4compound_factor c d]) true true k1 = None).
  { apply (And_refuses altmultop _ _ eq_refl altmultop_refuses k1). rewrite (near_skip _ _ N1).
    eapply fol_weaken; [|exact K]. intros e E'. chars E'. }
  rewrite M. change (callpre (And altmultop [x4compound_factor c d]) && skipws (And altmultop [x4compound_factor c d]) && true) with true.
  cbn iota beta. rewrite run_ZeroOrMore.
  assert (A : run (And addop (x4compound_factor c d :: compound_tail (x4compound_factor c d))) true true (skip_white k1) = None).
  { apply (And_refuses addop _ _ eq_refl addop_refuses (skip_white k1)). rewrite skip_idem, (near_skip _ _ N1).
    eapply fol_weaken; [|exact K]. intros e E'. chars E'. }
  rewrite A.
  change (callpre (And addop (x4compound_factor c d :: compound_tail (x4compound_factor c d))) &&
          skipws (And addop (x4compound_factor c d :: compound_tail (x4compound_factor c d))) && true) with true.
  cbn iota beta. rewrite skip_idem, (near_skip _ _ N1), app_nil_r. reflexivity.
Qed.

Lemma combination_split :
  (forall ts l, cfactor coded ts l -> forall d, pars ts <= d -> parses (x4compound_factor c d) ts l any) /\
  (forall ts l, cterm coded ts l -> forall d, pars ts <= d -> term_split d ts l) /\
  (forall ts l, cexpr coded ts l -> forall d, pars ts <= d -> expr_split d ts l).
Proof.
  apply combination_m.
  - intros ts l G d _ s k x S K N.
    destruct (Group_parses _ _ _ _ (written_parses c KP KC ts l G) s k x S K N) as (k' & E & N').
    exists k'. split; [|exact N'].
    destruct d as [|d]; cbn [x4compound_factor]; rewrite run_MatchFirst; cbn [first_of]; rewrite E; reflexivity.
  - intros ts l C IH d D. cbn [pars] in D.
    change (tx "(" :: ts ++ [tx ")"]) with ([tx "("] ++ ts ++ [tx ")"]) in *.
    rewrite !pars_app in D. change (pars [tx "("]) with 1 in D. change (pars [tx ")"]) with 0 in D.
    destruct d as [|d]; [lia|]. assert (D' : pars ts <= d) by lia.
    intros s k x S K N. rewrite factor_S, run_MatchFirst. cbn [first_of].
    assert (R : run (Group (x4reaction c)) true true x = None).
    { rewrite run_Group. cbn [app] in S.
      destruct (first_token (tx "(") _ s k x "("%char [] eq_refl eq_refl S N) as (s1 & X & S1).
      rewrite (reaction_not x (s1 ++ k)); auto.
      destruct (spaced_app _ _ _ S1) as (s2 & s3 & -> & S2 & _). rewrite <- app_assoc.
      exact (proj2 (proj2 combination_opens) ts l C s2 (s3 ++ k) S2). }
    rewrite R.
    destruct (parses_And (Literal (lit "(")) [expression (x4compound_factor c d); Literal (lit ")")]
                [tx "("] [PTok (tx "(")] any (ts ++ [tx ")"]) (l ++ [PTok (tx ")")]) any) with (s := s) (k := k) (x := x)
      as (k' & E & N'); auto.
    + apply (Literal_parses "("%char []). reflexivity.
    + eapply rest_cons; [apply expression_parses, IH, D'| |].
      * apply rest_one. apply (Literal_parses ")"%char []). reflexivity.
      * intros s0 k0 S0 _. eapply nxt_spaced; [exact S0|reflexivity|reflexivity].
    + exists k'. split; [|exact N']. rewrite E. reflexivity.
  - intros ts l C IH d D. exists ts, l, []. cbn [map concat]. rewrite !app_nil_r.
    repeat (split; [reflexivity|]). split; [now apply IH|]. split; [|constructor].
    apply opens_opened. exact (proj1 combination_opens ts l C).
  - intros op ts l ts' l' O C IH C' IH' d D. change (op :: ts') with ([op] ++ ts') in D. rewrite !pars_app in D.
    destruct (IH d) as (ts0 & l0 & items & -> & -> & P & Op & H); [lia|].
    exists ts0, l0, (items ++ [(op :: ts', PTok op :: l')]).
    rewrite !map_app, !concat_app. cbn [map concat fst snd]. rewrite !app_nil_r, <- !app_assoc.
    repeat (split; [reflexivity|]). split; [exact P|]. split; [exact Op|].
    apply Forall_app. split; [exact H|]. apply Forall_cons; [|constructor].
    exists op, ts', l'. split; [exact O|]. split; [reflexivity|]. split; [apply IH'; lia|].
    apply opens_opened. exact (proj1 combination_opens ts' l' C').
  - intros ts l C IH d D. exists ts, l, []. cbn [map concat]. rewrite !app_nil_r.
    repeat (split; [reflexivity|]). split; [now apply IH|constructor].
  - intros op ts l ts' l' O C IH C' IH' d D. change (op :: ts') with ([op] ++ ts') in D. rewrite !pars_app in D.
    destruct (IH d) as (ts0 & l0 & items & -> & -> & P & H); [lia|].
    exists ts0, l0, (items ++ [(op :: ts', PTok op :: l')]).
    rewrite !map_app, !concat_app. cbn [map concat fst snd]. rewrite !app_nil_r, <- !app_assoc.
    repeat (split; [reflexivity|]). split; [exact P|].
    apply Forall_app. split; [exact H|]. apply Forall_cons; [|constructor].
    exists op, ts', l'. split; [exact O|]. split; [reflexivity|]. apply IH'; lia.
Qed.

(** * The texts of fields *)

Lemma expandtabs_id : forall s n, ~ In (ascii_of_N 9) s -> expandtabs_from n s = s.
Proof.
  induction s as [|d s IH]; intros n H; [reflexivity|]. cbn [expandtabs_from].
  destruct (Ascii.eqb d (ch 9)) eqn:E; [apply Ascii.eqb_eq in E as ->; exfalso; apply H; now left|].
  f_equal. apply IH. intros I. apply H. now right.
Qed.
Lemma after_not_op : forall k, after_reaction k -> ~ In (ascii_of_N 9) k -> nxt not_op k.
Proof.
  intros k A T. destruct (skip_decomp k) as (w & E & W). unfold nxt. destruct (skip_white k) as [|d t] eqn:S; [exact I|].
  cbn [fol]. unfold not_op. apply negb_true_iff. destruct (cmem d (lit "*/=+-")) eqn:M; [|reflexivity].
  exfalso. apply cmem_In in M. refine (A w d t _ E M).
  rewrite Forall_forall in *. intros e Ie. specialize (W e Ie).
  assert (G : implb (is_white e) (existsb (N.eqb (N_of_ascii e)) [10; 13; 32]%N || Ascii.eqb e (ch 9)) = true).
  { clear. revert e. apply forall_ascii. vm_compute. reflexivity. }
  rewrite W in G. cbn [implb] in G. apply orb_prop in G as [G|G].
  - apply existsb_exists in G as (n & In_ & Q). apply N.eqb_eq in Q. unfold gap. now rewrite Q.
  - apply Ascii.eqb_eq in G as ->. exfalso. apply T. rewrite E. apply in_or_app. left. exact Ie.
Qed.
Lemma line_span : forall line k, line_of line k -> exists r, span (fun d => negb (Ascii.eqb d nl)) k = (line, r).
Proof.
  intros line k [L K].
  assert (B : forallb (fun d => negb (Ascii.eqb d nl)) line = true).
  { apply forallb_forall. intros d I. rewrite Forall_forall in L. specialize (L d I).
    apply negb_true_iff. destruct (Ascii.eqb d nl) eqn:E; [|reflexivity]. apply Ascii.eqb_eq in E as ->. now destruct L. }
  destruct K as [->|[t ->]].
  - exists []. rewrite <- (app_nil_r line) at 1. now apply span_app.
  - exists (ascii_of_N 10 :: t). apply span_app; [exact B|reflexivity].
Qed.

Lemma field_text : forall ts l s w k line,
  cfactor coded ts l -> spaced ts s -> Forall gap w -> (forall a t, k = a :: t -> ~ gap a) ->
  after_reaction (w ++ k) -> line_of line k -> ~ In (ascii_of_N 9) (s ++ w ++ k) ->
  g_reactionfield (x4grammars c) (s ++ w ++ k) = Some (l ++ [PTok line]).
Proof.
  intros ts l s w k line C S W K A L T.
  change (g_reactionfield (x4grammars c) (s ++ w ++ k)) with
    (parseString (x4reactionfield c (Datatypes.S (length (expandtabs (s ++ w ++ k))))) (s ++ w ++ k)).
  unfold parseString. unfold expandtabs. rewrite !(expandtabs_id _ _ T). set (d := Datatypes.S (length (s ++ w ++ k))).
  assert (P : parses (x4compound_factor c d) ts l any).
  { apply (proj1 combination_split ts l C). pose proof (pars_len _ _ S). unfold d. rewrite app_length. lia. }
  assert (Tk : ~ In (ascii_of_N 9) (w ++ k)) by (intros I; apply T, in_or_app; now right).
  pose proof (expression_factor d ts l P s (w ++ k) (skip_white (s ++ w ++ k)) S (after_not_op _ A Tk) (near_skipped _ _ (near_refl _))) as E.
  unfold x4reactionfield. rewrite run_pre by (reflexivity || apply factor_skipws). cbn [And impl].
  change (x4compound_expression c d) with (expression (x4compound_factor c d)).
  rewrite run_skip in E. unfold run at 1. cbn [andb]. rewrite E. cbn [and_rest].
  assert (Sk : skip_white (w ++ k) = k).
  { rewrite (skip_gap _ _ W). destruct k as [|a t]; [reflexivity|]. apply skip_non.
    destruct (is_white a) eqn:Wa; [|reflexivity]. exfalso.
    assert (G : implb (is_white a) (existsb (N.eqb (N_of_ascii a)) [10; 13; 32]%N || Ascii.eqb a (ch 9)) = true).
    { clear. revert a. apply forall_ascii. vm_compute. reflexivity. }
    rewrite Wa in G. cbn [implb] in G. apply orb_prop in G as [G|G].
    - apply existsb_exists in G as (n & In_ & Q). apply N.eqb_eq in Q. apply (K a t eq_refl). unfold gap. now rewrite Q.
    - apply Ascii.eqb_eq in G as ->. apply Tk, in_or_app. right. now left. }
  rewrite Sk. destruct (line_span line k L) as (r & R). unfold run. cbn [restOfLine callpre skipws impl andb].
  rewrite R. reflexivity.
Qed.

Lemma compound_text : forall ts l s k, cexpr coded ts l -> spaced ts s -> after_reaction k ->
  ~ In (ascii_of_N 9) (s ++ k) -> g_compound (x4grammars c) (s ++ k) = Some l.
Proof.
  intros ts l s k C S A T.
  change (g_compound (x4grammars c) (s ++ k)) with
    (parseString (x4compound_expression c (Datatypes.S (length (expandtabs (s ++ k))))) (s ++ k)).
  unfold parseString. unfold expandtabs. rewrite !(expandtabs_id _ _ T). set (d := Datatypes.S (length (s ++ k))).
  assert (Tk : ~ In (ascii_of_N 9) k) by (intros I; apply T, in_or_app; now right).
  destruct (expression_parses d ts l) with (s := s) (k := k) (x := s ++ k) as (k' & E & _).
  - apply (proj2 (proj2 combination_split) ts l C). pose proof (pars_len _ _ S). unfold d. rewrite app_length. lia.
  - exact S.
  - now apply after_not_op.
  - apply near_refl.
  - change (x4compound_expression c d) with (expression (x4compound_factor c d)). now rewrite E.
Qed.

Lemma written_text : forall ts l s k, coded ts l -> spaced ts s ->
  ~ In (ascii_of_N 9) (s ++ k) -> g_reaction (x4grammars c) (s ++ k) = Some l.
Proof.
  intros ts l s k G S T. change (g_reaction (x4grammars c) (s ++ k)) with (parseString (x4reaction c) (s ++ k)).
  unfold parseString, expandtabs. rewrite (expandtabs_id _ _ T).
  destruct (written_parses c KP KC ts l G s k (s ++ k) S I (near_refl _)) as (k' & -> & _). reflexivity.
Qed.
Lemma reaction_text : forall r s k, good_reaction (c_particles c) r -> spaced (reaction_tokens r) s ->
  ~ In (ascii_of_N 9) (s ++ k) -> g_reaction (x4grammars c) (s ++ k) = Some (reaction_tree r).
Proof. intros r s k G. exact (written_text _ _ s k (general_written _ _ r G)). Qed.
Lemma nuclide_text : forall n s k, good_nuclide n -> spaced (nuclide_tokens n) s ->
  nxt nuc_stop k -> ~ In (ascii_of_N 9) (s ++ k) ->
  g_nucleus (x4grammars c) (s ++ k) = Some (map PTok ([n_Z n; n_sym n; n_A n] ++ flat_map isomer_tokens (n_iso n))).
Proof.
  intros n s k G S K T. change (g_nucleus (x4grammars c) (s ++ k)) with (parseString x4nucleus (s ++ k)).
  unfold parseString, expandtabs. rewrite (expandtabs_id _ _ T).
  destruct (nucleus_parses n G s k (s ++ k) S K (near_refl _)) as (k' & -> & _). reflexivity.
Qed.

End Keys.
