(** What a parser leaves is the end of what it was given; which parsers consume something; and
    how deep the recursive ones have to be unrolled. *)
From Coq Require Import String List Ascii NArith ZArith Bool Arith Lia.
From Verif.Model Require Import Py Particle Pyparsing Grammars.
Import ListNotations.
Local Open Scope list_scope.
Local Open Scope nat_scope.

Definition tail_of (r s : str) : Prop := exists a, s = a ++ r.
Lemma tail_refl : forall s, tail_of s s.
Proof. intros s. now exists []. Qed.
Lemma tail_trans : forall r s t, tail_of r s -> tail_of s t -> tail_of r t.
Proof. intros r s t (a & ->) (b & ->). exists (b ++ a). now rewrite app_assoc. Qed.
Lemma tail_cons : forall c r s, tail_of r s -> tail_of r (c :: s).
Proof. intros c r s (a & ->). now exists (c :: a). Qed.
Lemma tail_len : forall r s, tail_of r s -> length r <= length s.
Proof. intros r s (a & ->). rewrite app_length. lia. Qed.
Lemma tail_In : forall c r s, tail_of r s -> In c r -> In c s.
Proof. intros c r s (a & ->) I. apply in_or_app. now right. Qed.
Lemma skip_tail : forall s, tail_of (skip_white s) s.
Proof.
  induction s as [|c s IH]; [apply tail_refl|]. cbn [skip_white]. destruct (is_white c); [now apply tail_cons|apply tail_refl].
Qed.
Lemma skipn_tail : forall n s, tail_of (skipn n s) s.
Proof. intros n s. exists (firstn n s). symmetry. apply firstn_skipn. Qed.
Lemma span_tail : forall p s a b, span p s = (a, b) -> s = a ++ b.
Proof.
  intros p. induction s as [|c s IH]; intros a b E; cbn [span] in E.
  - injection E as <- <-. reflexivity.
  - destruct (p c); [|injection E as <- <-; reflexivity]. destruct (span p s) as [a' b'] eqn:S.
    injection E as <- <-. cbn [app]. now rewrite (IH a' b' eq_refl).
Qed.
Lemma quoted_tail : forall n q s a b, quoted_body n q s = (a, b) -> s = a ++ b.
Proof.
  induction n as [|n IH]; intros q s a b E; [cbn in E; injection E as <- <-; reflexivity|].
  destruct s as [|c s]; cbn [quoted_body] in E; [injection E as <- <-; reflexivity|].
  assert (D : forall u x y, (let '(a, b) := quoted_body n q u in (x ++ a, b)) = (a, b) -> y = x ++ u -> y = a ++ b).
  { intros u x y Q ->. destruct (quoted_body n q u) as [a' b'] eqn:B. injection Q as <- <-. apply IH in B as ->. now rewrite app_assoc. }
  destruct (Ascii.eqb c q).
  - destruct s as [|d s]; [injection E as <- <-; reflexivity|]. destruct (Ascii.eqb d q); [|injection E as <- <-; reflexivity].
    now apply (D s [c; d]).
  - destruct (Ascii.eqb c "\"%char).
    + destruct s as [|d s]; [injection E as <- <-; reflexivity|]. destruct (Ascii.eqb d "x"%char).
      * destruct (span is_hex s) as [[|h hs] r] eqn:S; [injection E as <- <-; reflexivity|].
        apply span_tail in S. apply (D r (c :: d :: h :: hs)); [exact E|]. rewrite S. reflexivity.
      * now apply (D s [c; d]).
    + destruct (Ascii.eqb c nl || Ascii.eqb c cr); [injection E as <- <-; reflexivity|]. now apply (D s [c]).
Qed.

(** [keeps b e]: what [e] leaves is the end of what it was given, and shorter if [b]. *)
Definition left_by (b : bool) (r s : str) : Prop := tail_of r s /\ (b = true -> length r < length s).
Definition keeps (b : bool) (e : pe) : Prop :=
  forall ws s t r, impl e ws s = Some (t, r) -> left_by b r s.

Lemma keeps_less : forall b e, keeps b e -> keeps false e.
Proof. intros b e K ws s t r E. destruct (K ws s t r E) as [T _]. split; [exact T|discriminate]. Qed.
Lemma run_keeps : forall b e ws pre s t r, keeps b e -> run e ws pre s = Some (t, r) -> left_by b r s.
Proof.
  intros b e ws pre s t r K E. unfold run in E.
  destruct (pre && callpre e && skipws e && ws); [|exact (K _ _ _ _ E)].
  destruct (K _ _ _ _ E) as [T L]. pose proof (skip_tail s) as S. split; [now apply (tail_trans _ _ _ T)|].
  intros B. specialize (L B). apply tail_len in S. lia.
Qed.
Lemma left_trans : forall a b r s t, left_by a r s -> left_by b s t -> left_by (a || b) r t.
Proof.
  intros a b r s t [T L] [T' L']. split; [now apply (tail_trans _ _ _ T)|]. intros B. apply tail_len in T. apply tail_len in T'.
  apply orb_prop in B as [B|B]; [specialize (L B)|specialize (L' B)]; lia.
Qed.
Lemma left_less : forall b r s, left_by b r s -> left_by false r s.
Proof. intros b r s [T _]. split; [exact T|discriminate]. Qed.
Lemma left_refl : forall s, left_by false s s.
Proof. intros s. split; [apply tail_refl|discriminate]. Qed.

Lemma keeps_Literal : forall m, keeps true (Literal m).
Proof.
  intros [|c m] ws s t r E; cbn [Literal impl] in E; [discriminate|]. destruct (is_prefix (c :: m) s) eqn:P; [|discriminate].
  injection E as _ <-. destruct s as [|d s]; [discriminate|]. cbn [length skipn]. split.
  - apply tail_cons, skipn_tail.
  - intros _. pose proof (tail_len _ _ (skipn_tail (length m) s)). cbn [length]. lia.
Qed.
Lemma keeps_Word2 : forall p q, keeps true (Word2 p q).
Proof.
  intros p q ws s t r E. cbn [Word2 impl] in E. destruct s as [|c s]; [discriminate|]. destruct (p c); [|discriminate].
  destruct (span q s) as [a b] eqn:S. injection E as _ <-. apply span_tail in S as ->. split.
  - now exists (c :: a).
  - intros _. cbn [length]. rewrite app_length. lia.
Qed.
Lemma keeps_WordMax : forall p q n, keeps true (WordMax p q n).
Proof.
  intros p q n ws s t r E. cbn [WordMax impl] in E. destruct s as [|c s]; [discriminate|]. destruct (p c); [|discriminate].
  destruct (span q s) as [a b] eqn:S. destruct (Datatypes.S (length a) <=? n); [|discriminate].
  injection E as _ <-. apply span_tail in S as ->. split.
  - now exists (c :: a).
  - intros _. cbn [length]. rewrite app_length. lia.
Qed.
Lemma keeps_CharNotIn : forall p, keeps true (CharNotIn p).
Proof.
  intros p ws s t r E. cbn [CharNotIn impl] in E. destruct s as [|c s]; [discriminate|]. destruct (p c); [discriminate|].
  injection E as _ <-. split; [apply tail_cons, tail_refl|intros _; cbn; lia].
Qed.
Lemma keeps_restOfLine : keeps false restOfLine.
Proof.
  intros ws s t r E. cbn [restOfLine impl] in E. destruct (span _ s) as [a b] eqn:S. injection E as _ <-.
  apply span_tail in S. split; [now exists a|discriminate].
Qed.
Lemma keeps_LineEnd : keeps false LineEnd.
Proof.
  intros ws s t r E. cbn [LineEnd impl] in E. destruct s as [|c s].
  - injection E as _ <-. apply left_refl.
  - destruct (Ascii.eqb c nl); [|discriminate]. injection E as _ <-. split; [apply tail_cons, tail_refl|discriminate].
Qed.
Lemma keeps_QuoteStart : forall q, keeps true (QuoteStart q).
Proof.
  intros q ws s t r E. cbn [QuoteStart impl] in E. destruct s as [|c s]; [discriminate|]. destruct (Ascii.eqb c q); [|discriminate].
  destruct (quoted_body (length s) q s) as [a b] eqn:S. injection E as _ <-. apply quoted_tail in S. split.
  - exists (c :: a). cbn [app]. now rewrite S at 1.
  - intros _. apply (f_equal (@length ascii)) in S. rewrite app_length in S. cbn [length]. lia.
Qed.

Lemma and_rest_keeps : forall l ws s t r, Forall (keeps false) l -> and_rest l ws s = Some (t, r) -> left_by false r s.
Proof.
  induction l as [|e l IH]; intros ws s t r F E; cbn [and_rest] in E.
  - injection E as _ <-. apply left_refl.
  - inversion F as [|? ? K F']; subst. destruct (run e ws true s) as [[t1 s1]|] eqn:R; [|discriminate].
    destruct (and_rest l ws s1) as [[t2 s2]|] eqn:A; [|discriminate]. injection E as _ <-.
    exact (left_trans false false _ _ _ (IH _ _ _ _ F' A) (run_keeps _ _ _ _ _ _ _ K R)).
Qed.
Lemma keeps_And : forall b e l, keeps b e -> Forall (keeps false) l -> keeps b (And e l).
Proof.
  intros b e l K F ws s t r E. cbn [And impl] in E. destruct (run e ws false s) as [[t1 s1]|] eqn:R; [|discriminate].
  destruct (and_rest l ws s1) as [[t2 s2]|] eqn:A; [|discriminate]. injection E as _ <-.
  exact (left_trans false b _ _ _ (and_rest_keeps _ _ _ _ _ F A) (run_keeps _ _ _ _ _ _ _ K R)).
Qed.
(** ... also if only the second element consumes something. *)
Lemma keeps_And_second : forall e e' l, keeps false e -> keeps true e' -> Forall (keeps false) l -> keeps true (And e (e' :: l)).
Proof.
  intros e e' l K K' F ws s t r E. cbn [And impl and_rest] in E. destruct (run e ws false s) as [[t1 s1]|] eqn:R; [|discriminate].
  destruct (run e' ws true s1) as [[t2 s2]|] eqn:R'; [|discriminate].
  destruct (and_rest l ws s2) as [[t3 s3]|] eqn:A; [|discriminate]. injection E as _ <-.
  pose proof (left_trans false true _ _ _ (and_rest_keeps _ _ _ _ _ F A) (run_keeps _ _ _ _ _ _ _ K' R')) as L.
  exact (left_trans true false _ _ _ L (run_keeps _ _ _ _ _ _ _ K R)).
Qed.
Lemma first_of_keeps : forall b l ws s t r, Forall (keeps b) l -> first_of l ws s = Some (t, r) -> left_by b r s.
Proof.
  intros b. induction l as [|e l IH]; intros ws s t r F E; cbn [first_of] in E; [discriminate|].
  inversion F as [|? ? K F']; subst. destruct (run e ws true s) as [[t1 s1]|] eqn:R; [|now apply (IH ws s t r)].
  injection E as _ <-. exact (run_keeps _ _ _ _ _ _ _ K R).
Qed.
Lemma keeps_MatchFirst : forall b l, Forall (keeps b) l -> keeps b (MatchFirst l).
Proof. intros b l F ws s t r E. exact (first_of_keeps b l ws s t r F E). Qed.
Lemma longer_one : forall a b, longer a b = a \/ longer a b = b.
Proof. intros [[t r]|] [[t' r']|]; cbn [longer]; auto. destruct (length r' <? length r); auto. Qed.
Lemma fold_longer : forall l a, fold_left longer l a = a \/ In (fold_left longer l a) l.
Proof.
  induction l as [|x l IH]; intros a; cbn [fold_left]; [now left|]. destruct (IH (longer a x)) as [E|I].
  - rewrite E. destruct (longer_one a x) as [->| ->]; [now left|right; now left].
  - right. now right.
Qed.
Lemma keeps_Or : forall b l, Forall (keeps b) l -> keeps b (Or l).
Proof.
  intros b l F ws s t r E. cbn [Or impl] in E. destruct (fold_longer (map (fun e => run e ws true s) l) None) as [N|I].
  - congruence.
  - rewrite E in I. apply in_map_iff in I as (e & R & I). rewrite Forall_forall in F. exact (run_keeps _ _ _ _ _ _ _ (F e I) R).
Qed.
Lemma keeps_OptionalD : forall b e d, keeps b e -> keeps false (OptionalD e d).
Proof.
  intros b e d K ws s t r E. cbn [OptionalD impl] in E. destruct (run e ws false s) as [[t1 s1]|] eqn:R; injection E as _ <-.
  - exact (left_less _ _ _ (run_keeps _ _ _ _ _ _ _ K R)).
  - apply left_refl.
Qed.
Lemma loop_keeps : forall b e, keeps b e -> forall n ws s t r, loop n e ws s = (t, r) -> left_by false r s.
Proof.
  intros b e K. induction n as [|n IH]; intros ws s t r E; cbn [loop] in E; [injection E as _ <-; apply left_refl|].
  destruct (run e ws true s) as [[t1 s1]|] eqn:R; [|injection E as _ <-; apply left_refl].
  destruct (loop n e ws s1) as [t2 s2] eqn:L. injection E as _ <-.
  exact (left_trans false false _ _ _ (IH _ _ _ _ L) (left_less _ _ _ (run_keeps _ _ _ _ _ _ _ K R))).
Qed.
Lemma keeps_OneOrMore : forall b e, keeps b e -> keeps b (OneOrMore e).
Proof.
  intros b e K ws s t r E. cbn [OneOrMore impl] in E. destruct (run e ws false s) as [[t1 s1]|] eqn:R; [|discriminate].
  destruct (loop (length s1) e ws s1) as [t2 s2] eqn:L. injection E as _ <-.
  exact (left_trans false b _ _ _ (loop_keeps _ _ K _ _ _ _ _ L) (run_keeps _ _ _ _ _ _ _ K R)).
Qed.
Lemma keeps_ZeroOrMore : forall b e, keeps b e -> keeps false (ZeroOrMore e).
Proof.
  intros b e K ws s t r E. cbn [ZeroOrMore impl] in E. destruct (run e ws false s) as [[t1 s1]|] eqn:R.
  - destruct (loop (length s1) e ws s1) as [t2 s2] eqn:L. injection E as _ <-.
    exact (left_less _ _ _ (left_trans false b _ _ _ (loop_keeps _ _ K _ _ _ _ _ L) (run_keeps _ _ _ _ _ _ _ K R))).
  - injection E as _ <-. apply left_refl.
Qed.
Lemma keeps_NotAny : forall e, keeps false (NotAny e).
Proof. intros e ws s t r E. cbn [NotAny impl] in E. destruct (is_some _); [discriminate|]. injection E as _ <-. apply left_refl. Qed.
Lemma keeps_Group : forall b e, keeps b e -> keeps b (Group e).
Proof.
  intros b e K ws s t r E. cbn [Group impl] in E. destruct (run e ws false s) as [[t1 s1]|] eqn:R; [|discriminate].
  injection E as _ <-. exact (run_keeps _ _ _ _ _ _ _ K R).
Qed.
Lemma keeps_Suppress : forall b e, keeps b e -> keeps b (Suppress e).
Proof.
  intros b e K ws s t r E. cbn [Suppress impl] in E. destruct (run e ws false s) as [[t1 s1]|] eqn:R; [|discriminate].
  injection E as _ <-. exact (run_keeps _ _ _ _ _ _ _ K R).
Qed.
Lemma keeps_Combine : forall b e, keeps b e -> keeps b (Combine e).
Proof.
  intros b e K ws s t r E. cbn [Combine impl] in E. destruct (run e false false s) as [[t1 s1]|] eqn:R; [|discriminate].
  injection E as _ <-. exact (run_keeps _ _ _ _ _ _ _ K R).
Qed.
Lemma keeps_strip : forall b e, keeps b e -> keeps b (strip_action e).
Proof.
  intros b e K ws s t r E. cbn [strip_action impl] in E. destruct (impl e ws s) as [[[|[u|u] t1] s1]|] eqn:R; try discriminate;
    injection E as _ <-; exact (K _ _ _ _ R).
Qed.
Lemma keeps_Forward : forall b e, keeps b e -> keeps b (Forward e).
Proof. intros b e K ws s t r E. cbn [Forward impl] in E. exact (run_keeps _ _ _ _ _ _ _ K E). Qed.
Lemma keeps_NoMatch : keeps true NoMatch.
Proof. intros ws s t r E. discriminate E. Qed.
