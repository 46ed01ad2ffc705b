(** The shape of what the grammars return. *)
From Coq Require Import String List Ascii NArith ZArith Bool Arith Lia.
From Verif.Model Require Import Py Particle Pyparsing Grammars.
From Verif.Spec Require Import Codes.
From Verif.Proofs Require Import ParseLemmas GrammarLemmas.
Import ListNotations.
Local Open Scope string_scope.
Local Open Scope list_scope.
Local Open Scope nat_scope.

(** Every result of the element satisfies [Q]; [gives]: every piece of it does. *)
Definition makes (Q : list ptree -> Prop) (e : pe) : Prop :=
  forall ws s t r, impl e ws s = Some (t, r) -> Q t.
Definition gives (P : ptree -> Prop) (e : pe) : Prop := makes (Forall P) e.

Lemma makes_run : forall Q e, makes Q e -> forall ws pre s t r, run e ws pre s = Some (t, r) -> Q t.
Proof. intros Q e H ws pre s t r R. unfold run in R. exact (H _ _ _ _ R). Qed.
Lemma makes_imp : forall (Q R : list ptree -> Prop) e, (forall t, Q t -> R t) -> makes Q e -> makes R e.
Proof. intros Q R e I H ws s t r E. eauto. Qed.
Lemma gives_imp : forall (P R : ptree -> Prop) e, (forall t, P t -> R t) -> gives P e -> gives R e.
Proof. intros P R e I H. refine (makes_imp _ _ _ _ H). intros t F. exact (Forall_impl _ I F). Qed.
Lemma parse_makes : forall Q e s t, makes Q e -> parseString e s = Some t -> Q t.
Proof.
  intros Q e s t H E. unfold parseString in E. destruct (run e true true (expandtabs s)) as [[t' r]|] eqn:R; [|discriminate].
  injection E as <-. exact (makes_run _ _ H _ _ _ _ _ R).
Qed.

Lemma makes_lit : forall (Q : list ptree -> Prop) m, Q [PTok m] -> makes Q (Literal m).
Proof.
  intros Q m H ws s t r E. cbn in E. destruct m; [discriminate|]. destruct (is_prefix _ s); [|discriminate]. congruence.
Qed.
Lemma span_all : forall p s a b, span p s = (a, b) -> forallb p a = true.
Proof.
  induction s as [|c s IH]; intros a b E; cbn in E; [injection E as <- <-; reflexivity|].
  destruct (p c) eqn:Pc; [|injection E as <- <-; reflexivity].
  destruct (span p s) as [a' b'] eqn:Sp. injection E as <- <-. cbn. rewrite Pc. exact (IH _ _ eq_refl).
Qed.
Lemma makes_word : forall (Q : list ptree -> Prop) p q,
  (forall c a, p c = true -> forallb q a = true -> Q [PTok (c :: a)]) -> makes Q (Word2 p q).
Proof.
  intros Q p q H ws s t r E. cbn in E. destruct s as [|c s]; [discriminate|]. destruct (p c) eqn:Pc; [|discriminate].
  destruct (span q s) as [a b] eqn:Sp. injection E as <- <-. apply H; [exact Pc|]. exact (span_all _ _ _ _ Sp).
Qed.
Lemma makes_max : forall (Q : list ptree -> Prop) p q n, (forall a, Q [PTok a]) -> makes Q (WordMax p q n).
Proof.
  intros Q p q n H ws s t r E. cbn [WordMax impl] in E. destruct s as [|c s]; [discriminate|]. destruct (p c) eqn:Pc; [|discriminate].
  destruct (span q s) as [a b] eqn:Sp. destruct (S (length a) <=? n); [|discriminate]. injection E as <- <-. apply H.
Qed.
Lemma makes_line : forall (Q : list ptree -> Prop), (forall a, Q [PTok a]) -> makes Q restOfLine.
Proof. intros Q H ws s t r E. cbn in E. destruct (span _ s) as [a b]. injection E as <- <-. apply H. Qed.
Lemma makes_combine : forall (Q : list ptree -> Prop) e, (forall a, Q [PTok a]) -> makes Q (Combine e).
Proof. intros Q e H ws s t r E. cbn in E. destruct (run e false false s) as [[t' r']|]; [|discriminate]. injection E as <- <-. apply H. Qed.
Lemma makes_group : forall (Q R : list ptree -> Prop) e, makes Q e -> (forall t, Q t -> R [PGroup t]) -> makes R (Group e).
Proof.
  intros Q R e H I ws s t r E. cbn in E. destruct (run e ws false s) as [[t' r']|] eqn:Ru; [|discriminate].
  injection E as <- <-. apply I. exact (makes_run _ _ H _ _ _ _ _ Ru).
Qed.
Lemma makes_drop : forall (Q : list ptree -> Prop) e, Q [] -> makes Q (Suppress e).
Proof. intros Q e H ws s t r E. cbn in E. destruct (run e ws false s) as [[t' r']|]; [|discriminate]. congruence. Qed.
Lemma makes_forward : forall Q e, makes Q e -> makes Q (Forward e).
Proof. intros Q e H ws s t r E. cbn in E. exact (makes_run _ _ H _ _ _ _ _ E). Qed.
Lemma makes_none : forall Q, makes Q NoMatch.
Proof. intros Q ws s t r E. discriminate. Qed.

(** And, with a predicate for each part. *)
Fixpoint seq_of (Qs : list (list ptree -> Prop)) (t : list ptree) : Prop :=
  match Qs with
  | [] => t = []
  | Q :: Qs' => exists a b, t = a ++ b /\ Q a /\ seq_of Qs' b
  end.
Lemma makes_rest : forall Qs l, Forall2 makes Qs l -> forall ws s t r, and_rest l ws s = Some (t, r) -> seq_of Qs t.
Proof.
  intros Qs l F. induction F as [|Q e Qs l H F IH]; intros ws s t r E; cbn in E.
  - injection E as <- <-. reflexivity.
  - destruct (run e ws true s) as [[t1 s1]|] eqn:R1; [|discriminate].
    destruct (and_rest l ws s1) as [[t2 s2]|] eqn:R2; [|discriminate]. injection E as <- <-.
    exists t1, t2. split; [reflexivity|]. split; [exact (makes_run _ _ H _ _ _ _ _ R1)|]. exact (IH _ _ _ _ R2).
Qed.
Lemma makes_and : forall Q Qs e l, makes Q e -> Forall2 makes Qs l -> makes (seq_of (Q :: Qs)) (And e l).
Proof.
  intros Q Qs e l H F ws s t r E. cbn in E. destruct (run e ws false s) as [[t1 s1]|] eqn:R1; [|discriminate].
  destruct (and_rest l ws s1) as [[t2 s2]|] eqn:R2; [|discriminate]. injection E as <- <-.
  exists t1, t2. split; [reflexivity|]. split; [exact (makes_run _ _ H _ _ _ _ _ R1)|]. exact (makes_rest _ _ F _ _ _ _ R2).
Qed.

Lemma gives_rest : forall P l, Forall (gives P) l -> forall ws s t r, and_rest l ws s = Some (t, r) -> Forall P t.
Proof.
  intros P l F. induction F as [|e l H F IH]; intros ws s t r E; cbn in E.
  - injection E as <- <-. constructor.
  - destruct (run e ws true s) as [[t1 s1]|] eqn:R1; [|discriminate].
    destruct (and_rest l ws s1) as [[t2 s2]|] eqn:R2; [|discriminate]. injection E as <- <-.
    apply Forall_app. split; [exact (makes_run _ _ H _ _ _ _ _ R1)|]. exact (IH _ _ _ _ R2).
Qed.
Lemma gives_and : forall P e l, gives P e -> Forall (gives P) l -> gives P (And e l).
Proof.
  intros P e l H F ws s t r E. cbn in E. destruct (run e ws false s) as [[t1 s1]|] eqn:R1; [|discriminate].
  destruct (and_rest l ws s1) as [[t2 s2]|] eqn:R2; [|discriminate]. injection E as <- <-.
  apply Forall_app. split; [exact (makes_run _ _ H _ _ _ _ _ R1)|]. exact (gives_rest _ _ F _ _ _ _ R2).
Qed.
Lemma makes_or : forall Q l, Forall (makes Q) l -> makes Q (Or l).
Proof.
  intros Q l F ws s t r E. cbn in E.
  assert (G : forall l a, Forall (makes Q) l -> (forall t r, a = Some (t, r) -> Q t) ->
            forall t r, fold_left longer (map (fun e => run e ws true s) l) a = Some (t, r) -> Q t).
  { clear. induction l as [|e l IH]; intros a F A t r E; cbn in E; [exact (A _ _ E)|].
    inversion F as [|? ? H F']; subst. revert E. apply IH; [exact F'|]. intros t' r' E.
    unfold longer in E. destruct a as [[ta ra]|].
    - destruct (run e ws true s) as [[tb rb]|] eqn:R.
      + destruct (length rb <? length ra); [injection E as -> ->; exact (makes_run _ _ H _ _ _ _ _ R)|exact (A _ _ E)].
      + exact (A _ _ E).
    - exact (makes_run _ _ H _ _ _ _ _ E). }
  apply (G l None F ltac:(discriminate) _ _ E).
Qed.
Lemma makes_first : forall Q l, Forall (makes Q) l -> makes Q (MatchFirst l).
Proof.
  intros Q l F ws s t r E. cbn in E. induction F as [|e l H F IH]; cbn in E; [discriminate|].
  destruct (run e ws true s) as [[t1 s1]|] eqn:R1; [injection E as -> ->; exact (makes_run _ _ H _ _ _ _ _ R1)|exact (IH E)].
Qed.
Lemma makes_optd : forall (Q : list ptree -> Prop) e d, makes Q e -> Q d -> makes Q (OptionalD e d).
Proof.
  intros Q e d H D ws s t r E. cbn in E. destruct (run e ws false s) as [[t1 s1]|] eqn:R1; [|injection E as <- <-; exact D].
  injection E as <- <-. exact (makes_run _ _ H _ _ _ _ _ R1).
Qed.
Lemma makes_opt : forall (Q : list ptree -> Prop) e, makes Q e -> Q [] -> makes Q (Optional e).
Proof. intros Q e H D. exact (makes_optd _ _ _ H D). Qed.
Lemma gives_loop : forall P e, gives P e -> forall n ws s, Forall P (fst (loop n e ws s)).
Proof.
  intros P e H n. induction n as [|n IH]; intros ws s; cbn [loop]; [constructor|].
  destruct (run e ws true s) as [[t1 s1]|] eqn:R1; [|constructor].
  specialize (IH ws s1). destruct (loop n e ws s1) as [t2 s2]. cbn [fst] in *. apply Forall_app. split; [exact (makes_run _ _ H _ _ _ _ _ R1)|exact IH].
Qed.
Lemma gives_any : forall P e, gives P e -> gives P (ZeroOrMore e).
Proof.
  intros P e H ws s t r E. cbn in E. destruct (run e ws false s) as [[t1 s1]|] eqn:R1; [|injection E as <- <-; constructor].
  pose proof (gives_loop _ _ H (length s1) ws s1) as L. destruct (loop (length s1) e ws s1) as [t2 s2]. injection E as <- <-.
  apply Forall_app. split; [exact (makes_run _ _ H _ _ _ _ _ R1)|exact L].
Qed.
Lemma gives_some : forall P e, gives P e -> gives P (OneOrMore e).
Proof.
  intros P e H ws s t r E. cbn in E. destruct (run e ws false s) as [[t1 s1]|] eqn:R1; [|discriminate].
  pose proof (gives_loop _ _ H (length s1) ws s1) as L. destruct (loop (length s1) e ws s1) as [t2 s2]. injection E as <- <-.
  apply Forall_app. split; [exact (makes_run _ _ H _ _ _ _ _ R1)|exact L].
Qed.
(** The first piece of a repetition is one of its element. *)
Lemma some_first : forall P e, gives P e -> makes (fun t => t <> []) e -> makes (fun t => t <> [] /\ Forall P t) (OneOrMore e).
Proof.
  intros P e H N ws s t r E. split; [|exact (gives_some _ _ H _ _ _ _ E)].
  cbn in E. destruct (run e ws false s) as [[t1 s1]|] eqn:R1; [|discriminate].
  destruct (loop (length s1) e ws s1) as [t2 s2]. injection E as <- <-.
  pose proof (makes_run _ _ N _ _ _ _ _ R1) as Z. destruct t1; [contradiction|discriminate].
Qed.

(** ** Pieces of processes *)

Definition a_tok (t : ptree) : Prop := exists s, t = PTok s.
Definition digits_tok (t : ptree) : Prop := exists c a, t = PTok (c :: a) /\ forallb is_dig (c :: a) = true.

(** Zero, or a text that begins with a letter. *)
Definition name_text (s : str) : Prop := s = lit "0" \/ exists c a, s = c :: a /\ is_alpha c = true.
(** A text, or a list of texts which begins like a nucleus, like a multiple of a particle, or is one of the keys. *)
Definition piece (keys : list str) (t : ptree) : Prop :=
  match t with
  | PTok s => name_text s
  | PGroup l =>
      Forall a_tok l /\
      ((exists z s a rest, l = z :: s :: a :: rest /\ digits_tok z /\ digits_tok a) \/
       (exists n s, l = [n; s] /\ digits_tok n) \/
       (exists k, l = [PTok k] /\ In k keys))
  end.
(** A part of a reaction. *)
Definition alnum_text (s : str) : Prop := exists c a, s = c :: a /\ alphanum_or "/*+-" c = true.
Definition part (keys : list str) (t : ptree) : Prop :=
  match t with PTok s => alnum_text s | PGroup l => Forall (piece keys) l end.
(** An element of a combination. *)
Definition term (keys : list str) (ops : list str) (t : ptree) : Prop :=
  match t with PTok s => In s ops | PGroup l => Forall (part keys) l end.

Lemma any_tok : forall a, Forall a_tok [PTok a].
Proof. intros a. constructor; [eexists; reflexivity|constructor]. Qed.
#[local] Hint Resolve any_tok : core.
Lemma nums_tok : gives a_tok nums.
Proof. apply makes_word. auto. Qed.
Lemma nums_digits : makes (fun t => exists x, t = [x] /\ digits_tok x) nums.
Proof. apply makes_word. intros c a C A. eexists. split; [reflexivity|]. exists c, a. split; [reflexivity|]. cbn. now rewrite C, A. Qed.
Lemma drop_tok : forall P e, gives P (Suppress e).
Proof. intros P e. apply makes_drop. constructor. Qed.
Lemma drop_nil : forall e, makes (fun t => t = []) (Suppress e).
Proof. intros e. now apply makes_drop. Qed.
Lemma lit_tok : forall s, gives a_tok (Literal s).
Proof. intros s. apply makes_lit. auto. Qed.

Lemma element_tok : makes (fun t => exists s, t = [PTok s]) x4element.
Proof.
  apply makes_or. constructor; [apply makes_max; eauto|]. apply Forall_forall. intros e E. apply in_map_iff in E.
  destruct E as (s & <- & _). apply makes_lit. eauto.
Qed.
Lemma mathop_tok : gives a_tok mathop.
Proof. apply makes_first. repeat (constructor; [apply lit_tok|]). constructor. Qed.
Lemma modifiers_tok : gives a_tok (ZeroOrMore (And mathop isomer_modifier)).
Proof.
  apply gives_any. apply gives_and; [exact mathop_tok|]. constructor; [apply makes_max; auto|].
  constructor; [|constructor]. apply makes_opt; [exact nums_tok|constructor].
Qed.
Definition nucleus_shape (l : list ptree) : Prop :=
  Forall a_tok l /\ exists z s a rest, l = z :: s :: a :: rest /\ digits_tok z /\ digits_tok a.
Lemma digits_are : forall t, digits_tok t -> a_tok t.
Proof. intros t (c & a & -> & _). eexists. reflexivity. Qed.
Lemma nucleus_makes : makes nucleus_shape x4nucleus.
Proof.
  eapply makes_imp; [|apply makes_and; [exact nums_digits|
    constructor; [apply drop_nil|constructor; [exact element_tok|constructor; [apply drop_nil|constructor;
      [exact nums_digits|constructor; [exact modifiers_tok|constructor]]]]]]].
  intros t (a0 & b0 & -> & (z & -> & Z) & (a1 & b1 & -> & -> & (a2 & b2 & -> & (s & ->) & (a3 & b3 & -> & -> &
           (a4 & b4 & -> & (a & -> & A) & (a5 & b5 & -> & M & ->)))))).
  cbn [app]. rewrite app_nil_r. split.
  - constructor; [now apply digits_are|]. constructor; [eexists; reflexivity|]. constructor; [now apply digits_are|exact M].
  - exists z, (PTok s), a, a5. repeat split; assumption.
Qed.
Lemma nucleus_piece : makes (fun t => exists l, t = [PGroup l] /\ nucleus_shape l) (Group x4nucleus).
Proof. eapply makes_group; [exact nucleus_makes|]. intros t N. eauto. Qed.
Lemma particle_alpha : makes (fun t => exists s, t = [PTok s] /\ name_text s) x4particle.
Proof.
  intros ws s t r E. cbn [x4particle Combine impl] in E.
  destruct (run (And (Word is_alpha) [Optional nums]) false false s) as [[t' r']|] eqn:R; [|discriminate]. injection E as <- <-.
  eexists. split; [reflexivity|]. right.
  assert (M : makes (seq_of [fun t => exists c a, t = [PTok (c :: a)] /\ is_alpha c = true; fun _ => True]) (And (Word is_alpha) [Optional nums])).
  { apply makes_and; [apply makes_word; eauto|]. constructor; [|constructor]. intros ? ? ? ? ?. exact I. }
  pose proof (makes_run _ _ M _ _ _ _ _ R) as (a & b & -> & (ch & w & -> & A) & _). cbn [app map flat concat]. eauto.
Qed.
Lemma one_of_tok : forall keys, makes (fun t => exists s, t = [PTok s] /\ In s keys) (one_of keys).
Proof.
  intros keys. apply makes_or. apply Forall_forall. intros e E. apply in_map_iff in E. destruct E as (s & <- & I).
  apply makes_lit. eauto.
Qed.

Section Codes.
Variable c : codes.
Hypothesis KP : Forall particle_key (c_particles c).
Let keys := c_compounds c.

Lemma shape_piece : forall l, nucleus_shape l -> piece keys (PGroup l).
Proof. intros l (F & N). split; [exact F|]. now left. Qed.
Lemma nucleus_gives : gives (piece keys) (Group x4nucleus).
Proof. eapply makes_group; [exact nucleus_makes|]. intros t N. constructor; [now apply shape_piece|constructor]. Qed.
Lemma name_piece : forall s, name_text s -> Forall (piece keys) [PTok s].
Proof. intros s N. constructor; [exact N|constructor]. Qed.
Lemma zero_piece : gives (piece keys) (Literal (lit "0")).
Proof. apply makes_lit. apply name_piece. now left. Qed.
Lemma lit_piece : forall ch s, is_alpha ch = true -> gives (piece keys) (Literal (lit (String ch s))).
Proof. intros ch s A. apply makes_lit. apply name_piece. right. exists ch, (lit s). split; [reflexivity|exact A]. Qed.
Lemma particle_piece : gives (piece keys) x4particle.
Proof. eapply makes_imp; [|exact particle_alpha]. intros t (s & -> & N). now apply name_piece. Qed.
Lemma group_compound : gives (piece keys) (Group (MatchFirst [x4chemical_compound c; x4nucleus])).
Proof.
  eapply makes_group with (Q := fun t => (exists s, t = [PTok s] /\ In s keys) \/ nucleus_shape t).
  - apply makes_first. constructor; [|constructor; [|constructor]].
    + eapply makes_imp; [|apply one_of_tok]. intros t (s & -> & I). left. eauto.
    + eapply makes_imp; [|exact nucleus_makes]. intros t N. now right.
  - intros t [(s & -> & I)|N]; (constructor; [|constructor]); [|now apply shape_piece].
    split; [auto|]. right; right; eauto.
Qed.
Lemma projectile_gives : gives (piece keys) x4projectile.
Proof. apply makes_or. constructor; [exact nucleus_gives|]. constructor; [exact particle_piece|]. constructor; [exact zero_piece|constructor]. Qed.
Lemma target_gives : gives (piece keys) (x4target c).
Proof. apply makes_or. constructor; [exact group_compound|]. repeat (constructor; [apply lit_piece; reflexivity|]). constructor. Qed.
Lemma residual_gives : gives (piece keys) (x4residual c).
Proof. apply makes_or. constructor; [exact group_compound|]. repeat (constructor; [apply lit_piece; reflexivity|]). constructor. Qed.

(** A particle without a number in front of it is not read as a group: the particle itself comes first. *)
Definition many (t : list ptree) : Prop := exists l, t = [PGroup l] /\ exists n s, l = [n; PTok s] /\ digits_tok n.
Lemma counted_group : forall ws s t r, run (Group (And (Optional nums) [x4particle])) ws true s = Some (t, r) ->
  many t \/ exists t', run x4particle ws true s = Some (t', r).
Proof.
  intros ws s t r E. unfold run at 1 in E. cbn [Group callpre skipws And Optional OptionalD nums Word Word2 andb impl] in E.
  unfold run at 1 in E. cbn [And impl andb] in E.
  set (s0 := if ws then skip_white s else s) in E.
  unfold run at 1 in E. cbn [Optional OptionalD impl andb] in E.
  destruct (run nums ws false s0) as [[t1 s1]|] eqn:R1.
  - cbn [and_rest] in E. destruct (run x4particle ws true s1) as [[t2 s2]|] eqn:R2; [|exfalso; congruence].
    rewrite app_nil_r in E. injection E as <- <-. left. eexists. split; [reflexivity|].
    pose proof (makes_run _ _ nums_digits _ _ _ _ _ R1) as (n & -> & D). pose proof (makes_run _ _ particle_alpha _ _ _ _ _ R2) as (p & -> & _).
    cbn [app]. eauto.
  - cbn [and_rest] in E. destruct (run x4particle ws true s0) as [[t2 s2]|] eqn:R2; [|exfalso; congruence].
    right. exists t2. injection E as _ <-. rewrite <- R2. unfold run. cbn [x4particle Combine callpre skipws andb].
    unfold s0. destruct ws; [|reflexivity]. rewrite skip_idem. reflexivity.
Qed.
Lemma product_gives : gives (piece keys) (x4product c).
Proof.
  assert (B : gives (piece keys) (x4basicparticle c)).
  { apply gives_and; [apply makes_opt; [apply (lit_piece "X"%char ""); reflexivity|constructor]|]. constructor; [|constructor].
    eapply makes_imp; [|apply one_of_tok]. intros t (s & -> & I). apply name_piece. rewrite Forall_forall in KP.
    destruct (KP _ I) as [->|(ch & a & -> & L)]; [now left|]. right. exists ch, a. split; [reflexivity|]. now apply letter_alpha. }
  intros ws s t r E. cbn [x4product Or impl map fold_left] in E.
  set (r1 := run (Group x4nucleus) ws true s) in E. set (r2 := run (x4basicparticle c) ws true s) in E.
  set (r3 := run x4particle ws true s) in E. set (r4 := run (Group (And (Optional nums) [x4particle])) ws true s) in E.
  set (r5 := run (Literal (lit "0")) ws true s) in E.
  set (ok (o : presult) := forall t r, o = Some (t, r) -> Forall (piece keys) t).
  assert (L : forall a b, ok a -> ok b -> ok (longer a b)).
  { intros [[ta ra]|] [[tb rb]|] A Bb; unfold longer; try destruct (length rb <? length ra); assumption. }
  assert (O1 : ok r1) by (intros t' r' R; exact (makes_run _ _ nucleus_gives _ _ _ _ _ R)).
  assert (O2 : ok r2) by (intros t' r' R; exact (makes_run _ _ B _ _ _ _ _ R)).
  assert (O3 : ok r3) by (intros t' r' R; exact (makes_run _ _ particle_piece _ _ _ _ _ R)).
  assert (O5 : ok r5) by (intros t' r' R; exact (makes_run _ _ zero_piece _ _ _ _ _ R)).
  assert (O0 : ok None) by (intros t' r' R; discriminate).
  set (a3 := longer (longer (longer None r1) r2) r3) in E.
  assert (A3 : ok a3) by (unfold a3; auto).
  assert (A4 : ok (longer a3 r4)).
  { destruct r4 as [[t4 s4]|] eqn:R4; [|destruct a3 as [[? ?]|]; exact A3].
    destruct (counted_group _ _ _ _ R4) as [(l & -> & n & p & -> & D)|(t3 & R3)].
    - apply L; [exact A3|]. intros t' r' Z. assert (t' = [PGroup [n; PTok p]]) by congruence. subst t'. constructor; [|constructor].
      split; [constructor; [now apply digits_are|auto]|]. right; left. eauto.
    - assert (N : exists ta ra, a3 = Some (ta, ra) /\ length ra <= length s4).
      { unfold a3. fold r3 in R3. rewrite R3. destruct (longer (longer None r1) r2) as [[ta ra]|]; unfold longer.
        - destruct (length s4 <? length ra) eqn:C; [eauto|]. apply Nat.ltb_ge in C. eauto.
        - eauto. }
      destruct N as (ta & ra & N & LE). rewrite N. unfold longer. replace (length s4 <? length ra) with false by (symmetry; apply Nat.ltb_ge; exact LE).
      rewrite <- N. exact A3. }
  exact (L _ _ A4 O5 _ _ E).
Qed.
Lemma process_gives : gives (piece keys) (x4process c).
Proof.
  apply gives_and; [exact target_gives|]. cbn [app delimited].
  constructor; [apply drop_tok|]. constructor; [exact projectile_gives|]. constructor; [apply drop_tok|].
  constructor; [exact product_gives|]. constructor; [apply gives_any; apply gives_and; [apply drop_tok|constructor; [exact product_gives|constructor]]|].
  constructor; [apply drop_tok|]. constructor; [|constructor]. apply makes_opt; [exact residual_gives|constructor].
Qed.
Lemma descriptor_gives : gives (part keys) x4reaction_descriptor.
Proof.
  assert (W : gives (part keys) descr_word).
  { apply makes_word. intros ch a C A. constructor; [|constructor]. exists ch, a. split; [reflexivity|exact C]. }
  apply makes_or. constructor; [exact W|]. constructor; [|constructor].
  apply gives_and; [apply drop_tok|]. constructor; [exact W|]. constructor; [apply drop_tok|constructor].
Qed.
Lemma part_gives : gives (part keys) (reaction_part c).
Proof.
  apply makes_or. constructor; [|constructor; [apply gives_any; exact descriptor_gives|constructor]].
  eapply makes_group; [apply process_gives|]. intros t F. constructor; [exact F|constructor].
Qed.
Lemma reaction_gives : gives (part keys) (x4reaction c).
Proof.
  apply gives_and; [apply drop_tok|]. cbn [app delimited]. constructor; [apply part_gives|].
  constructor; [apply gives_any; apply gives_and; [apply drop_tok|constructor; [apply part_gives|constructor]]|].
  constructor; [apply drop_tok|constructor].
Qed.

(** ** Combinations *)

Definition all_ops : list str := map lit ["("; ")"; "+"; "-"; "*"; "/"; "="; "//"].
Lemma op_lit : forall s, In (lit s) all_ops -> gives (term keys all_ops) (Literal (lit s)).
Proof. intros s H. apply makes_lit. constructor; [exact H|constructor]. Qed.
Ltac an_op := apply op_lit; unfold all_ops; cbn [map In]; tauto.
Lemma addop_gives : gives (term keys all_ops) addop.
Proof. apply makes_first. repeat (constructor; [an_op|]). constructor. Qed.
Lemma multop_gives : gives (term keys all_ops) altmultop.
Proof. apply makes_first. repeat (constructor; [an_op|]). constructor. Qed.
Lemma tail_gives : forall f, gives (term keys all_ops) f -> Forall (gives (term keys all_ops)) (compound_tail f).
Proof. intros f F. constructor; [|constructor]. apply gives_any. apply gives_and; [exact multop_gives|]. constructor; [exact F|constructor]. Qed.
Lemma expression_gives : forall f, gives (term keys all_ops) f ->
  gives (term keys all_ops) (Forward (And f (compound_tail f ++ [ZeroOrMore (And addop (f :: compound_tail f))]))).
Proof.
  intros f F. apply makes_forward. apply gives_and; [exact F|]. apply Forall_app. split; [now apply tail_gives|].
  constructor; [|constructor]. apply gives_any. apply gives_and; [exact addop_gives|]. constructor; [exact F|now apply tail_gives].
Qed.
Lemma factor_gives : forall depth, gives (term keys all_ops) (x4compound_factor c depth).
Proof.
  assert (G : gives (term keys all_ops) (Group (x4reaction c))).
  { eapply makes_group; [apply reaction_gives|]. intros t F. constructor; [exact F|constructor]. }
  induction depth as [|depth IH]; cbn [x4compound_factor]; (apply makes_first; constructor; [exact G|]; constructor; [|constructor]);
    (apply gives_and; [an_op|]); (constructor; [|constructor; [an_op|constructor]]).
  - apply makes_none.
  - now apply expression_gives.
Qed.
Lemma compound_gives : forall depth, gives (term keys all_ops) (x4compound_expression c depth).
Proof. intros depth. apply expression_gives. apply factor_gives. Qed.

Lemma g_compound_shape : forall s l, g_compound (x4grammars c) s = Some l -> Forall (term keys all_ops) l.
Proof. intros s l E. exact (parse_makes _ _ _ _ (compound_gives _) E). Qed.
Lemma g_reaction_shape : forall s l, g_reaction (x4grammars c) s = Some l -> Forall (part keys) l.
Proof. intros s l E. exact (parse_makes _ _ _ _ reaction_gives E). Qed.
Lemma g_process_shape : forall s l, g_process (x4grammars c) s = Some l -> Forall (piece keys) l.
Proof. intros s l E. exact (parse_makes _ _ _ _ process_gives E). Qed.
Lemma g_nucleus_shape : forall s l, g_nucleus (x4grammars c) s = Some l -> nucleus_shape l.
Proof. intros s l E. exact (parse_makes _ _ _ _ nucleus_makes E). Qed.
Lemma g_particle_shape : forall s l, g_particle (x4grammars c) s = Some l -> exists p, l = [PTok p].
Proof. intros s l E. destruct (parse_makes _ _ _ _ particle_alpha E) as (p & Z & _). eauto. Qed.
Lemma g_chemical_shape : forall s l, g_chemical (x4grammars c) s = Some l -> exists k, l = [PTok k] /\ In k (c_compounds c).
Proof. intros s l E. exact (parse_makes _ _ _ _ (one_of_tok (c_compounds c)) E). Qed.
Lemma but_last_snoc : forall A (l : list A) x, but_last (l ++ [x]) = l.
Proof. intros A l x. unfold but_last. rewrite app_length. cbn. rewrite Nat.add_sub. rewrite firstn_app, firstn_all, Nat.sub_diag. cbn. apply app_nil_r. Qed.
Lemma g_reactionfield_shape : forall s l, g_reactionfield (x4grammars c) s = Some l ->
  Forall (term keys all_ops) (but_last l) /\ exists a, l = but_last l ++ [PTok a].
Proof.
  intros s l E. 
  assert (M : makes (seq_of [Forall (term keys all_ops); fun t => exists a, t = [PTok a]]) (x4reactionfield c (S (length (expandtabs s))))).
  { apply makes_and; [apply compound_gives|]. constructor; [|constructor]. apply makes_line. eauto. }
  pose proof (parse_makes _ _ _ _ M E) as (a & b & -> & A & (a1 & b1 & -> & (r & ->) & Z)).
  cbn [seq_of] in Z. subst b1. cbn [app]. rewrite but_last_snoc. split; [exact A|]. exists r. reflexivity.
Qed.

(** A word of a reaction is not itself a reaction. *)
Lemma alnum_not : forall x, alphanum_or "/*+-" x = true -> Ascii.eqb x (ch 9) = false /\ is_white x = false /\ Ascii.eqb "("%char x = false.
Proof.
  assert (A : forallb (fun n => let y := ascii_of_N (N.of_nat n) in
    negb (alphanum_or "/*+-" y) || (negb (Ascii.eqb y (ch 9)) && negb (is_white y) && negb (Ascii.eqb "("%char y))) (seq 0 256) = true)
    by (vm_compute; reflexivity).
  intros x H. rewrite forallb_forall in A. specialize (A (nat_of_ascii x)). cbv zeta in A.
  assert (Z : ascii_of_N (N.of_nat (nat_of_ascii x)) = x) by (unfold nat_of_ascii; rewrite N2Nat.id; apply ascii_N_embedding).
  rewrite Z, H in A. cbn [negb orb] in A. 
  assert (I : In (nat_of_ascii x) (seq 0 256)) by (apply in_seq; pose proof (nat_ascii_bounded x); lia).
  specialize (A I). apply andb_true_iff in A. destruct A as (A & A3). apply andb_true_iff in A. destruct A as (A1 & A2).
  repeat split; now apply negb_true_iff.
Qed.
Lemma word_no_reaction : forall s, alnum_text s -> g_reaction (x4grammars c) s = None.
Proof.
  intros s (x & a & -> & X). change (parseString (x4reaction c) (x :: a) = None).
  destruct (alnum_not _ X) as (T & W & P). unfold parseString, expandtabs. cbn [expandtabs_from]. rewrite T.
  unfold run at 1. cbn [x4reaction And callpre skipws lpar Suppress Literal impl andb].
  cbn [skip_white]. rewrite W. unfold run at 1. cbn [lpar Suppress impl]. unfold run. cbn [Literal impl andb].
  change (lit "(") with ["("%char]. cbn [is_prefix]. rewrite P. reflexivity.
Qed.

End Codes.

(** ** Institutes, references, authors *)

Definition coded (t : ptree) : Prop :=
  exists k ks rest, t = PGroup (PGroup (PTok k :: ks) :: rest) /\ Forall a_tok rest.
Lemma phrase_makes : makes (fun t => t <> [] /\ Forall a_tok t) x4phrase.
Proof.
  apply some_first.
  - apply makes_first. constructor; [apply makes_word; auto|]. constructor; [|constructor].
    apply gives_and; [apply drop_tok|]. constructor; [apply makes_word; auto|]. constructor; [apply drop_tok|constructor].
  - apply makes_first. constructor; [apply makes_word; discriminate|]. constructor; [|constructor].
    eapply makes_imp; [|apply makes_and; [apply drop_nil|constructor; [apply (makes_word (fun t => t <> [])); discriminate|constructor; [apply drop_nil|constructor]]]].
    intros t (a & b & -> & -> & (a1 & b1 & -> & N & _)). destruct a1; [contradiction|discriminate].
Qed.
Lemma code_makes : makes (fun t => exists k ks, t = PTok k :: ks) x4code.
Proof.
  assert (F : forall t, t <> [] /\ Forall a_tok t -> exists k ks, t = PTok k :: ks).
  { intros t (N & F). destruct F as [|x l (k & ->) F]; [contradiction|]. eauto. }
  apply makes_or. constructor; [|constructor; [|constructor]].
  - eapply makes_imp; [|apply makes_and; [apply drop_nil|constructor; [exact phrase_makes|constructor; [apply drop_nil|constructor]]]].
    intros t (a & b & -> & -> & (a1 & b1 & -> & N & _)). destruct (F _ N) as (k & ks & ->). cbn [app]. eauto.
  - eapply makes_imp; [|apply makes_and; [apply drop_nil|constructor; [apply drop_nil|constructor; [exact phrase_makes|
      constructor; [apply (drop_nil (Literal (lit ")")))|constructor; [apply (lit_tok (lit "="))|constructor; [apply drop_nil|constructor;
        [exact phrase_makes|constructor; [apply drop_nil|constructor; [apply drop_nil|constructor]]]]]]]]]].
    intros t (a & b & -> & -> & (a1 & b1 & -> & -> & (a2 & b2 & -> & N & _))). destruct (F _ N) as (k & ks & ->). cbn [app]. eauto.
Qed.
Lemma textfield_gives : gives coded x4textfield.
Proof.
  apply gives_some. eapply makes_group.
  - apply makes_and; [eapply makes_group with (R := fun t => exists k ks, t = [PGroup (PTok k :: ks)]); [exact code_makes|]|].
    + intros t (k & ks & ->). eauto.
    + constructor; [|constructor]. apply gives_any. apply (makes_word (Forall a_tok)). auto.
  - intros t (a & b & -> & (k & ks & ->) & (a1 & b1 & -> & F & ->)). rewrite app_nil_r. constructor; [|constructor].
    exists k, ks, a1. split; [reflexivity|exact F].
Qed.
Lemma g_textfield_shape : forall c s l, g_textfield (x4grammars c) s = Some l -> Forall coded l.
Proof. intros c s l E. exact (parse_makes _ _ _ _ textfield_gives E). Qed.

Lemma nested_group : forall depth, makes (fun t => exists l, t = [PGroup l]) (nestedExpr depth).
Proof.
  intros [|depth]; cbn [nestedExpr]; [apply makes_none|]. apply makes_forward.
  eapply makes_group with (Q := fun _ => True); [intros ? ? ? ? ?; exact I|]. eauto.
Qed.
Lemma g_refcode_shape : forall c s l, g_refcode (x4grammars c) s = Some l -> exists x a, l = [PGroup x; PTok a].
Proof.
  intros c s l E.
  assert (M : makes (seq_of [fun t => exists l, t = [PGroup l]; fun t => exists a, t = [PTok a]]) (x4refcode (S (length (expandtabs s))))).
  { apply makes_and; [apply nested_group|]. constructor; [|constructor]. apply makes_line. eauto. }
  pose proof (parse_makes _ _ _ _ M E) as (a & b & -> & (x & ->) & (a1 & b1 & -> & (r & ->) & Z)).
  cbn [seq_of] in Z. subst b1. cbn [app]. eauto.
Qed.

(** An item between commas begins with a quote or is plain ASCII. *)
Definition low (x : ascii) : bool := (code x <? 128)%N.
Definition item_text (s : str) : Prop :=
  (exists q a, s = q :: a /\ (q = ch 34 \/ q = ch 39)) \/ forallb low s = true.
Definition item (t : ptree) : Prop := exists s, t = PTok s /\ item_text s.
Definition low_tok (t : ptree) : Prop := forallb low (flat t) = true.
Lemma makes_combined : forall (Q R : list ptree -> Prop) e, makes Q e -> (forall t, Q t -> R [PTok (concat (map flat t))]) -> makes R (Combine e).
Proof.
  intros Q R e H I ws s t r E. cbn in E. destruct (run e false false s) as [[t' r']|] eqn:Ru; [|discriminate].
  injection E as <- <-. apply I. exact (makes_run _ _ H _ _ _ _ _ Ru).
Qed.
Lemma makes_not : forall (Q : list ptree -> Prop) e, Q [] -> makes Q (NotAny e).
Proof. intros Q e H ws s t r E. cbn [NotAny impl] in E. destruct (is_some _); [discriminate|]. congruence. Qed.
Lemma low_word : forall p, (forall x, p x = true -> low x = true) -> gives low_tok (Word p).
Proof.
  intros p H. apply makes_word. intros x a X A. constructor; [|constructor]. unfold low_tok. cbn [flat forallb].
  rewrite (H _ X). cbn [andb]. apply forallb_forall. intros y Y. rewrite forallb_forall in A. auto.
Qed.
Lemma commasepitem_gives : gives item commasepitem.
Proof.
  eapply makes_combined with (Q := Forall low_tok).
  - apply gives_some. apply gives_and.
    + apply low_word. intros x X. apply andb_true_iff in X. destruct X as [X _]. unfold is_printable in X. unfold low.
      apply andb_true_iff in X. destruct X as [_ X]. apply N.leb_le in X. apply N.ltb_lt. lia.
    + constructor; [|constructor]. apply makes_opt; [|constructor]. apply gives_and.
      * apply low_word. intros x X. unfold cmem in X. apply existsb_exists in X. destruct X as (y & [<-|[<-|[]]] & Y);
          apply Ascii.eqb_eq in Y; subst x; reflexivity.
      * constructor; [apply makes_not; constructor|]. constructor; [apply makes_not; constructor|constructor].
  - intros t F. constructor; [|constructor]. eexists. split; [reflexivity|]. right.
    induction F as [|x t X F IH]; [reflexivity|]. cbn [map concat]. rewrite forallb_app. unfold low_tok in X. now rewrite X, IH.
Qed.
Lemma quoted_gives : gives item quotedString.
Proof.
  assert (Q : forall q, q = ch 34 \/ q = ch 39 -> makes (fun t => exists q a rest, t = PTok (q :: a) :: rest /\ (q = ch 34 \/ q = ch 39)) (And (QuoteStart q) [Literal [q]])).
  { intros q H. eapply makes_imp; [|apply makes_and with (Q := fun t => exists a, t = [PTok (q :: a)])].
    - intros t (a & b & -> & (x & ->) & _). exists q, x, b. auto.
    - intros ws [|x s] t r E; [discriminate|]. cbn [QuoteStart impl] in E. destruct (Ascii.eqb_spec x q) as [->|_]; [|discriminate].
      destruct (quoted_body (length s) q s) as [a b]. injection E as <- _. eauto.
    - constructor; [apply (lit_tok [q])|constructor]. }
  eapply makes_combined.
  - apply makes_first. constructor; [apply Q; now left|]. constructor; [apply Q; now right|constructor].
  - intros t (q & a & rest & -> & H). constructor; [|constructor]. eexists. split; [reflexivity|]. left.
    cbn [map flat concat app]. exists q, (a ++ concat (map flat rest)). auto.
Qed.
Lemma g_comma_shape : forall c s l, g_comma (x4grammars c) s = Some l -> Forall item_text l.
Proof.
  intros c s l E. change (option_map toks (parseString commaSeparatedList s) = Some l) in E.
  destruct (parseString commaSeparatedList s) as [t|] eqn:P; [|discriminate]. injection E as <-.
  assert (M : gives item commaSeparatedList).
  { assert (O : gives item (OptionalD (MatchFirst [quotedString; commasepitem]) [PTok []])).
    { apply makes_optd.
      - apply makes_first. constructor; [exact quoted_gives|]. constructor; [exact commasepitem_gives|constructor].
      - constructor; [|constructor]. exists []. split; [reflexivity|]. right. reflexivity. }
    apply gives_and; [exact O|]. constructor; [|constructor]. apply gives_any. apply gives_and; [apply drop_tok|].
    constructor; [exact O|constructor]. }
  pose proof (parse_makes _ _ _ _ M P) as F. clear P M. induction F as [|x t (y & -> & I) F IH]; [constructor|].
  change (Forall item_text (y :: toks t)). constructor; assumption.
Qed.
