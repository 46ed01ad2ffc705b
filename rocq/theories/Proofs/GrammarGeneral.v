(** Reaction codes in full (Spec/General.v) as the grammars read them. *)
From Coq Require Import String List Ascii NArith ZArith Bool Arith Lia.
From Verif.Model Require Import Py Particle Pyparsing Grammars.
From Verif.Spec Require Import Text Codes General.
From Verif.Proofs Require Import StrLemmas ParseLemmas GrammarLemmas GrammarCodes GrammarReactions.
Import ListNotations.
Local Open Scope list_scope.
Local Open Scope nat_scope.

(** * What an element consumes *)

(** Only characters that satisfy [P] are consumed. *)
Definition eats (P : ascii -> bool) (e : pe) : Prop :=
  forall ws pre x t q, run e ws pre x = Some (t, q) -> exists p, x = p ++ q /\ forallb P p = true.

Section Eats.
Variable P : ascii -> bool.
Hypothesis W : forall d, is_white d = true -> P d = true.

Lemma eats_skip : forall x, exists p, x = p ++ skip_white x /\ forallb P p = true.
Proof.
  intros x. destruct (skip_decomp x) as (w & E & F). exists w. split; [exact E|]. apply forallb_forall.
  intros d I. rewrite Forall_forall in F. auto.
Qed.
Lemma eats_impl : forall e, (forall ws x t q, impl e ws x = Some (t, q) -> exists p, x = p ++ q /\ forallb P p = true) -> eats P e.
Proof.
  intros e H ws pre x t q R. unfold run in R. destruct (pre && callpre e && skipws e && ws); [|exact (H _ _ _ _ R)].
  destruct (H _ _ _ _ R) as (p & E & F). destruct (eats_skip x) as (w & E' & F').
  exists (w ++ p). split; [now rewrite <- app_assoc, <- E|]. now rewrite forallb_app, F, F'.
Qed.
Lemma eats_Literal : forall m, forallb P m = true -> eats P (Literal m).
Proof.
  intros m M. apply eats_impl. intros ws x t q H. cbn [Literal impl] in H. destruct m as [|d m]; [discriminate|].
  destruct (is_prefix (d :: m) x) eqn:E; [|discriminate]. apply prefix_spec in E as [r ->].
  assert (Q : skipn (length (d :: m)) ((d :: m) ++ r) = q) by congruence. rewrite skipn_app_len in Q. subst r.
  exists (d :: m). auto.
Qed.
Lemma eats_span : forall p x a b, (forall d, p d = true -> P d = true) -> span p x = (a, b) -> x = a ++ b /\ forallb P a = true.
Proof.
  intros p x a b I H. revert a b H. induction x as [|d x IH]; intros a b H; cbn [span] in H.
  - injection H as <- <-. auto.
  - destruct (p d) eqn:E; [|injection H as <- <-; auto]. destruct (span p x) as [a' b']. injection H as <- <-.
    destruct (IH a' b' eq_refl) as [-> F]. split; [reflexivity|]. cbn [forallb]. now rewrite (I d E), F.
Qed.
Lemma eats_Word2 : forall ini body, (forall d, ini d = true -> P d = true) -> (forall d, body d = true -> P d = true) ->
  eats P (Word2 ini body).
Proof.
  intros ini body I B. apply eats_impl. intros ws x t q H. cbn [Word2 impl] in H. destruct x as [|d x]; [discriminate|].
  destruct (ini d) eqn:D; [|discriminate]. destruct (span body x) as [a b] eqn:S. injection H as _ <-.
  destruct (eats_span _ _ _ _ B S) as [-> F]. exists (d :: a). split; [reflexivity|]. cbn [forallb]. now rewrite (I d D), F.
Qed.
Lemma eats_WordMax : forall ini body mx, (forall d, ini d = true -> P d = true) -> (forall d, body d = true -> P d = true) ->
  eats P (WordMax ini body mx).
Proof.
  intros ini body mx I B. apply eats_impl. intros ws x t q H. cbn [WordMax impl] in H. destruct x as [|d x]; [discriminate|].
  destruct (ini d) eqn:D; [|discriminate]. destruct (span body x) as [a b] eqn:S. destruct (_ <=? mx); [|discriminate]. injection H as _ <-.
  destruct (eats_span _ _ _ _ B S) as [-> F]. exists (d :: a). split; [reflexivity|]. cbn [forallb]. now rewrite (I d D), F.
Qed.
Lemma eats_rest : forall l ws x t q, Forall (eats P) l -> and_rest l ws x = Some (t, q) -> exists p, x = p ++ q /\ forallb P p = true.
Proof.
  intros l ws x t q F. revert x t q. induction F as [|e l E _ IH]; intros x t q H; cbn [and_rest] in H.
  - injection H as _ <-. exists []. auto.
  - destruct (run e ws true x) as [[t1 q1]|] eqn:R; [|discriminate].
    destruct (and_rest l ws q1) as [[t2 q2]|] eqn:R2; [|discriminate]. injection H as _ <-.
    destruct (E _ _ _ _ _ R) as (p & -> & F1). destruct (IH _ _ _ R2) as (p' & -> & F2).
    exists (p ++ p'). split; [now rewrite app_assoc|]. now rewrite forallb_app, F1, F2.
Qed.
Lemma eats_And : forall e l, eats P e -> Forall (eats P) l -> eats P (And e l).
Proof.
  intros e l E F. apply eats_impl. intros ws x t q H. cbn [And impl] in H.
  destruct (run e ws false x) as [[t1 q1]|] eqn:R; [|discriminate].
  destruct (and_rest l ws q1) as [[t2 q2]|] eqn:R2; [|discriminate]. injection H as _ <-.
  destruct (E _ _ _ _ _ R) as (p & -> & F1). destruct (eats_rest _ _ _ _ _ F R2) as (p' & -> & F2).
  exists (p ++ p'). split; [now rewrite app_assoc|]. now rewrite forallb_app, F1, F2.
Qed.
Lemma eats_Or : forall l, Forall (eats P) l -> eats P (Or l).
Proof.
  intros l F. apply eats_impl. intros ws x t q H. cbn [Or impl] in H.
  assert (G : forall r0 : presult, (forall t0 q0, r0 = Some (t0, q0) -> exists p, x = p ++ q0 /\ forallb P p = true) ->
            forall t q, fold_left longer (map (fun e => run e ws true x) l) r0 = Some (t, q) -> exists p, x = p ++ q /\ forallb P p = true).
  { clear H t q. induction F as [|e l E _ IH]; intros r0 R0 t q H; cbn [map fold_left] in H; [exact (R0 _ _ H)|].
    refine (IH _ _ t q H). intros t0 q0 E0. destruct (run e ws true x) as [[t1 q1]|] eqn:R.
    - destruct r0 as [[t2 q2]|]; cbn [longer] in E0.
      + destruct (length q1 <? length q2).
        * assert (q1 = q0) by congruence. subst q0. exact (E _ _ _ _ _ R).
        * exact (R0 _ _ E0).
      + assert (q1 = q0) by congruence. subst q0. exact (E _ _ _ _ _ R).
    - rewrite longer_none in E0. exact (R0 _ _ E0). }
  apply (G None) in H; [exact H|discriminate].
Qed.
Lemma eats_MatchFirst : forall l, Forall (eats P) l -> eats P (MatchFirst l).
Proof.
  intros l F. apply eats_impl. intros ws x t q H. cbn [MatchFirst impl] in H. revert H.
  induction F as [|e l E _ IH]; intros H; cbn [first_of] in H; [discriminate|].
  destruct (run e ws true x) as [[t1 q1]|] eqn:R; [|auto]. assert (q1 = q) by congruence. subst q1. exact (E _ _ _ _ _ R).
Qed.
Lemma eats_Group : forall e, eats P e -> eats P (Group e).
Proof.
  intros e E. apply eats_impl. intros ws x t q H. cbn [Group impl] in H.
  destruct (run e ws false x) as [[t1 q1]|] eqn:R; [|discriminate]. injection H as _ <-. exact (E _ _ _ _ _ R).
Qed.
Lemma eats_Suppress : forall e, eats P e -> eats P (Suppress e).
Proof.
  intros e E. apply eats_impl. intros ws x t q H. cbn [Suppress impl] in H.
  destruct (run e ws false x) as [[t1 q1]|] eqn:R; [|discriminate]. injection H as _ <-. exact (E _ _ _ _ _ R).
Qed.
Lemma eats_OptionalD : forall e d, eats P e -> eats P (OptionalD e d).
Proof.
  intros e d E. apply eats_impl. intros ws x t q H. cbn [OptionalD impl] in H.
  destruct (run e ws false x) as [[t1 q1]|] eqn:R.
  - assert (q1 = q) by congruence. subst q1. exact (E _ _ _ _ _ R).
  - injection H as _ <-. exists []. auto.
Qed.
Lemma eats_loop : forall e ws n x t q, eats P e -> loop n e ws x = (t, q) -> exists p, x = p ++ q /\ forallb P p = true.
Proof.
  intros e ws n. induction n as [|n IH]; intros x t q E H; cbn [loop] in H.
  - injection H as _ <-. exists []. auto.
  - destruct (run e ws true x) as [[t1 q1]|] eqn:R; [|injection H as _ <-; exists []; auto].
    destruct (loop n e ws q1) as [t2 q2] eqn:R2. injection H as _ <-.
    destruct (E _ _ _ _ _ R) as (p & -> & F1). destruct (IH _ _ _ E R2) as (p' & -> & F2).
    exists (p ++ p'). split; [now rewrite app_assoc|]. now rewrite forallb_app, F1, F2.
Qed.
Lemma eats_ZeroOrMore : forall e, eats P e -> eats P (ZeroOrMore e).
Proof.
  intros e E. apply eats_impl. intros ws x t q H. cbn [ZeroOrMore impl] in H.
  destruct (run e ws false x) as [[t1 q1]|] eqn:R; [|injection H as _ <-; exists []; auto].
  destruct (loop (length q1) e ws q1) as [t2 q2] eqn:R2. injection H as _ <-.
  destruct (E _ _ _ _ _ R) as (p & -> & F1). destruct (eats_loop _ _ _ _ _ _ E R2) as (p' & -> & F2).
  exists (p ++ p'). split; [now rewrite app_assoc|]. now rewrite forallb_app, F1, F2.
Qed.
Lemma eats_Combine : forall e, eats P e -> eats P (Combine e).
Proof.
  intros e E. apply eats_impl. intros ws x t q H. cbn [Combine impl] in H.
  destruct (run e false false x) as [[t1 q1]|] eqn:R; [|discriminate]. assert (q1 = q) by congruence. subst q1. exact (E _ _ _ _ _ R).
Qed.
End Eats.

(** Parentheses and commas are not part of targets and projectiles. *)
Definition inside (d : ascii) : bool := negb (cmem d (lit "(,)")).
Lemma white_inside : forall d, is_white d = true -> inside d = true.
Proof. intros d D. chars D. Qed.
Ltac eat := repeat first
  [ apply eats_And | apply eats_Or | apply eats_MatchFirst | apply eats_Group | apply eats_Suppress | apply eats_OptionalD
  | apply eats_ZeroOrMore | apply eats_Combine | apply Forall_cons | apply Forall_nil
  | apply eats_Literal; [|reflexivity] | apply eats_Word2 | apply eats_WordMax | exact white_inside ].
Lemma nucleus_eats : eats inside x4nucleus.
Proof. unfold x4nucleus, nums, Word, dash, x4element, mathop, isomer_modifier, Optional. cbn [map]. eat; intros d D; chars D. Qed.
Lemma projectile_eats : eats inside x4projectile.
Proof.
  unfold x4projectile, x4particle, nums, Word, Optional. apply eats_Or; [exact white_inside|].
  apply Forall_cons; [apply eats_Group; [exact white_inside|apply nucleus_eats]|]. eat; intros d D; chars D.
Qed.

Section Keys.
Variable c : codes.
Hypothesis KP : Forall particle_key (c_particles c).
Hypothesis KC : Forall compound_key (c_compounds c).

Lemma alnum_is : forall d, letter d \/ digit d -> is_alphanum d = true.
Proof. intros d [D|D]; [apply letter_alpha in D|apply digit_dig in D]; chars D. Qed.
Lemma compound_chars : forall k, In k (c_compounds c) -> forallb qchar k = true.
Proof.
  intros k I. rewrite Forall_forall in KC. destruct (KC k I) as (z & s & a & t & -> & [_ Z] & [_ S] & A & T).
  apply letter_alpha in A. rewrite !forallb_app, !andb_true_iff. repeat split; try reflexivity.
  - apply forallb_forall. intros d D. rewrite Forall_forall in Z. specialize (Z d D). apply digit_dig in Z. chars Z.
  - apply forallb_forall. intros d D. rewrite Forall_forall in S. specialize (S d D). apply letter_alpha in S. chars S.
  - cbn [forallb]. rewrite andb_true_iff. split; [chars A|].
    apply forallb_forall. intros d D. rewrite Forall_forall in T. pose proof (alnum_is d (T d D)) as X. chars X.
Qed.
Lemma compound_eats : eats inside (x4chemical_compound c).
Proof.
  apply eats_Or; [exact white_inside|]. rewrite Forall_map, Forall_forall. intros k I. apply eats_Literal; [exact white_inside|].
  apply forallb_forall. intros d D. pose proof (compound_chars k I) as Q. rewrite forallb_forall in Q. specialize (Q d D). chars Q.
Qed.
Lemma target_eats : eats inside (x4target c).
Proof.
  unfold x4target. apply eats_Or; [exact white_inside|]. apply Forall_cons; [|eat].
  apply eats_Group; [exact white_inside|]. apply eats_MatchFirst; [exact white_inside|].
  repeat apply Forall_cons; try apply Forall_nil; [apply compound_eats|apply nucleus_eats].
Qed.

(** * Targets and residual nuclei *)

(** A listed code, if no longer one can be read. *)
Lemma one_of_longest : forall keys k q x, In k keys -> k <> [] -> skip_white x = k ++ q ->
  (forall m u, In m keys -> m = k ++ u -> u <> [] -> is_prefix u q = false) ->
  run (one_of keys) true true x = Some ([PTok k], q).
Proof.
  intros keys k q x I NE X L. unfold one_of. rewrite run_Or.
  assert (Run : run (Literal k) true true x = Some ([PTok k], q)).
  { rewrite run_pre by reflexivity. rewrite X. cbn [Literal impl]. destruct k as [|a k]; [congruence|].
    rewrite prefix_app, skipn_app_len. reflexivity. }
  assert (R : forall m, In m keys -> run (Literal m) true true x = Some ([PTok k], q) \/
                         much_shorter (run (Literal m) true true x) (length q)).
  { intros m M. destruct (Literal_result m x) as [->|(r & Nm & E & Er)]; [right; exact Logic.I|].
    rewrite Er. rewrite X in E. destruct (Nat.lt_ge_cases (length m) (length k)) as [Q|Q].
    - right. cbn [much_shorter]. apply (f_equal (@length ascii)) in E. rewrite !app_length in E. lia.
    - destruct (app_longer _ _ _ _ E Q) as (u & Em & Eq). destruct u as [|d u].
      + rewrite app_nil_r in Em. cbn [app] in Eq. subst. now left.
      + exfalso. specialize (L m (d :: u) M Em ltac:(discriminate)). rewrite Eq in L. now rewrite prefix_app in L. }
  assert (G : forall ks r0, (forall m, In m ks -> In m keys) -> In k ks \/ r0 = Some ([PTok k], q) ->
     r0 = Some ([PTok k], q) \/ much_shorter r0 (length q) ->
     fold_left longer (map (fun e => run e true true x) (map Literal ks)) r0 = Some ([PTok k], q)).
  { induction ks as [|m ks IH]; intros r0 Sub H R0; cbn [map fold_left]; [destruct H as [[]|H]; exact H|].
    assert (C : forall r1 r2 : presult, (r1 = Some ([PTok k], q) \/ much_shorter r1 (length q)) ->
       (r2 = Some ([PTok k], q) \/ much_shorter r2 (length q)) ->
       (r1 = Some ([PTok k], q) \/ r2 = Some ([PTok k], q) -> longer r1 r2 = Some ([PTok k], q)) /\
       (longer r1 r2 = Some ([PTok k], q) \/ much_shorter (longer r1 r2) (length q))).
    { intros r1 r2 [->|H1] [->|H2].
      - cbn [longer]. rewrite Nat.ltb_irrefl. auto.
      - destruct r2 as [[t2 q2]|]; cbn [longer much_shorter] in *; [|auto].
        destruct (Nat.ltb_spec (length q2) (length q)); [lia|auto].
      - destruct r1 as [[t1 q1]|]; cbn [longer much_shorter] in *; [|auto].
        destruct (Nat.ltb_spec (length q) (length q1)); [auto|lia].
      - assert (Z : much_shorter (longer r1 r2) (length q)).
        { destruct r1 as [[t1 q1]|], r2 as [[t2 q2]|]; cbn [longer] in *; auto. destruct (_ <? _); auto. }
        split; [|now right]. intros [-> | ->]; cbn [much_shorter] in *; lia. }
    destruct (C r0 (run (Literal m) true true x) R0 (R m (Sub m (or_introl eq_refl)))) as [C1 C2].
    apply IH; [intros a A; apply Sub; now right| |exact C2].
    destruct H as [[->|H]|H]; [right; apply C1; now right|now left|right; apply C1; now left]. }
  apply (G keys None); auto. right. exact Logic.I.
Qed.

Definition spot_stop (d : ascii) : bool := cmem d (lit "(,)").
Definition places (l : list str) : list pe := map Literal l.
Definition alpha_first (w : str) : Prop := exists d t, w = d :: t /\ is_alpha d = true.

Lemma stop_alnum : forall k, nxt spot_stop k -> fol (fun d => negb (is_alphanum d || Ascii.eqb d "/"%char)) k.
Proof.
  intros k K. apply nxt_fol; [intros d H; chars H|]. eapply nxt_weaken; [|exact K]. intros d H. chars H.
Qed.
Lemma compound_read : forall k q x, In k (c_compounds c) -> skip_white x = k ++ q -> nxt spot_stop q ->
  run (x4chemical_compound c) true true x = Some ([PTok k], q).
Proof.
  intros k q x Ik X Q. pose proof KC as K. rewrite Forall_forall in K.
  apply one_of_longest; [exact Ik| |exact X|].
  - destruct (K k Ik) as (z & s & a & t & -> & [Nz _] & _). destruct z; [congruence|discriminate].
  - intros m u M Em Nu. destruct u as [|d u]; [congruence|].
    destruct q as [|e q]; [reflexivity|]. pose proof (stop_alnum _ Q) as A. cbn [fol] in A. cbn [is_prefix].
    destruct (Ascii.eqb d e) eqn:E; [|reflexivity]. exfalso. apply Ascii.eqb_eq in E as ->.
    destruct (K k Ik) as (z & s & a & t & -> & [Nz Dz] & [Ns Ls] & La & Ta).
    destruct (K m M) as (z' & s' & a' & t' & Em' & [Nz' Dz'] & [Ns' Ls'] & La' & Ta').
    rewrite Em in Em'. rewrite <- !app_assoc in Em'.
    apply digits_dig in Dz, Dz'. apply letters_alpha in Ls, Ls'.
    apply (span_eq is_dig) in Em'; auto; try reflexivity. destruct Em' as [_ Em'].
    apply (app_inj_len (tx "-") (tx "-")) in Em' as [_ Em']; [|reflexivity].
    apply (span_eq is_alpha) in Em'; auto; try reflexivity. destruct Em' as [_ Em'].
    apply (app_inj_len (tx "-") (tx "-")) in Em' as [_ Em']; [|reflexivity].
    cbn [app] in Em'. injection Em' as _ Em'. rewrite Forall_forall in Ta'.
    assert (Ie : In e t') by (rewrite <- Em'; apply in_or_app; right; now left).
    pose proof (alnum_is e (Ta' e Ie)) as Z. rewrite Z in A. discriminate.
Qed.

(** The words for sums: none of them is read in place of another one. *)
Lemma sums_read : forall sums w q x, In w sums ->
  (forall m u, In m sums -> m = w ++ u -> u = [] \/ exists d t, u = d :: t /\ (is_alphanum d || Ascii.eqb d "/"%char) = true) ->
  Forall alpha_first sums -> skip_white x = w ++ q -> nxt spot_stop q ->
  run (one_of sums) true true x = Some ([PTok w], q).
Proof.
  intros sums w q x Iw L F X Q. apply one_of_longest; [exact Iw| |exact X|].
  - rewrite Forall_forall in F. destruct (F w Iw) as (d & t & -> & _). discriminate.
  - intros m u M Em Nu. destruct (L m u M Em) as [->|(d & t & -> & D)]; [congruence|].
    destruct q as [|e q]; [reflexivity|]. pose proof (stop_alnum _ Q) as A. cbn [fol] in A. cbn [is_prefix].
    destruct (Ascii.eqb d e) eqn:E; [|reflexivity]. apply Ascii.eqb_eq in E as ->. now rewrite D in A.
Qed.

Definition spots (sums : list str) : pe := Or (Group (MatchFirst [x4chemical_compound c; x4nucleus]) :: map Literal sums).
Lemma target_spots : x4target c = spots target_sums. Proof. reflexivity. Qed.
Lemma residual_spots : x4residual c = spots residual_sums. Proof. reflexivity. Qed.

Definition distinct_sums (sums : list str) : Prop :=
  Forall alpha_first sums /\
  forall w m u, In w sums -> In m sums -> m = w ++ u -> u = [] \/ exists d t, u = d :: t /\ (is_alphanum d || Ascii.eqb d "/"%char) = true.
Lemma sums_distinct : distinct_sums target_sums /\ distinct_sums residual_sums.
Proof.
  assert (G : forall sums, forallb (fun w => match w with d :: _ => is_alpha d | [] => false end) sums = true ->
     forallb (fun w => forallb (fun m => implb (is_prefix w m) (match skipn (length w) m with [] => true | d :: _ => is_alphanum d || Ascii.eqb d "/"%char end)) sums) sums = true ->
     distinct_sums sums).
  { intros sums A B. rewrite forallb_forall in A, B. split.
    - rewrite Forall_forall. intros w I. specialize (A w I). destruct w as [|d t]; [discriminate|]. exists d, t. auto.
    - intros w m u W M E. specialize (B w W). rewrite forallb_forall in B. specialize (B m M). rewrite E, prefix_app, skipn_app_len in B.
      cbn [implb] in B. destruct u as [|d t]; [now left|right]. exists d, t. auto. }
  split; apply G; vm_compute; reflexivity.
Qed.

Lemma spot_parses : forall sums p, distinct_sums sums -> good_spot sums (c_compounds c) p ->
  parses (spots sums) (spot_tokens p) [spot_tree p] (nxt spot_stop).
Proof.
  intros sums p [A L] G s k x S F N. destruct p as [n|key|w]; cbn [good_spot spot_tokens spot_tree] in *.
  - assert (NS : nxt nuc_stop k) by (eapply nxt_weaken; [|exact F]; intros d H; chars H).
    destruct (nucleus_parses n G s k x S NS N) as (k' & E & N').
    exists k'. split; [|exact N']. unfold spots. rewrite run_Or. cbn [map fold_left]. rewrite none_longer.
    rewrite run_Group, run_MatchFirst. cbn [first_of]. rewrite (compound_not c n s k x KC G S N), E.
    change (PGroup (map PTok ([n_Z n; n_sym n; n_A n] ++ flat_map isomer_tokens (n_iso n)))) with (nuclide_tree n).
    apply fold_longer_keep. rewrite map_map, Forall_map.
    destruct G as ([NE D] & _). unfold nuclide_tokens in S. destruct (n_Z n) as [|d t]; [congruence|].
    apply digits_dig in D. cbn [forallb] in D. apply andb_prop in D as [D T].
    destruct (first_token (d :: t) _ s k x d t eq_refl (dig_dark _ D) S N) as (s' & X & _).
    eapply Forall_impl; [|exact A]. intros m (e & u & -> & Ae).
    rewrite (Literal_head e u x); [exact I|]. rewrite X. cbn [app fol].
    destruct (Ascii.eqb e d) eqn:Q; [|reflexivity]. apply Ascii.eqb_eq in Q as ->.
    assert (Z : negb (is_dig d) = true) by chars Ae. now rewrite D in Z.
  - pose proof KC as K. rewrite Forall_forall in K. destruct (K key G) as (z & ks & a & t & Ek & [Nz Dz] & _).
    destruct z as [|d z]; [congruence|]. apply digits_dig in Dz. cbn [forallb] in Dz. apply andb_prop in Dz as [D _].
    destruct (first_token key [] s k x d (z ++ tx "-" ++ ks ++ tx "-" ++ a :: t) Ek (dig_dark _ D) S N) as (s' & X & S').
    inversion S'; subst s'. cbn [app] in X. exists k. split; [|apply near_refl].
    unfold spots. rewrite run_Or. cbn [map fold_left]. rewrite none_longer.
    rewrite run_Group, run_MatchFirst. cbn [first_of]. rewrite (compound_read key k x G X F).
    apply fold_longer_keep. rewrite map_map, Forall_map.
    eapply Forall_impl; [|exact A]. intros m (e & u & -> & Ae).
    rewrite (Literal_head e u x); [exact I|]. rewrite X, Ek. cbn [app fol].
    destruct (Ascii.eqb e d) eqn:Q; [|reflexivity]. apply Ascii.eqb_eq in Q as ->.
    assert (Z : negb (is_dig d) = true) by chars Ae. now rewrite D in Z.
  - pose proof A as A'. rewrite Forall_forall in A'. destruct (A' w G) as (d & t & Ew & D).
    destruct (first_token w [] s k x d t Ew (alpha_dark _ D) S N) as (s' & X & S').
    inversion S'; subst s'. cbn [app] in X. exists k. split; [|apply near_refl].
    unfold spots. rewrite run_Or. cbn [map fold_left]. rewrite none_longer.
    rewrite run_Group, run_MatchFirst. cbn [first_of].
    rewrite (compound_refuses c KC x) by (rewrite X, Ew; cbn [app fol]; chars D).
    rewrite (nucleus_refuses x) by (rewrite X, Ew; cbn [app fol]; chars D).
    assert (R := sums_read sums w k x G (fun m u => L w m u G) A X F). unfold one_of in R. rewrite run_Or in R. exact R.
Qed.
Lemma spot_refuses : forall sums, distinct_sums sums -> refuses (spots sums) (fol (fun d => negb (is_alphanum d))).
Proof.
  intros sums [A _]. apply Or_refuses. apply Forall_cons.
  - apply Group_refuses, MatchFirst_refuses. apply Forall_cons; [|apply Forall_cons; [|apply Forall_nil]].
    + eapply refuses_weaken; [apply compound_refuses, KC|]. intros k. apply fol_weaken. intros d H. chars H.
    + eapply refuses_weaken; [apply nucleus_refuses|]. intros k. apply fol_weaken. intros d H. chars H.
  - rewrite Forall_map. eapply Forall_impl; [|exact A]. intros m (e & u & -> & Ae).
    eapply refuses_weaken; [apply Literal_head|]. intros k. apply fol_weaken. intros d H.
    destruct (Ascii.eqb e d) eqn:Q; [|reflexivity]. apply Ascii.eqb_eq in Q as ->.
    assert (Z : is_alphanum d = true) by chars Ae. now rewrite Z in H.
Qed.

(** * Products *)

Lemma grouped_run : forall w k x, word w -> fol (fun d => negb (is_alphanum d)) k -> skip_white x = w ++ k ->
  run (Group (And (Optional nums) [x4particle])) true true x = Some ([PGroup [PTok w]], k).
Proof.
  intros w k x W K X. destruct (word_split w W) as (a & t & b & E & A & _). cbn [app] in E.
  rewrite run_Group, run_pre by reflexivity. cbn [And impl].
  assert (O : run (Optional nums) true false (skip_white x) = Some ([], skip_white x)).
  { pose proof (run_OptionalD nums [] (skip_white x)) as O. rewrite run_skip in O. unfold run at 1. cbn [andb].
    unfold Optional. rewrite O. rewrite (nums_refuses (skip_white x)).
    - cbn [callpre skipws nums Word Word2 andb]. now rewrite skip_idem.
    - rewrite skip_idem, X, E. cbn [app fol]. chars A. }
  rewrite O. cbn [and_rest]. rewrite (particle_run w k (skip_white x) W K) by (rewrite skip_idem; exact X). reflexivity.
Qed.

Lemma product_extra : forall w, good_outgoing (c_particles c) (Extra w) ->
  parses (x4product c) [tx "X"; w] [PTok (tx "X"); PTok w] (nxt prod_stop).
Proof.
  intros w (Iw & W & L) s k x S F N. destruct (word_split w W) as (a & t & b & E & A & _). cbn [app] in E.
  destruct (first_token (tx "X") [w] s k x "X"%char [] eq_refl eq_refl S N) as (s1 & X & S1). 
  destruct (first_token w [] s1 k (s1 ++ k) a (t ++ b) E (alpha_dark _ A) S1 (near_refl _)) as (s2 & X2 & S2).
  inversion S2; subst s2. cbn [app] in X2.
  assert (FA : fol (fun d => negb (is_alphanum d)) k).
  { apply nxt_fol; [intros d H; chars H|]. eapply nxt_weaken; [|exact F]. intros d H. chars H. }
  exists k. split; [|apply near_refl].
  assert (B : run (x4basicparticle c) true true x = Some ([PTok (tx "X"); PTok w], k)).
  { rewrite run_pre by reflexivity. rewrite X. unfold x4basicparticle. cbn [And impl].
    assert (O : run (Optional (Literal (lit "X"))) true false (tx "X" ++ s1 ++ k) = Some ([PTok (lit "X")], s1 ++ k)) by reflexivity.
    rewrite O. cbn [and_rest]. rewrite (one_of_longest (c_particles c) w k (s1 ++ k) Iw); [reflexivity| |exact X2|].
    - rewrite E. discriminate.
    - intros m u M Em Nu. destruct u as [|d u]; [congruence|]. destruct k as [|e k]; [reflexivity|].
      cbn [is_prefix]. destruct (Ascii.eqb d e) eqn:Q; [|reflexivity]. exfalso. apply Ascii.eqb_eq in Q as ->.
      rewrite Em in M. specialize (L _ M). inversion L as [|? ? Le _]; subst. cbn [fol] in FA. now rewrite (alnum_is e Le) in FA. }
  assert (P : exists w' k', word w' /\ fol (fun d => negb (is_alphanum d)) k' /\ skip_white x = w' ++ k' /\ length k <= length k').
  { inversion S1 as [|g w' ts' s' G' S' E1 E2]; subst. inversion S'; subst. destruct g as [|d g].
    - exists (tx "X" ++ a :: t ++ b), k. split; [|split; [exact FA|split; [|auto]]].
      + destruct W as (a' & b' & E' & [_ A'] & B'). exists ("X"%char :: a'), b'. split; [cbn; now rewrite E'|].
        split; [split; [discriminate|]|exact B']. constructor; [|exact A']. apply letter_alpha. reflexivity.
      + rewrite X. rewrite app_nil_r. reflexivity.
    - exists (tx "X"), (((d :: g) ++ (a :: t ++ b) ++ []) ++ k). split; [|split; [|split; [exact X|rewrite !app_length; lia]]].
      + exists (tx "X"), []. split; [reflexivity|]. split; [split; [discriminate|]|constructor]. constructor; [|constructor].
        apply letter_alpha. reflexivity.
      + inversion G' as [|? ? Gd _]; subst. apply gap_white in Gd. cbn [app fol]. chars Gd. }
  destruct P as (w' & k' & W' & K' & X' & Len).
  unfold x4product. rewrite run_Or. cbn [map fold_left].
  rewrite (Group_refuses _ _ nucleus_refuses x) by (rewrite X; reflexivity). rewrite !none_longer, B.
  apply (fold_longer_keep [run x4particle true true x; run (Group (And (Optional nums) [x4particle])) true true x; run (Literal (lit "0")) true true x]).
  repeat apply Forall_cons; try apply Forall_nil.
  - rewrite (particle_run w' k' x W' K' X'). exact Len.
  - rewrite (grouped_run w' k' x W' K' X'). exact Len.
  - assert (Z : run (Literal (lit "0")) true true x = None) by (apply (Literal_head "0"%char []); rewrite X; reflexivity).
    rewrite Z. exact I.
Qed.

(** 0, for nothing. *)
Lemma product_nothing : parses (x4product c) [tx "0"] [PTok (tx "0")] (nxt prod_stop).
Proof.
  intros s k x S F N. destruct (first_token (tx "0") [] s k x "0"%char [] eq_refl eq_refl S N) as (s' & X & S'). inversion S'; subst s'. cbn [app] in X.
  assert (FA : fol (fun d => negb (is_dig d)) k).
  { apply nxt_fol; [intros d H; chars H|]. eapply nxt_weaken; [|exact F]. intros d H. chars H. }
  exists k. split; [|apply near_refl]. unfold x4product. rewrite run_Or. cbn [map fold_left].
  assert (A1 : run (Group x4nucleus) true true x = None).
  { rewrite run_Group, (nucleus_not (tx "0") k x); auto.
    - split; [discriminate|]. repeat constructor; apply digit_dig; reflexivity.
    - eapply nxt_weaken; [|exact F]. intros d H. chars H. }
  assert (A3 : run x4particle true true x = None) by (rewrite (particle_refuses x); [reflexivity|rewrite X; reflexivity]).
  assert (A4 : run (Group (And (Optional nums) [x4particle])) true true x = None).
  { rewrite run_Group, run_pre by reflexivity. cbn [And impl].
    assert (O : run (Optional nums) true false (skip_white x) = Some ([PTok (tx "0")], k)).
    { unfold run. cbn [andb Optional OptionalD impl]. unfold run, nums, Word. cbn [andb Word2 impl].
      rewrite X. change (tx "0" ++ k) with ("0"%char :: k). change (is_dig "0"%char) with true. cbv iota.
      pose proof (span_app is_dig [] k eq_refl FA) as Q. cbn [app] in Q. rewrite Q. reflexivity. }
    rewrite O. cbn [and_rest]. rewrite (particle_refuses k); [reflexivity|]. eapply fol_weaken; [|exact F]. intros d H. chars H. }
  assert (A5 : run (Literal (lit "0")) true true x = Some ([PTok (tx "0")], k)).
  { rewrite run_pre by reflexivity. rewrite X. reflexivity. }
  rewrite A1, A3, A4, A5, !longer_none, none_longer.
  destruct (basic_digit c x KP "0"%char k X eq_refl) as [->|(q & Q & ->)].
  - rewrite ?longer_none, ?none_longer. reflexivity.
  - rewrite X in Q. assert (q = k) by (change (tx "0" ++ k) with ("0"%char :: k) in Q; congruence). subst q. rewrite ?longer_none. cbn [longer]. rewrite Nat.ltb_irrefl. reflexivity.
Qed.

Definition ofol (o : outgoing) : str -> Prop := match o with Out (CNuclide _) => nxt nuc_stop | _ => nxt prod_stop end.
Lemma outgoing_parses : forall o, good_outgoing (c_particles c) o ->
  parses (x4product c) (outgoing_tokens o) (outgoing_trees o) (ofol o).
Proof.
  intros [p|w] G.
  - destruct G as [G| ->]; [|exact product_nothing]. pose proof (product_parses c KP p G) as H. destruct p; exact H.
  - exact (product_extra w G).
Qed.
Definition out_item (o : outgoing) : list str * list ptree := (tx "+" :: outgoing_tokens o, outgoing_trees o).
Lemma separated_out : forall p ps, separated (tx "+") (map outgoing_tokens (p :: ps)) =
  outgoing_tokens p ++ concat (map fst (map out_item ps)).
Proof.
  intros p ps. revert p. induction ps as [|q ps IH]; intros p; [cbn; now rewrite app_nil_r|].
  change (separated (tx "+") (map outgoing_tokens (p :: q :: ps))) with
    (outgoing_tokens p ++ tx "+" :: separated (tx "+") (map outgoing_tokens (q :: ps))).
  rewrite IH. reflexivity.
Qed.
Lemma ofol_ok : forall p ps s k, (ps <> [] -> forall n, p <> Out (CNuclide n)) ->
  spaced (concat (map fst (map out_item ps))) s -> nxt (fun d => Ascii.eqb d ")"%char) k -> ofol p (s ++ k).
Proof.
  intros p [|q ps] s k H S K.
  - inversion S; subst. cbn [app]. destruct p as [[]|]; cbn [ofol]; (eapply nxt_weaken; [|exact K]); intros d D; chars D.
  - assert (X : nxt (fun d => Ascii.eqb d "+"%char) (s ++ k)).
    { eapply nxt_spaced; [exact S|reflexivity|reflexivity]. }
    destruct p as [[n| |]|]; cbn [ofol]; [exfalso; apply (H ltac:(discriminate) n eq_refl)| | |];
      (eapply nxt_weaken; [|exact X]); intros d D; chars D.
Qed.
Lemma out_parses : forall p, good_outgoing (c_particles c) p ->
  parses (And (Suppress (Literal (lit "+"))) [x4product c]) (tx "+" :: outgoing_tokens p) (outgoing_trees p) (ofol p).
Proof.
  intros p G. apply (parses_And (Suppress (Literal (lit "+"))) [x4product c] [tx "+"] [] any (outgoing_tokens p) (outgoing_trees p)).
  - reflexivity.
  - eapply Suppress_parses. apply (Literal_parses "+"%char []). reflexivity.
  - apply rest_one, outgoing_parses, G.
  - exact (fun _ _ _ _ => I).
Qed.
Lemma out_chain : forall ps, Forall (good_outgoing (c_particles c)) ps ->
  (forall a x b, ps = a ++ x :: b -> b <> [] -> forall n, x <> Out (CNuclide n)) ->
  chain (And (Suppress (Literal (lit "+"))) [x4product c]) (fol (fun d => Ascii.eqb d ")"%char)) (map out_item ps).
Proof.
  induction ps as [|p ps IH]; intros G O; [constructor|]. inversion G as [|? ? Gp Gps]; subst.
  cbn [map]. apply chain_cons with (F := ofol p).
  - exists "+"%char, [], (outgoing_tokens p). split; reflexivity.
  - apply out_parses, Gp.
  - intros s k S K. eapply ofol_ok; [|exact S|exact K]. intros NE n. exact (O [] p ps eq_refl NE n).
  - apply IH; [exact Gps|]. intros a x b E. apply (O (p :: a) x b). cbn [app]. now rewrite E.
Qed.
Lemma outgoings_parse : forall l, good_outgoings (c_particles c) l ->
  forall rest ts r F, parses_rest rest ts r F ->
  (forall s k, spaced ts s -> F k -> nxt (fun d => Ascii.eqb d ")"%char) (s ++ k)) ->
  parses_rest (delimited (x4product c) (lit "+") ++ rest) (separated (tx "+") (map outgoing_tokens l) ++ ts)
              (flat_map outgoing_trees l ++ r) F.
Proof.
  intros l (NE & G & O) rest ts r F H C. destruct l as [|p ps]; [congruence|].
  inversion G as [|? ? Gp Gps]; subst. rewrite separated_out, <- app_assoc. unfold delimited. cbn [app flat_map].
  rewrite <- app_assoc.
  apply (rest_cons (x4product c) _ (outgoing_tokens p) (outgoing_trees p) (ofol p)
           (concat (map fst (map out_item ps)) ++ ts) (flat_map outgoing_trees ps ++ r)).
  - apply outgoing_parses, Gp.
  - assert (E : flat_map outgoing_trees ps = concat (map snd (map out_item ps))).
    { rewrite flat_map_concat_map, map_map. reflexivity. }
    rewrite E.
    apply (rest_cons (ZeroOrMore (And (Suppress (Literal (lit "+"))) [x4product c])) rest _ _
             (fun k => fol (fun d => Ascii.eqb d ")"%char) (skip_white k))).
    + apply ZeroOrMore_parses.
      * apply And_refuses; [reflexivity|]. apply Suppress_refuses.
        eapply refuses_weaken; [apply (Literal_head "+"%char [])|]. intros k. apply fol_weaken. intros d D. chars D.
      * apply out_chain; [exact Gps|]. intros a x b E'. apply (O (p :: a) x b). cbn [app]. now rewrite E'.
    + exact H.
    + exact C.
  - intros s k S K. destruct (spaced_app _ _ _ S) as (s1 & s2 & -> & S1 & S2). rewrite <- app_assoc.
    eapply ofol_ok; [|exact S1|exact (C _ _ S2 K)]. intros NEp n. exact (O [] p ps eq_refl NEp n).
Qed.

(** * Processes *)

Lemma gprocess_parses : forall r, good_general (c_particles c) (c_compounds c) r ->
  parses (x4process c) (gprocess_tokens r) (gprocess_tree r) (nxt part_stop).
Proof.
  intros r (GT & GP & GO & GR & _). unfold gprocess_tokens, x4process, gprocess_tree. destruct sums_distinct as [DT DR].
  apply (parses_And (x4target c) _ (spot_tokens (gc_target r)) [spot_tree (gc_target r)] (nxt spot_stop)).
  - reflexivity.
  - rewrite target_spots. apply spot_parses; assumption.
  - apply (rest_cons lpar _ [tx "("] [] any); [apply lpar_parses| |exact (fun _ _ _ _ => I)].
    apply (rest_cons x4projectile _ (code_tokens (gc_projectile r)) [code_tree (gc_projectile r)]
             (nxt (fun d => Ascii.eqb d ","%char))).
    + apply projectile_parses, GP.
    + apply (rest_cons comma _ [tx ","] [] any); [apply comma_parses| |exact (fun _ _ _ _ => I)].
      apply outgoings_parse; [exact GO| |].
      * apply (rest_cons rpar _ [tx ")"] [] any); [apply rpar_parses| |exact (fun _ _ _ _ => I)].
        apply rest_one. rewrite residual_spots. destruct (gc_residual r) as [n|].
        -- apply Optional_parses. eapply parses_weaken; [apply spot_parses; auto|].
           intros k. apply nxt_weaken. intros d D. chars D.
        -- eapply parses_weaken; [apply Optional_none, spot_refuses, DR|].
           intros k. apply fol_weaken. intros d D. chars D.
      * intros s k S _. eapply nxt_spaced; [exact S|reflexivity|reflexivity].
    + intros s k S _. eapply nxt_spaced; [exact S|reflexivity|reflexivity].
  - intros s k S _. eapply nxt_spaced; [exact S|reflexivity|reflexivity].
Qed.

Lemma gprocess_comma : forall r s, spaced (gprocess_tokens r) s -> exists u v, s = u ++ ","%char :: v.
Proof.
  intros r s S. unfold gprocess_tokens in S.
  apply spaced_app in S as (s1 & s2 & -> & _ & S). apply spaced_app in S as (s3 & s4 & -> & _ & S).
  apply spaced_app in S as (s5 & s6 & -> & _ & S). apply spaced_app in S as (s7 & s8 & -> & S & _).
  inversion S as [|w t ts s G S' E1 E2]; subst. inversion S'; subst.
  exists (s1 ++ s3 ++ s5 ++ w), (s8). rewrite <- !app_assoc. reflexivity.
Qed.
Lemma part_gprocess : forall r, good_general (c_particles c) (c_compounds c) r ->
  parses (reaction_part c) (gprocess_tokens r) [PGroup (gprocess_tree r)] (nxt part_stop).
Proof.
  intros r G s k x S F N.
  destruct (Group_parses _ _ _ _ (gprocess_parses r G) s k x S F N) as (k' & E & N').
  exists k'. split; [|exact N']. unfold reaction_part. rewrite run_Or. cbn [map fold_left]. rewrite E, none_longer.
  apply fold_longer_keep with (rs := [_]). apply Forall_cons; [|apply Forall_nil].
  destruct (gprocess_comma r s S) as (u & v & ->).
  destruct (run (ZeroOrMore x4reaction_descriptor) true true x) as [[t q]|] eqn:Q; [|exact I]. cbn [shorter].
  assert (X : exists u', q = u' ++ ","%char :: v ++ k).
  { pose proof (keeps_ZeroOrMore ","%char x4reaction_descriptor eq_refl descriptor_keeps) as KK.
    rewrite <- app_assoc in N. cbn [app] in N. destruct N as [->| ->].
    - exact (KK _ _ _ _ _ _ Q).
    - rewrite run_skip in Q.
      assert (E' : exists u1, skip_white (u ++ ","%char :: v ++ k) = u1 ++ ","%char :: v ++ k).
      { clear. induction u as [|d u IH]; cbn [app skip_white]; [exists []; reflexivity|].
        destruct (is_white d); [exact IH|]. exists (d :: u). reflexivity. }
      destruct E' as [u1 E']. rewrite E' in Q. exact (keeps_use _ _ _ _ _ _ _ KK Q). }
  destruct X as [u' ->]. pose proof (near_len _ _ N'). rewrite app_length. cbn [length]. rewrite app_length. lia.
Qed.

(** * Quantities *)

(** What a part without a process looks like: no parenthesis or comma, then nothing, a comma, a
    closing parenthesis, or a pair of parentheses without parentheses and commas inside. *)
Definition plain_part (y : str) : Prop :=
  exists u v, y = u ++ v /\ forallb inside u = true /\
    (fol part_stop v \/ exists u' v', v = "("%char :: u' ++ ")"%char :: v' /\ forallb inside u' = true).
Lemma gaps_inside : forall w, Forall gap w -> forallb inside w = true.
Proof. intros w W. apply forallb_forall. intros d D. rewrite Forall_forall in W. apply white_inside, gap_white, W, D. Qed.
Lemma word_inside : forall w, nonempty quantity_char w -> forallb inside w = true.
Proof.
  intros w [_ W]. apply forallb_forall. intros d D. rewrite Forall_forall in W. pose proof (quantity_qchar d (W d D)) as Q. chars Q.
Qed.
Lemma part_plain : forall q s k, (forall m, In m q -> nonempty quantity_char (remark_word m)) ->
  spaced (flat_map remark_tokens q) s -> nxt part_stop k -> plain_part (s ++ k).
Proof.
  induction q as [|m q IH]; intros s k G S K.
  - cbn [flat_map] in S. inversion S; subst. cbn [app]. destruct (eats_skip inside white_inside k) as (p & E & F).
    exists p, (skip_white k). split; [exact E|]. split; [exact F|]. left. exact K.
  - cbn [flat_map] in S. pose proof (word_inside _ (G m (or_introl eq_refl))) as Wm. destruct m as [w|w]; cbn [remark_tokens remark_word app] in *.
    + inversion S as [|g t ts s' Gg S' E1 E2]; subst.
      destruct (IH s' k (fun m M => G m (or_intror M)) S' K) as (u & v & E & U & V).
      exists (g ++ w ++ u), v. split; [now rewrite <- !app_assoc, E|]. split; [|exact V].
      now rewrite !forallb_app, (gaps_inside g Gg), Wm, U.
    + inversion S as [|g t ts s' Gg S' E1 E2]; subst. inversion S' as [|g' t' ts' s'' Gg' S'' E1' E2']; subst.
      inversion S'' as [|g2 t2 ts2 s2 Gg2 S2 E12 E22]; subst.
      exists g, (tx "(" ++ (g' ++ w ++ g2) ++ tx ")" ++ s2 ++ k).
      split; [now rewrite <- !app_assoc|]. split; [now apply gaps_inside|]. right.
      exists (g' ++ w ++ g2), (s2 ++ k). split; [reflexivity|].
      now rewrite !forallb_app, (gaps_inside _ Gg'), Wm, (gaps_inside _ Gg2).
Qed.

(** Reading that stays inside. *)
Lemma eats_before : forall e ws pre u v t q, eats inside e -> forallb inside u = true -> fol spot_stop v ->
  run e ws pre (u ++ v) = Some (t, q) -> v = [] \/ exists u', q = u' ++ v /\ forallb inside u' = true.
Proof.
  intros e ws pre u v t q E U V R. destruct (E _ _ _ _ _ R) as (p & X & P).
  destruct v as [|d v]; [now left|right].
  destruct (Nat.le_gt_cases (length p) (length u)) as [L|L].
  - symmetry in X. destruct (app_longer _ _ _ _ X L) as (u' & Eu & Eq). exists u'. split; [exact Eq|].
    rewrite Eu, forallb_app in U. now apply andb_prop in U as [_ U].
  - exfalso. destruct (app_longer _ _ _ _ X) as (u' & Eu & Eq); [lia|].
    destruct u' as [|e' u']; [rewrite app_nil_r in Eu; subst; lia|]. cbn [app] in Eq. injection Eq as -> _.
    rewrite Eu, forallb_app in P. apply andb_prop in P as [_ P]. cbn [forallb] in P. apply andb_prop in P as [P _].
    cbn [fol] in V. unfold inside in P. change (cmem e' (lit "(,)")) with (spot_stop e') in P. now rewrite V in P.
Qed.
Lemma inside_next : forall u v, forallb inside u = true -> fol spot_stop v ->
  (exists d t, skip_white (u ++ v) = d :: t /\ inside d = true) \/ skip_white (u ++ v) = v.
Proof.
  induction u as [|d u IH]; intros v U V; cbn [app].
  - right. destruct v as [|e v]; [reflexivity|]. cbn [fol] in V. apply skip_non, negb_true_iff. chars V.
  - cbn [forallb] in U. apply andb_prop in U as [D U]. cbn [skip_white]. destruct (is_white d); [now apply IH|].
    left. exists d, (u ++ v). auto.
Qed.
Lemma plain_not : forall x y, plain_part y -> near x y -> run (x4process c) true true x = None.
Proof.
  intros x y (u & v & -> & U & V) N. rewrite (run_near _ _ _ N) by reflexivity. clear N.
  assert (Fv : fol spot_stop v).
  { destruct V as [V|(u' & v' & -> & _)]; [|reflexivity]. eapply fol_weaken; [|exact V]. intros d D. chars D. }
  rewrite run_pre by reflexivity. unfold x4process. cbn [And impl].
  destruct (eats_skip inside white_inside (u ++ v)) as (p & Ep & Pp).
  assert (Y : exists u0, skip_white (u ++ v) = u0 ++ v /\ forallb inside u0 = true).
  { clear -U Fv. induction u as [|d u IH]; cbn [app].
    - exists []. split; [|reflexivity]. destruct v as [|e v]; [reflexivity|]. cbn [fol] in Fv. apply skip_non, negb_true_iff. chars Fv.
    - cbn [forallb] in U. pose proof U as U'. apply andb_prop in U as [D U]. cbn [skip_white]. destruct (is_white d); [now apply IH|].
      exists (d :: u). split; [reflexivity|exact U']. }
  destruct Y as (u0 & -> & U0). clear U Ep Pp p u.
  destruct (run (x4target c) true false (u0 ++ v)) as [[t q]|] eqn:R; [|reflexivity]. cbn [app and_rest].
  destruct v as [|d v].
  - assert (P : run lpar true true q = None); [|now rewrite P].
    apply (Suppress_refuses _ _ (Literal_head "("%char [])).
    destruct (target_eats _ _ _ _ _ R) as (p & E & _). rewrite app_nil_r in E. rewrite E, forallb_app in U0. apply andb_prop in U0 as [_ Q].
    destruct (inside_next q [] Q I) as [(e & t' & X & X')|X]; rewrite app_nil_r in X; rewrite X; [cbn [fol]; chars X'|exact I].
  - destruct (eats_before _ _ _ _ _ _ _ target_eats U0 Fv R) as [E|(u1 & -> & U1)]; [discriminate|].
    destruct (inside_next u1 (d :: v) U1 Fv) as [(e & t' & X & X')|X].
    + assert (P : run lpar true true (u1 ++ d :: v) = None); [|now rewrite P].
      apply (Suppress_refuses _ _ (Literal_head "("%char [])). rewrite X. cbn [fol]. chars X'.
    + destruct V as [V|(u' & v' & E & U')].
      * assert (P : run lpar true true (u1 ++ d :: v) = None); [|now rewrite P].
        apply (Suppress_refuses _ _ (Literal_head "("%char [])). rewrite X. cbn [fol] in V |- *. chars V.
      * rewrite E in X |- *.
        assert (P : run lpar true true (u1 ++ "("%char :: u' ++ ")"%char :: v') = Some ([], u' ++ ")"%char :: v')).
        { rewrite (run_Suppress (Literal (lit "("))). rewrite run_pre by reflexivity. rewrite X. reflexivity. }
        rewrite P. destruct (run x4projectile true true (u' ++ ")"%char :: v')) as [[t2 q2]|] eqn:R2; [|reflexivity].
        destruct (eats_before _ _ _ u' (")"%char :: v') _ _ projectile_eats U' eq_refl R2) as [E2|(u2 & -> & U2)]; [discriminate|].
        assert (P2 : run comma true true (u2 ++ ")"%char :: v') = None); [|now rewrite P2].
        apply (Suppress_refuses _ _ (Literal_head ","%char [])).
        destruct (inside_next u2 (")"%char :: v') U2 eq_refl) as [(e & t' & X2 & X')|X2]; rewrite X2; [cbn [fol]; chars X'|reflexivity].
Qed.

Definition remark_fol (m : remark) : str -> Prop :=
  match m with Bare _ => nxt spot_stop | Paren _ => any end.
Lemma quantity_first : forall w, nonempty quantity_char w -> exists a t, w = a :: t /\ qchar a = true /\ forallb qchar t = true.
Proof.
  intros [|a t] [NE Q]; [congruence|]. inversion Q as [|? ? A T]; subst. exists a, t. split; [reflexivity|].
  split; [now apply quantity_qchar|]. apply forallb_forall. intros d D. rewrite Forall_forall in T. apply quantity_qchar, T, D.
Qed.
Lemma qchar_dark : forall d, qchar d = true -> is_white d = false.
Proof. intros d D. apply negb_true_iff. chars D. Qed.
Lemma descr_parses : forall w, nonempty quantity_char w -> parses descr_word [w] [PTok w] (nxt spot_stop).
Proof.
  intros w Q. destruct (quantity_first w Q) as (a & t & -> & A & T).
  eapply parses_weaken; [apply (Word2_parses (alphanum_or "/*+-") (alphanum_or "/*+-") a t (qchar_dark a A) A T)|].
  intros k K. apply nxt_fol; [intros d D; chars D|]. eapply nxt_weaken; [|exact K]. intros d D. chars D.
Qed.
Lemma remark_parses : forall m, nonempty quantity_char (remark_word m) ->
  parses x4reaction_descriptor (remark_tokens m) [PTok (remark_word m)] (remark_fol m).
Proof.
  intros [w|w] Q s k x S F N; cbn [remark_word remark_tokens remark_fol] in *.
  - destruct (descr_parses w Q s k x S F N) as (k' & E & N'). exists k'. split; [|exact N'].
    destruct (quantity_first w Q) as (a & t & Ew & A & T).
    unfold x4reaction_descriptor. rewrite run_Or. cbn [map fold_left]. rewrite none_longer, E.
    assert (R : run (And lpar [descr_word; rpar]) true true x = None); [|now rewrite R].
    apply (And_refuses lpar _ (fol (fun d => negb (Ascii.eqb "("%char d)))); [reflexivity| |].
    + apply Suppress_refuses, (Literal_head "("%char []).
    + destruct (first_token w [] s k x a t Ew (qchar_dark a A) S N) as (s' & -> & _). rewrite Ew. cbn [app fol]. chars A.
  - assert (P : parses (And lpar [descr_word; rpar]) ([tx "("] ++ [w] ++ [tx ")"]) ([] ++ [PTok w] ++ []) any).
    { apply (parses_And lpar _ [tx "("] [] any); [reflexivity|apply lpar_parses| |exact (fun _ _ _ _ => I)].
      apply (rest_cons descr_word _ [w] [PTok w] (nxt spot_stop)); [apply descr_parses, Q|apply rest_one, rpar_parses|].
      intros s0 k0 S0 _. eapply nxt_spaced; [exact S0|reflexivity|reflexivity]. }
    destruct (P s k x S F N) as (k' & E & N'). exists k'. split; [|exact N'].
    unfold x4reaction_descriptor. rewrite run_Or. cbn [map fold_left]. rewrite none_longer.
    assert (R : run descr_word true true x = None).
    { apply (Word2_refuses (alphanum_or "/*+-") (alphanum_or "/*+-")).
      destruct (first_token (tx "(") _ s k x "("%char [] eq_refl eq_refl S N) as (s' & -> & _). reflexivity. }
    rewrite R, none_longer. exact E.
Qed.

Definition remark_item (m : remark) : list str * list ptree := (remark_tokens m, [PTok (remark_word m)]).
Lemma remarks_chain : forall q, good_part q -> chain x4reaction_descriptor (fol part_stop) (map remark_item q).
Proof.
  induction q as [|m q IH]; intros [G A]; [constructor|]. cbn [map]. apply chain_cons with (F := remark_fol m).
  - pose proof (G m (or_introl eq_refl)) as Q. destruct (quantity_first _ Q) as (a & t & E & B & _).
    destruct m as [w|w]; cbn [remark_tokens remark_word] in *.
    + exists a, t, []. split; [now rewrite E|now apply qchar_dark].
    + exists "("%char, [], [w; tx ")"]. split; reflexivity.
  - apply remark_parses, G. now left.
  - intros s k S K. destruct m as [w|w]; [|exact I]. cbn [remark_fol].
    destruct q as [|[v|v] q]; cbn [map concat remark_item fst remark_tokens app] in S.
    + inversion S; subst. eapply nxt_weaken; [|exact K]. intros d D. chars D.
    + exfalso. exact (A [] w v q eq_refl).
    + eapply nxt_spaced; [exact S|reflexivity|reflexivity].
  - apply IH. split; [intros x X; apply G; now right|]. intros a u v b E. apply (A (m :: a) u v b). cbn [app]. now rewrite E.
Qed.
Lemma part_remarks : forall q, good_part q ->
  parses (reaction_part c) (flat_map remark_tokens q) (map PTok (map remark_word q)) (nxt part_stop).
Proof.
  intros q G s k x S F N.
  assert (A1 : run (Group (x4process c)) true true x = None).
  { rewrite run_Group, (plain_not x (s ++ k)); [reflexivity| |exact N]. apply (part_plain q); [apply G|exact S|exact F]. }
  unfold reaction_part. rewrite run_Or. cbn [map fold_left]. rewrite A1, !none_longer.
  assert (E1 : flat_map remark_tokens q = concat (map fst (map remark_item q))) by (now rewrite flat_map_concat_map, map_map).
  assert (E2 : map PTok (map remark_word q) = concat (map snd (map remark_item q))).
  { clear. induction q as [|m q IH]; [reflexivity|]. cbn [map concat remark_item snd app]. now rewrite IH. }
  rewrite E1 in S. rewrite E2.
  exact (ZeroOrMore_parses x4reaction_descriptor (fol part_stop) (map remark_item q) descriptor_refuses (remarks_chain q G) s k x S F N).
Qed.

(** * Reactions *)

Definition part_item (q : list remark) : list str * list ptree := (part_tokens q, map PTok (map remark_word q)).
Lemma general_parses : forall r, good_general (c_particles c) (c_compounds c) r ->
  parses (x4reaction c) (general_tokens r) (general_tree r) any.
Proof.
  intros r G. unfold general_tokens, x4reaction, general_tree.
  apply (parses_And lpar _ [tx "("] [] any); [reflexivity|apply lpar_parses| |exact (fun _ _ _ _ => I)].
  unfold delimited. cbn [app].
  assert (NX : forall s k, spaced (flat_map part_tokens (gc_quantities r) ++ [tx ")"]) s -> nxt part_stop (s ++ k)).
  { intros s k S. destruct (gc_quantities r) as [|q l]; cbn [flat_map app] in S.
    - eapply nxt_spaced; [exact S|reflexivity|reflexivity].
    - unfold part_tokens in S at 1. cbn [app] in S. eapply nxt_spaced; [exact S|reflexivity|reflexivity]. }
  apply (rest_cons (reaction_part c) _ (gprocess_tokens r) [PGroup (gprocess_tree r)] (nxt part_stop)
           (flat_map part_tokens (gc_quantities r) ++ [tx ")"]) (map PTok (general_quantities r))).
  - apply part_gprocess, G.
  - set (items := map part_item (gc_quantities r)).
    assert (E1 : flat_map part_tokens (gc_quantities r) = concat (map fst items)).
    { unfold items. rewrite map_map, flat_map_concat_map. f_equal. }
    assert (E2 : map PTok (general_quantities r) = concat (map snd items)).
    { unfold items, general_quantities. rewrite map_map, flat_map_concat_map, concat_map, map_map. f_equal. }
    rewrite E1, E2. rewrite <- (app_nil_r (concat (map snd items))).
    apply (rest_cons (ZeroOrMore (And (Suppress (Literal (lit ","))) [reaction_part c])) [rpar] _ _
             (fun k => fol (fun d => Ascii.eqb d ")"%char) (skip_white k)) [tx ")"] [] any).
    + apply ZeroOrMore_parses.
      * apply And_refuses; [reflexivity|]. apply Suppress_refuses.
        eapply refuses_weaken; [apply (Literal_head ","%char [])|]. intros k. apply fol_weaken. intros d D. chars D.
      * apply (chain_uniform _ (nxt part_stop)).
        -- unfold items. rewrite Forall_map, Forall_forall. intros q Iq. cbn [part_item fst snd]. split.
           ++ exists ","%char, [], (flat_map remark_tokens q). split; reflexivity.
           ++ apply (parses_And (Suppress (Literal (lit ","))) [reaction_part c] [tx ","] [] any (flat_map remark_tokens q)
                       (map PTok (map remark_word q))); [reflexivity|apply comma_parses| |exact (fun _ _ _ _ => I)].
              apply rest_one, part_remarks. destruct G as (_ & _ & _ & _ & Gq). rewrite Forall_forall in Gq. exact (Gq q Iq).
        -- intros k. apply fol_weaken. intros d D. chars D.
        -- intros i s k Ii S. unfold items in Ii. apply in_map_iff in Ii as (q & <- & _). cbn [part_item fst] in S.
           eapply nxt_spaced; [exact S|reflexivity|reflexivity].
    + apply rest_one, rpar_parses.
    + intros s k S _. eapply nxt_spaced; [exact S|reflexivity|reflexivity].
  - intros s k S _. now apply NX.
Qed.
Lemma written_parses : forall ts l, written (c_particles c) (c_compounds c) ts l -> parses (x4reaction c) ts l any.
Proof. intros ts l (r & G & -> & ->). now apply general_parses. Qed.
End Keys.

(** * The codes of Spec/Codes.v *)

Lemma general_tokens_eq : forall r, general_tokens (general r) = reaction_tokens r.
Proof.
  intros r. unfold general_tokens, reaction_tokens, gprocess_tokens, process_tokens, general.
  cbn [gc_target gc_projectile gc_products gc_residual gc_quantities spot_tokens].
  rewrite map_map. f_equal. f_equal.
  - repeat f_equal. destruct (rc_residual r); reflexivity.
  - f_equal. induction (rc_quantities r) as [|q l IH]; [reflexivity|]. cbn [map flat_map]. rewrite IH. f_equal.
    now destruct q.
Qed.
Lemma general_tree_eq : forall r, general_tree (general r) = reaction_tree r.
Proof.
  intros r. unfold general_tree, reaction_tree, gprocess_tree, process_tree, general, general_quantities, quantities.
  cbn [gc_target gc_projectile gc_products gc_residual gc_quantities spot_tree]. f_equal.
  - repeat f_equal.
    + induction (rc_products r) as [|p l IH]; [reflexivity|]. cbn [map flat_map outgoing_trees app]. now rewrite IH.
    + destruct (rc_residual r); reflexivity.
  - f_equal. induction (rc_quantities r) as [|q l IH]; [reflexivity|]. cbn [map flat_map]. rewrite IH. f_equal. now destruct q.
Qed.
Lemma general_good : forall keys ks r, good_reaction keys r -> good_general keys ks (general r).
Proof.
  intros keys ks r (GT & GP & (NE & GO & GN) & GR & GQ). unfold good_general, general.
  cbn [gc_target gc_projectile gc_products gc_residual gc_quantities good_spot].
  split; [exact GT|]. split; [exact GP|]. split; [split; [|split]|split].
  - destruct (rc_products r); [congruence|discriminate].
  - rewrite Forall_map. eapply Forall_impl; [|exact GO]. intros x Gx. now left.
  - intros a x b E Nb n ->. apply map_eq_app in E as (a' & b' & E & Ea & Eb).
    destruct b' as [|x' b']; [discriminate|]. cbn [map] in Eb. injection Eb as Ex Eb. subst.
    apply (GN a' (CNuclide n) b' E) with (n := n); [|reflexivity]. intros ->. now apply Nb.
  - intros x E. destruct (rc_residual r) as [n|]; [|discriminate]. cbn [option_map] in E. injection E as <-. now apply GR.
  - rewrite Forall_map, Forall_forall. intros q Iq. destruct q as [w|].
    + split.
      * intros m [<-|[]]. destruct (GQ w Iq) as (d & t & -> & D & T). split; [discriminate|]. constructor; [now left|exact T].
      * intros [|m a] u v b E; [discriminate|]. destruct a; discriminate.
    + split; [intros m []|]. intros [|m a] u v b E; discriminate.
Qed.
Lemma general_written : forall keys ks r, good_reaction keys r -> written keys ks (reaction_tokens r) (reaction_tree r).
Proof.
  intros keys ks r G. exists (general r). split; [now apply general_good|].
  split; symmetry; [apply general_tokens_eq|apply general_tree_eq].
Qed.
