(** Projectiles, targets and residuals as the grammars read them. *)
From Coq Require Import String List Ascii NArith ZArith Bool Arith Lia.
From Verif.Model Require Import Py Particle Pyparsing Grammars.
From Verif.Spec Require Import Text Codes.
From Verif.Proofs Require Import StrLemmas ParseLemmas GrammarLemmas.
Import ListNotations.
Local Open Scope list_scope.
Local Open Scope nat_scope.

(** Projectiles. *)
Lemma projectile_parses : forall p, good_projectile p ->
  parses x4projectile (code_tokens p) [code_tree p] (nxt (fun c => Ascii.eqb c ","%char)).
Proof.
  intros p G s k x S F N. unfold x4projectile. rewrite run_Or. cbn [map fold_left]. rewrite none_longer.
  destruct p as [n|w|]; cbn [good_projectile code_tokens code_tree] in *; [| |contradiction].
  - destruct (Group_parses _ _ _ _ (nucleus_parses n G) s k x S) as (k' & E & N'); auto.
    { eapply nxt_weaken; [|exact F]. intros c H. chars H. }
    change (PGroup (map PTok ([n_Z n; n_sym n; n_A n] ++ flat_map isomer_tokens (n_iso n)))) with (nuclide_tree n) in E.
    exists k'. split; [|exact N']. rewrite E. generalize (nuclide_tree n). intros tree.
    destruct G as ([NE D] & _). unfold nuclide_tokens in S. destruct (n_Z n) as [|d t]; [congruence|].
    apply digits_dig in D. cbn [forallb] in D. apply andb_prop in D as [D T].
    destruct (first_token (d :: t) _ s k x d t eq_refl (dig_dark _ D) S N) as (s' & X & S').
    cbn [app] in X. pose proof (near_len _ _ N') as L.
    assert (L2 : length k <= length (t ++ s' ++ k)) by (rewrite !app_length; lia).
    rewrite (particle_refuses x), longer_none by (rewrite X; cbn [fol]; chars D).
    apply fold_longer_keep with (rs := [_]). apply Forall_cons; [|apply Forall_nil].
    apply (zero_shorter d (t ++ s' ++ k) k k' x X); lia.
  - destruct G as [W| ->].
    + destruct (particle_parses w W s k x S) as (k' & E & N'); auto.
      { apply nxt_fol; [intros c H; chars H|]. eapply nxt_weaken; [|exact F]. intros c H. chars H. }
      exists k'. split; [|exact N']. rewrite E.
      destruct (word_split w W) as (a & t & b & Ew & A & _). cbn [app] in Ew.
      destruct (first_token w [] s k x a (t ++ b) Ew (alpha_dark _ A) S N) as (s' & X & _).
      rewrite (Group_refuses _ _ nucleus_refuses x) by (rewrite X, Ew; cbn [app fol]; chars A). rewrite none_longer.
      assert (Z : run (Literal (lit "0")) true true x = None); [|now rewrite Z].
      apply (Literal_head "0"%char []). rewrite X, Ew. cbn [app fol]. chars A.
    + destruct (Literal_parses "0"%char [] eq_refl s k x S I N) as (k' & E & N').
      exists k'. split; [|exact N'].
      destruct (first_token (tx "0") [] s k x "0"%char [] eq_refl eq_refl S N) as (s' & X & S'). inversion S'; subst s'.
      rewrite run_Group, (nucleus_not (tx "0") k x); auto.
      * rewrite none_longer, (particle_refuses x) by (rewrite X; reflexivity). rewrite none_longer. exact E.
      * split; [discriminate|]. repeat constructor; apply digit_dig; reflexivity.
      * apply nxt_fol; [intros c H; chars H|]. eapply nxt_weaken; [|exact F]. intros c H. chars H.
      * eapply nxt_weaken; [|exact F]. intros c H. chars H.
Qed.

(** Chemical compounds are not read where a nuclide is written. *)
Lemma span_eq : forall p a b c d, forallb p a = true -> forallb p b = true ->
  fol (fun x => negb (p x)) c -> fol (fun x => negb (p x)) d -> a ++ c = b ++ d -> a = b /\ c = d.
Proof.
  intros p a b c d A B C D E. pose proof (span_app p a c A C) as H. rewrite E, (span_app p b d B D) in H.
  injection H as -> ->. auto.
Qed.
(** The head of a token sequence, when the text starts with something else than a gap. *)
Lemma spaced_now : forall t ts s c u v, spaced (t :: ts) s -> s ++ v = c :: u -> is_white c = false ->
  exists s', s = t ++ s' /\ spaced ts s'.
Proof.
  intros t ts s c u v S E W. inversion S as [|w t' ts' s' G S' E1 E2]; subst.
  destruct w as [|d w]; [exists s'; auto|]. inversion G as [|? ? Gd _]; subst. cbn [app] in E. injection E as -> _.
  rewrite (gap_white _ Gd) in W. discriminate.
Qed.
Lemma compound_not : forall c n s k x, Forall compound_key (c_compounds c) -> good_nuclide n ->
  spaced (nuclide_tokens n) s -> near x (s ++ k) -> run (x4chemical_compound c) true true x = None.
Proof.
  intros c n s k x K ([NZ DZ] & [NA DA] & _ & (sc & st & Esym & Cs & Ts)) S N.
  destruct (one_of_result (c_compounds c) x) as [|(m & q & I & NE & X & _)]; [assumption|exfalso].
  rewrite Forall_forall in K. destruct (K m I) as (z & ks & kc & kt & -> & [Nz Dz] & [Ns Ds] & Lc & _).
  apply digits_dig in DZ, Dz, DA. apply letters_alpha in Ds. apply letter_alpha in Lc. apply capital_cap in Cs.
  destruct (n_Z n) as [|d t] eqn:EZ; [congruence|]. unfold nuclide_tokens in S. rewrite EZ in S.
  assert (D : is_dig d = true) by (cbn [forallb] in DZ; now apply andb_prop in DZ as [? _]).
  destruct (first_token (d :: t) _ s k x d t eq_refl (dig_dark _ D) S N) as (s1 & X1 & S1). cbn [app] in S1.
  rewrite X1, <- !app_assoc in X. clear X1 S.
  assert (H1 : fol (fun c => negb (is_dig c)) (s1 ++ k)).
  { apply nxt_fol; [intros e H; chars H|]. eapply nxt_spaced; [exact S1|reflexivity|reflexivity]. }
  apply (span_eq is_dig) in X; auto; [|reflexivity]. destruct X as [_ X].
  destruct (spaced_now _ _ _ _ _ _ S1 X eq_refl) as (s2 & -> & S2). rewrite <- app_assoc in X.
  apply (app_inj_len (tx "-") (tx "-")) in X as [_ X]; [|reflexivity].
  destruct ks as [|k1 ks]; [congruence|]. assert (K1 : is_alpha k1 = true) by (cbn [forallb] in Ds; now apply andb_prop in Ds as [? _]).
  cbn [app] in X. destruct (spaced_now _ _ _ _ _ _ S2 X (alpha_dark _ K1)) as (s3 & -> & S3). rewrite <- app_assoc in X.
  assert (Dsym : forallb is_alpha (n_sym n) = true).
  { rewrite Esym. cbn [forallb]. unfold is_alpha at 1. rewrite Cs. cbn [orb andb].
    destruct Ts as [->|(e & -> & Le)]; [reflexivity|]. apply letter_alpha in Le. cbn [forallb]. now rewrite Le. }
  apply (span_eq is_alpha (n_sym n) (k1 :: ks)) in X; auto.
  2:{ apply nxt_fol; [intros e H; chars H|]. eapply nxt_spaced; [exact S3|reflexivity|reflexivity]. }
  destruct X as [_ X]. destruct (spaced_now _ _ _ _ _ _ S3 X eq_refl) as (s4 & -> & S4). rewrite <- app_assoc in X.
  apply (app_inj_len (tx "-") (tx "-")) in X as [_ X]; [|reflexivity]. cbn [app] in X.
  destruct (spaced_now _ _ _ _ _ _ S4 X (alpha_dark _ Lc)) as (s5 & -> & S5).
  destruct (n_A n) as [|a At]; [congruence|]. cbn [app] in X. injection X as -> _.
  cbn [forallb] in DA. apply andb_prop in DA as [DA _].
  assert (Z : negb (is_dig kc) = true) by chars Lc. now rewrite DA in Z.
Qed.
Lemma compound_refuses : forall c, Forall compound_key (c_compounds c) ->
  refuses (x4chemical_compound c) (fol (fun c => negb (is_dig c))).
Proof.
  intros c K x X. destruct (one_of_result (c_compounds c) x) as [|(m & q & I & NE & E & _)]; [assumption|exfalso].
  rewrite Forall_forall in K. destruct (K m I) as (z & ks & kc & kt & -> & [Nz Dz] & _).
  apply digits_dig in Dz. destruct z as [|d z]; [congruence|]. cbn [forallb] in Dz. apply andb_prop in Dz as [D _].
  rewrite E in X. cbn [app fol] in X. now rewrite D in X.
Qed.

(** Targets and residuals. *)
Definition lits_of (l : list string) : list pe := map (fun s => Literal (lit s)) l.
Definition place (c : codes) (l : list string) : pe :=
  Or (Group (MatchFirst [x4chemical_compound c; x4nucleus]) :: lits_of l).
Lemma place_parses : forall c n l, Forall compound_key (c_compounds c) -> good_nuclide n ->
  Forall (fun s => exists d t, lit s = d :: t /\ is_alpha d = true) l ->
  parses (place c l) (nuclide_tokens n) [nuclide_tree n] (nxt nuc_stop).
Proof.
  intros c n l K G Hl s k x S F N.
  destruct (nucleus_parses n G s k x S F N) as (k' & E & N').
  exists k'. split; [|exact N']. unfold place. rewrite run_Or. cbn [map fold_left]. rewrite none_longer.
  rewrite run_Group, run_MatchFirst. cbn [first_of]. rewrite (compound_not c n s k x K G S N), E.
  change (PGroup (map PTok ([n_Z n; n_sym n; n_A n] ++ flat_map isomer_tokens (n_iso n)))) with (nuclide_tree n).
  apply fold_longer_keep. unfold lits_of. rewrite map_map. rewrite Forall_map.
  destruct G as ([NE D] & _). unfold nuclide_tokens in S. destruct (n_Z n) as [|d t]; [congruence|].
  apply digits_dig in D. cbn [forallb] in D. apply andb_prop in D as [D T].
  destruct (first_token (d :: t) _ s k x d t eq_refl (dig_dark _ D) S N) as (s' & X & _).
  eapply Forall_impl; [|exact Hl]. intros m (e & u & -> & A).
  rewrite (Literal_head e u x); [exact I|]. rewrite X. cbn [app fol].
  destruct (Ascii.eqb e d) eqn:Q; [|reflexivity]. apply Ascii.eqb_eq in Q as ->.
  assert (Z : negb (is_dig d) = true) by chars A. now rewrite D in Z.
Qed.
Lemma place_refuses : forall c l, Forall compound_key (c_compounds c) ->
  Forall (fun s => exists d t, lit s = d :: t /\ is_alpha d = true) l ->
  refuses (place c l) (fol (fun c => negb (is_alphanum c))).
Proof.
  intros c l K Hl. apply Or_refuses. apply Forall_cons.
  - apply Group_refuses, MatchFirst_refuses. apply Forall_cons; [|apply Forall_cons; [|apply Forall_nil]].
    + eapply refuses_weaken; [apply compound_refuses, K|]. intros k. apply fol_weaken. intros d H. chars H.
    + eapply refuses_weaken; [apply nucleus_refuses|]. intros k. apply fol_weaken. intros d H. chars H.
  - unfold lits_of. rewrite Forall_map. eapply Forall_impl; [|exact Hl]. intros m (e & u & -> & A).
    eapply refuses_weaken; [apply Literal_head|]. intros k. apply fol_weaken. intros d H.
    destruct (Ascii.eqb e d) eqn:Q; [|reflexivity]. apply Ascii.eqb_eq in Q as ->.
    assert (Z : is_alphanum d = true) by chars A. now rewrite Z in H.
Qed.
