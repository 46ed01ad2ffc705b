(** Lemmas on the parser elements of Model/Pyparsing.v. *)
From Coq Require Import String List Ascii NArith ZArith Bool Arith Lia.
From Verif.Model Require Import Py Particle Pyparsing.
From Verif.Spec Require Import Text Codes.
From Verif.Proofs Require Import StrLemmas.
Import ListNotations.
Local Open Scope list_scope.
Local Open Scope nat_scope.

(** * Whitespace *)

Lemma gap_white : forall c, gap c -> is_white c = true.
Proof.
  intros c H. assert (E : forall c, implb (existsb (N.eqb (N_of_ascii c)) [10; 13; 32]%N) (is_white c) = true).
  { apply forall_ascii. vm_compute. reflexivity. }
  specialize (E c). unfold gap in H.
  assert (X : existsb (N.eqb (N_of_ascii c)) [10; 13; 32]%N = true).
  { apply existsb_exists. exists (N_of_ascii c). split; [exact H|apply N.eqb_refl]. }
  rewrite X in E. exact E.
Qed.

Lemma skip_idem : forall s, skip_white (skip_white s) = skip_white s.
Proof.
  induction s as [|c s IH]; [reflexivity|]. cbn [skip_white]. destruct (is_white c) eqn:E; [exact IH|].
  cbn [skip_white]. rewrite E. reflexivity.
Qed.

Lemma skip_gap : forall w s, Forall gap w -> skip_white (w ++ s) = skip_white s.
Proof.
  induction 1 as [|c w H _ IH]; [reflexivity|]. cbn [app skip_white]. rewrite (gap_white c H). exact IH.
Qed.

Lemma skip_non : forall c s, is_white c = false -> skip_white (c :: s) = c :: s.
Proof. intros c s H. cbn [skip_white]. rewrite H. reflexivity. Qed.

Lemma skip_len : forall s, length (skip_white s) <= length s.
Proof. induction s as [|c s IH]; [auto|]. cbn [skip_white]. destruct (is_white c); cbn [length]; lia. Qed.

Lemma skip_decomp : forall s, exists w, s = w ++ skip_white s /\ Forall (fun c => is_white c = true) w.
Proof.
  induction s as [|c s [w [E F]]]; [exists []; auto|]. cbn [skip_white]. destruct (is_white c) eqn:W.
  - exists (c :: w). split; [cbn; congruence|auto].
  - exists []. auto.
Qed.

(** Where an element may start: at [y], or after the whitespace there. *)
Definition near (x y : str) : Prop := x = y \/ x = skip_white y.

Lemma near_refl : forall x, near x x. Proof. left; auto. Qed.
Lemma near_skip : forall x y, near x y -> skip_white x = skip_white y.
Proof. intros x y [->| ->]; [auto|apply skip_idem]. Qed.
Lemma near_len : forall x y, near x y -> length x <= length y.
Proof. intros x y [->| ->]; [auto|apply skip_len]. Qed.
Lemma near_skipped : forall x y, near x y -> near (skip_white x) y.
Proof. intros x y N. right. now apply near_skip. Qed.
Lemma near_skip' : forall x y, near x y -> near (skip_white x) (skip_white y).
Proof. intros x y N. left. now apply near_skip. Qed.

Lemma spaced_app : forall a b s, spaced (a ++ b) s ->
  exists s1 s2, s = s1 ++ s2 /\ spaced a s1 /\ spaced b s2.
Proof.
  induction a as [|t a IH]; intros b s H.
  - exists [], s. repeat split; [constructor|exact H].
  - cbn in H. inversion H as [|w t' ts s' W S E1 E2]; subst.
    destruct (IH _ _ S) as (s1 & s2 & -> & A & B).
    exists (w ++ t ++ s1), s2. split; [now rewrite <- !app_assoc|]. split; [now constructor|exact B].
Qed.

Lemma spaced_app_intro : forall a b s1 s2, spaced a s1 -> spaced b s2 -> spaced (a ++ b) (s1 ++ s2).
Proof.
  induction 1 as [|w t ts s W S IH]; intros B; [exact B|].
  cbn [app]. rewrite <- !app_assoc. constructor; auto.
Qed.

(** * Running *)

Lemma run_skip : forall e x, run e true true (skip_white x) = impl e true (skip_white x).
Proof. intros e x. unfold run. rewrite skip_idem. now destruct (_ && _ && _ && _). Qed.

Lemma run_inner : forall e x,
  run e true false (if callpre e && skipws e && true then skip_white x else x) = run e true true x.
Proof. intros e x. unfold run. cbn [andb]. reflexivity. Qed.

Lemma run_near : forall e x y, near x y -> callpre e = true -> skipws e = true ->
  run e true true x = run e true true y.
Proof. intros e x y N C S. unfold run. rewrite C, S. cbn [andb]. now rewrite (near_skip _ _ N). Qed.

Lemma run_pre : forall e x, callpre e = true -> skipws e = true ->
  run e true true x = impl e true (skip_white x).
Proof. intros e x C S. unfold run. now rewrite C, S. Qed.

(** [e] reads the tokens [ts] and returns [r], if what follows satisfies [F]. *)
Definition parses (e : pe) (ts : list str) (r : list ptree) (F : str -> Prop) : Prop :=
  forall s k x, spaced ts s -> F k -> near x (s ++ k) ->
  exists k', run e true true x = Some (r, k') /\ near k' k.
Definition parses_rest (l : list pe) (ts : list str) (r : list ptree) (F : str -> Prop) : Prop :=
  forall s k x, spaced ts s -> F k -> near x (s ++ k) ->
  exists k', and_rest l true x = Some (r, k') /\ near k' k.
(** [e] does not match where the text, after whitespace, satisfies [P]. *)
Definition refuses (e : pe) (P : str -> Prop) : Prop :=
  forall x, P (skip_white x) -> run e true true x = None.

(** What follows: at once, or after whitespace. *)
Definition fol (p : ascii -> bool) (k : str) : Prop := match k with [] => True | c :: _ => p c = true end.
Definition nxt (p : ascii -> bool) (k : str) : Prop := fol p (skip_white k).
Definition any (k : str) : Prop := True.

Lemma parses_weaken : forall e ts r (F G : str -> Prop), parses e ts r F -> (forall k, G k -> F k) -> parses e ts r G.
Proof. intros e ts r F G H I s k x S K N. exact (H s k x S (I k K) N). Qed.
Lemma rest_weaken : forall e ts r (F G : str -> Prop), parses_rest e ts r F -> (forall k, G k -> F k) -> parses_rest e ts r G.
Proof. intros e ts r F G H I s k x S K N. exact (H s k x S (I k K) N). Qed.

Lemma rest_nil : forall F, parses_rest [] [] [] F.
Proof. intros F s k x S _ N. inversion S; subst. exists x. split; [reflexivity|exact N]. Qed.

Lemma rest_cons : forall e l ts r F ts' r' F',
  parses e ts r F -> parses_rest l ts' r' F' ->
  (forall s k, spaced ts' s -> F' k -> F (s ++ k)) ->
  parses_rest (e :: l) (ts ++ ts') (r ++ r') F'.
Proof.
  intros e l ts r F ts' r' F' H H' C s k x S K N.
  destruct (spaced_app _ _ _ S) as (s1 & s2 & -> & S1 & S2).
  destruct (H s1 (s2 ++ k) x S1 (C _ _ S2 K)) as (k1 & E1 & N1); [now rewrite app_assoc|].
  destruct (H' s2 k k1 S2 K N1) as (k2 & E2 & N2).
  exists k2. split; [|exact N2]. cbn [and_rest]. now rewrite E1, E2.
Qed.

Lemma rest_one : forall e ts r F, parses e ts r F -> parses_rest [e] ts r F.
Proof.
  intros e ts r F H s k x S K N. destruct (H s k x S K N) as (k' & E & N').
  exists k'. split; [|exact N']. cbn [and_rest]. now rewrite E, app_nil_r.
Qed.

Lemma parses_And : forall e l ts r F ts' r' F', skipws e = true ->
  parses e ts r F -> parses_rest l ts' r' F' ->
  (forall s k, spaced ts' s -> F' k -> F (s ++ k)) ->
  parses (And e l) (ts ++ ts') (r ++ r') F'.
Proof.
  intros e l ts r F ts' r' F' W H H' C s k x S K N.
  destruct (spaced_app _ _ _ S) as (s1 & s2 & -> & S1 & S2).
  destruct (H s1 (s2 ++ k) (skip_white x) S1 (C _ _ S2 K)) as (k1 & E1 & N1).
  { rewrite app_assoc. now apply near_skipped. }
  destruct (H' s2 k k1 S2 K N1) as (k2 & E2 & N2).
  exists k2. split; [|exact N2]. rewrite run_pre by (cbn; auto). cbn [And impl].
  rewrite run_skip in E1. unfold run at 1. cbn [andb]. now rewrite E1, E2.
Qed.

Lemma And_refuses : forall e l P, skipws e = true -> refuses e P -> refuses (And e l) P.
Proof.
  intros e l P W H x X. rewrite run_pre by (cbn; auto). cbn [And impl].
  specialize (H (skip_white x)). rewrite skip_idem, run_skip in H. unfold run at 1. cbn [andb].
  now rewrite (H X).
Qed.

Lemma refuses_weaken : forall e (P Q : str -> Prop), refuses e P -> (forall k, Q k -> P k) -> refuses e Q.
Proof. intros e P Q H I x X. exact (H x (I _ X)). Qed.

Lemma run_Group : forall e x, run (Group e) true true x =
  match run e true true x with Some (t, s') => Some ([PGroup t], s') | None => None end.
Proof. intros e x. unfold run at 1. cbn [Group callpre skipws impl]. change (true && ?a) with a. rewrite run_inner. reflexivity. Qed.
Lemma run_Suppress : forall e x, run (Suppress e) true true x =
  match run e true true x with Some (_, s') => Some ([], s') | None => None end.
Proof. intros e x. unfold run at 1. cbn [Suppress callpre skipws impl]. change (true && ?a) with a. rewrite run_inner. reflexivity. Qed.
Lemma run_OptionalD : forall e d x, run (OptionalD e d) true true x =
  match run e true true x with
  | Some r => Some r
  | None => Some (d, if callpre e && skipws e && true then skip_white x else x)
  end.
Proof. intros e d x. unfold run at 1. cbn [OptionalD callpre skipws impl]. change (true && ?a) with a. rewrite run_inner. reflexivity. Qed.
Lemma run_ZeroOrMore : forall e x, run (ZeroOrMore e) true true x =
  match run e true true x with
  | Some (t, s') => let '(t', s'') := loop (length s') e true s' in Some (t ++ t', s'')
  | None => Some ([], if callpre e && skipws e && true then skip_white x else x)
  end.
Proof. intros e x. unfold run at 1. cbn [ZeroOrMore callpre skipws impl]. change (true && ?a) with a. rewrite run_inner. reflexivity. Qed.
Lemma run_OneOrMore : forall e x, run (OneOrMore e) true true x =
  match run e true true x with
  | Some (t, s') => let '(t', s'') := loop (length s') e true s' in Some (t ++ t', s'')
  | None => None
  end.
Proof. intros e x. unfold run at 1. cbn [OneOrMore callpre skipws impl]. change (true && ?a) with a. rewrite run_inner. reflexivity. Qed.

Lemma Group_parses : forall e ts r F, parses e ts r F -> parses (Group e) ts [PGroup r] F.
Proof.
  intros e ts r F H s k x S K N. destruct (H s k x S K N) as (k' & E & N').
  exists k'. split; [|exact N']. now rewrite run_Group, E.
Qed.
Lemma Suppress_parses : forall e ts r F, parses e ts r F -> parses (Suppress e) ts [] F.
Proof.
  intros e ts r F H s k x S K N. destruct (H s k x S K N) as (k' & E & N').
  exists k'. split; [|exact N']. now rewrite run_Suppress, E.
Qed.
Lemma Group_refuses : forall e P, refuses e P -> refuses (Group e) P.
Proof. intros e P H x X. now rewrite run_Group, (H x X). Qed.
Lemma Suppress_refuses : forall e P, refuses e P -> refuses (Suppress e) P.
Proof. intros e P H x X. now rewrite run_Suppress, (H x X). Qed.
Lemma Optional_parses : forall e ts r F, parses e ts r F -> parses (Optional e) ts r F.
Proof.
  intros e ts r F H s k x S K N. destruct (H s k x S K N) as (k' & E & N').
  exists k'. split; [|exact N']. unfold Optional. now rewrite run_OptionalD, E.
Qed.
Lemma near_if : forall (b : bool) x k, near x k -> near (if b then skip_white x else x) k.
Proof. intros [] x k N; [now apply near_skipped|exact N]. Qed.
Lemma Optional_none : forall e (P : str -> Prop), refuses e P -> parses (Optional e) [] [] (fun k => P (skip_white k)).
Proof.
  intros e P H s k x S K N. inversion S; subst. cbn [app] in N. unfold Optional. rewrite run_OptionalD.
  rewrite H by (rewrite (near_skip _ _ N); exact K). eexists. split; [reflexivity|]. now apply near_if.
Qed.
Lemma ZeroOrMore_none : forall e (P : str -> Prop), refuses e P -> parses (ZeroOrMore e) [] [] (fun k => P (skip_white k)).
Proof.
  intros e P H s k x S K N. inversion S; subst. cbn [app] in N. rewrite run_ZeroOrMore.
  rewrite H by (rewrite (near_skip _ _ N); exact K). eexists. split; [reflexivity|]. now apply near_if.
Qed.

(** Repetition: items that consume something, then something the element refuses. *)
Lemma loop_stop : forall n e x, run e true true x = None -> loop n e true x = ([], x).
Proof. intros [|n] e x H; [reflexivity|]. cbn [loop]. now rewrite H. Qed.


(** The characters that are not whitespace. *)
Definition dark (s : str) : nat := length (filter (fun c => negb (is_white c)) s).
Lemma dark_app : forall a b, dark (a ++ b) = dark a + dark b.
Proof. intros a b. unfold dark. now rewrite filter_app, app_length. Qed.
Lemma dark_skip : forall s, dark (skip_white s) = dark s.
Proof.
  induction s as [|c s IH]; [reflexivity|]. cbn [skip_white]. destruct (is_white c) eqn:E; [|reflexivity].
  rewrite IH. unfold dark. cbn [filter]. now rewrite E.
Qed.
Lemma dark_len : forall s, dark s <= length s.
Proof.
  induction s as [|c s IH]; [auto|]. unfold dark in *. cbn [filter]. destruct (negb (is_white c)); cbn [length]; lia.
Qed.
Lemma dark_near : forall x y, near x y -> dark x = dark y.
Proof. intros x y [->| ->]; [reflexivity|apply dark_skip]. Qed.

(** A sequence of tokens that starts with a character. *)
Definition tokened (ts : list str) : Prop := exists c t l, ts = (c :: t) :: l /\ is_white c = false.

Lemma tokened_dark : forall ts s, tokened ts -> spaced ts s -> 1 <= dark s.
Proof.
  intros ts s (c & t & l & -> & W) S. inversion S; subst. rewrite !dark_app.
  unfold dark at 2. cbn [filter]. rewrite W. cbn [negb length]. lia.
Qed.

Lemma fol_spaced : forall p ts s k, tokened ts -> spaced ts s ->
  (forall c, is_white c = true -> p c = true) ->
  (forall c t l, ts = (c :: t) :: l -> p c = true) -> fol p (s ++ k).
Proof.
  intros p ts s k (c & t & l & -> & W) S PW PC. inversion S; subst.
  match goal with H : Forall gap ?w |- _ => destruct H as [|d w' G _] end.
  - cbn [app fol]. apply (PC c t l eq_refl).
  - cbn [app fol]. apply PW, gap_white, G.
Qed.
Lemma skip_spaced : forall c t l s k, is_white c = false -> spaced ((c :: t) :: l) s ->
  exists s', skip_white (s ++ k) = c :: t ++ s' ++ k /\ spaced l s'.
Proof.
  intros c t l s k W S. inversion S; subst. eexists. split; [|eassumption].
  rewrite <- !app_assoc. rewrite skip_gap by assumption. cbn [app]. rewrite skip_non by assumption.
  now rewrite <- ?app_assoc.
Qed.
Lemma nxt_spaced : forall p c t l s k, spaced ((c :: t) :: l) s -> is_white c = false -> p c = true -> nxt p (s ++ k).
Proof.
  intros p c t l s k S W PC. unfold nxt. destruct (skip_spaced c t l s k W S) as (s' & -> & _). exact PC.
Qed.

(** Items one after the other; each is followed by the remaining ones and by something [e]
    refuses. *)
Inductive chain (e : pe) (G : str -> Prop) : list (list str * list ptree) -> Prop :=
| chain_nil : chain e G []
| chain_cons : forall ts r F rest, tokened ts -> parses e ts r F ->
    (forall s k, spaced (concat (map fst rest)) s -> G (skip_white k) -> F (s ++ k)) ->
    chain e G rest -> chain e G ((ts, r) :: rest).

Lemma chain_uniform : forall e (F G : str -> Prop) items,
  Forall (fun i => tokened (fst i) /\ parses e (fst i) (snd i) F) items ->
  (forall k, G (skip_white k) -> F k) ->
  (forall i s k, In i items -> spaced (fst i) s -> F (s ++ k)) ->
  chain e G items.
Proof.
  intros e F G items I GF C. induction items as [|[ts r] items IH]; [constructor|].
  inversion I as [|? ? [T H] I']; subst. apply chain_cons with (F := F); auto.
  - intros s k S K. destruct items as [|j items]; [inversion S; subst; apply GF, K|].
    cbn [map concat] in S. destruct (spaced_app _ _ _ S) as (a & b & -> & Sa & Sb).
    rewrite <- app_assoc. apply (C j); [right; now left|exact Sa].
  - apply IH; auto. intros i s k Hi. apply C. now right.
Qed.

Lemma chain_dark : forall e G items s, chain e G items -> spaced (concat (map fst items)) s ->
  length items <= dark s.
Proof.
  intros e G items s I. revert s. induction I as [|ts r F rest T H C I IH]; intros s S; [cbn; lia|].
  cbn [map concat fst] in S. destruct (spaced_app _ _ _ S) as (s1 & s2 & -> & S1 & S2).
  pose proof (tokened_dark _ _ T S1). pose proof (IH s2 S2). rewrite dark_app. cbn [length]. lia.
Qed.

Lemma loop_items : forall e (G : str -> Prop) items, refuses e G -> chain e G items ->
  forall s k x n, spaced (concat (map fst items)) s -> G (skip_white k) -> near x (s ++ k) ->
  length items <= n ->
  exists k', loop n e true x = (concat (map snd items), k') /\ near k' k.
Proof.
  intros e G items R I. induction I as [|ts r F rest T H C I IH]; intros s k x n S K N L.
  - inversion S; subst. exists x. split; [|exact N]. apply loop_stop, R. rewrite (near_skip _ _ N). exact K.
  - cbn [map concat fst] in S. destruct (spaced_app _ _ _ S) as (s1 & s2 & -> & S1 & S2).
    destruct n as [|n]; [cbn [length] in L; lia|].
    destruct (H s1 (s2 ++ k) x S1 (C _ _ S2 K)) as (k1 & E1 & N1); [now rewrite app_assoc|].
    destruct (IH s2 k k1 n S2 K N1) as (k2 & E2 & N2); [cbn [length] in L; lia|].
    exists k2. split; [|exact N2]. cbn [loop map concat snd]. now rewrite E1, E2.
Qed.

Lemma ZeroOrMore_parses : forall e (G : str -> Prop) items, refuses e G -> chain e G items ->
  parses (ZeroOrMore e) (concat (map fst items)) (concat (map snd items)) (fun k => G (skip_white k)).
Proof.
  intros e G items R I. destruct I as [|ts r F rest T H C I]; [exact (ZeroOrMore_none e G R)|].
  intros s k x S K N. cbn [map concat fst] in S. destruct (spaced_app _ _ _ S) as (s1 & s2 & -> & S1 & S2).
  destruct (H s1 (s2 ++ k) x S1 (C _ _ S2 K)) as (k1 & E1 & N1); [now rewrite app_assoc|].
  destruct (loop_items e G rest R I s2 k k1 (length k1) S2 K N1) as (k2 & E2 & N2).
  { pose proof (chain_dark _ _ _ _ I S2). pose proof (dark_len k1). rewrite (dark_near _ _ N1), dark_app in *. lia. }
  exists k2. split; [|exact N2]. rewrite run_ZeroOrMore, E1, E2. reflexivity.
Qed.

(** * Tokens *)

Lemma prefix_app : forall m s, is_prefix m (m ++ s) = true.
Proof. induction m as [|c m IH]; intros s; [reflexivity|]. cbn [app is_prefix]. now rewrite Ascii.eqb_refl, IH. Qed.
Lemma skipn_app_len : forall (A : Type) (m s : list A), skipn (length m) (m ++ s) = s.
Proof. induction m as [|c m IH]; intros s; [reflexivity|]. cbn. apply IH. Qed.
Lemma prefix_spec : forall m s, is_prefix m s = true -> exists t, s = m ++ t.
Proof.
  induction m as [|c m IH]; intros s H; [exists s; reflexivity|].
  destruct s as [|d s]; [discriminate|]. cbn [is_prefix] in H. apply andb_prop in H as [E H].
  apply Ascii.eqb_eq in E as ->. destruct (IH s H) as [t ->]. exists t. reflexivity.
Qed.

Lemma Literal_parses : forall c t, is_white c = false -> parses (Literal (c :: t)) [c :: t] [PTok (c :: t)] any.
Proof.
  intros c t W s k x S _ N. rewrite run_pre by reflexivity. rewrite (near_skip _ _ N).
  destruct (skip_spaced c t [] s k W S) as (s' & E & S'). inversion S'; subst. rewrite E.
  cbn [app]. cbn [Literal impl]. change (c :: t ++ k) with ((c :: t) ++ k).
  rewrite prefix_app, skipn_app_len. exists k. split; [reflexivity|apply near_refl].
Qed.
Lemma Literal_refuses : forall m, refuses (Literal m) (fun y => is_prefix m y = false).
Proof.
  intros m x H. rewrite run_pre by reflexivity. cbn [Literal impl]. rewrite H. now destruct m.
Qed.
(** A literal whose first character is not the next one. *)
Lemma Literal_head : forall c m, refuses (Literal (c :: m)) (fol (fun d => negb (Ascii.eqb c d))).
Proof.
  intros c m. eapply refuses_weaken; [apply Literal_refuses|]. intros [|d k] H; [reflexivity|].
  cbn [fol] in H. cbn [is_prefix]. apply negb_true_iff in H. now rewrite H.
Qed.

Lemma span_app : forall p w s, forallb p w = true -> fol (fun c => negb (p c)) s -> span p (w ++ s) = (w, s).
Proof.
  induction w as [|c w IH]; intros s W H.
  - destruct s as [|d s]; [reflexivity|]. cbn [app span]. cbn [fol] in H. apply negb_true_iff in H. now rewrite H.
  - cbn [forallb] in W. apply andb_prop in W as [Wc W]. cbn [app span]. rewrite Wc, (IH s W H). reflexivity.
Qed.

Lemma Word2_parses : forall ini body c t, is_white c = false -> ini c = true -> forallb body t = true ->
  parses (Word2 ini body) [c :: t] [PTok (c :: t)] (fol (fun d => negb (body d))).
Proof.
  intros ini body c t W I B s k x S K N. rewrite run_pre by reflexivity. rewrite (near_skip _ _ N).
  destruct (skip_spaced c t [] s k W S) as (s' & E & S'). inversion S'; subst. rewrite E.
  cbn [app]. cbn [Word2 impl]. rewrite I, (span_app _ _ _ B K). exists k. split; [reflexivity|apply near_refl].
Qed.
Lemma Word2_refuses : forall ini body, refuses (Word2 ini body) (fol (fun d => negb (ini d))).
Proof.
  intros ini body x H. rewrite run_pre by reflexivity. cbn [Word2 impl].
  destruct (skip_white x) as [|c s]; [reflexivity|]. cbn [fol] in H. apply negb_true_iff in H. now rewrite H.
Qed.
Lemma WordMax_parses : forall ini body mx c t, is_white c = false -> ini c = true -> forallb body t = true ->
  S (length t) <= mx -> parses (WordMax ini body mx) [c :: t] [PTok (c :: t)] (fol (fun d => negb (body d))).
Proof.
  intros ini body mx c t W I B L s k x S K N. rewrite run_pre by reflexivity. rewrite (near_skip _ _ N).
  destruct (skip_spaced c t [] s k W S) as (s' & E & S'). inversion S'; subst. rewrite E.
  cbn [app]. cbn [WordMax impl]. rewrite I, (span_app _ _ _ B K).
  destruct (Nat.leb_spec (Datatypes.S (length t)) mx); [|lia]. exists k. split; [reflexivity|apply near_refl].
Qed.
Lemma WordMax_refuses : forall ini body mx, refuses (WordMax ini body mx) (fol (fun d => negb (ini d))).
Proof.
  intros ini body mx x H. rewrite run_pre by reflexivity. cbn [WordMax impl].
  destruct (skip_white x) as [|c s]; [reflexivity|]. cbn [fol] in H. apply negb_true_iff in H. now rewrite H.
Qed.

(** * Alternatives *)

Lemma run_Or : forall l x, run (Or l) true true x = fold_left longer (map (fun e => run e true true x) l) None.
Proof. reflexivity. Qed.
Lemma run_MatchFirst : forall l x, run (MatchFirst l) true true x = first_of l true x.
Proof. reflexivity. Qed.

Lemma longer_none : forall r, longer r None = r. Proof. intros [[]|]; reflexivity. Qed.
Lemma none_longer : forall r, longer None r = r. Proof. reflexivity. Qed.

Lemma Or_refuses : forall l P, Forall (fun e => refuses e P) l -> refuses (Or l) P.
Proof.
  intros l P H x X. rewrite run_Or. induction H as [|e l He _ IH]; [reflexivity|].
  cbn [map fold_left]. rewrite (He x X). exact IH.
Qed.
Lemma MatchFirst_refuses : forall l P, Forall (fun e => refuses e P) l -> refuses (MatchFirst l) P.
Proof.
  intros l P H x X. rewrite run_MatchFirst. induction H as [|e l He _ IH]; [reflexivity|].
  cbn [first_of]. rewrite (He x X). exact IH.
Qed.

(** A result at least as long as all the others, which come later or are shorter. *)
Definition shorter (r : presult) (n : nat) : Prop := match r with Some (_, k) => n <= length k | None => True end.
Definition much_shorter (r : presult) (n : nat) : Prop := match r with Some (_, k) => n < length k | None => True end.

Lemma fold_longer_keep : forall rs t k, Forall (fun r => shorter r (length k)) rs ->
  fold_left longer rs (Some (t, k)) = Some (t, k).
Proof.
  induction rs as [|r rs IH]; intros t k H; [reflexivity|]. inversion H as [|? ? Hr Hrs]; subst.
  cbn [fold_left]. replace (longer (Some (t, k)) r) with (Some (t, k)); [now apply IH|].
  destruct r as [[t' k']|]; [|reflexivity]. cbn [longer]. cbn [shorter] in Hr.
  destruct (Nat.ltb_spec (length k') (length k)); [lia|reflexivity].
Qed.
Lemma fold_longer_pick : forall before t k after r0,
  much_shorter r0 (length k) -> Forall (fun r => much_shorter r (length k)) before ->
  Forall (fun r => shorter r (length k)) after ->
  fold_left longer (before ++ Some (t, k) :: after) r0 = Some (t, k).
Proof.
  induction before as [|r before IH]; intros t k after r0 R0 B A.
  - cbn [app fold_left]. replace (longer r0 (Some (t, k))) with (Some (t, k)); [now apply fold_longer_keep|].
    destruct r0 as [[t' k']|]; [|reflexivity]. cbn [longer]. cbn [much_shorter] in R0.
    destruct (Nat.ltb_spec (length k) (length k')); [reflexivity|lia].
  - inversion B as [|? ? Hr Hb]; subst. cbn [app fold_left]. apply IH; auto.
    destruct r0 as [[t0 k0]|]; destruct r as [[t1 k1]|]; cbn [longer much_shorter] in *; auto.
    destruct (length k1 <? length k0); auto.
Qed.

(** * What an element cannot read past *)

(** Reading never goes past the character [c]. *)
Definition keeps (c : ascii) (e : pe) : Prop :=
  forall ws pre u v t r, run e ws pre (u ++ c :: v) = Some (t, r) -> exists u', r = u' ++ c :: v.

Lemma keeps_impl : forall c e, is_white c = false ->
  (forall ws u v t r, impl e ws (u ++ c :: v) = Some (t, r) -> exists u', r = u' ++ c :: v) -> keeps c e.
Proof.
  intros c e W H ws pre u v t r R. unfold run in R.
  destruct (pre && callpre e && skipws e && ws).
  - assert (E : exists u', skip_white (u ++ c :: v) = u' ++ c :: v).
    { clear R. induction u as [|d u IH]; cbn [app skip_white].
      - rewrite W. exists []. reflexivity.
      - destruct (is_white d); [exact IH|]. exists (d :: u). reflexivity. }
    destruct E as [u' E]. rewrite E in R. exact (H _ _ _ _ _ R).
  - exact (H _ _ _ _ _ R).
Qed.
Lemma keeps_use : forall c e ws u v t r, keeps c e -> impl e ws (u ++ c :: v) = Some (t, r) -> exists u', r = u' ++ c :: v.
Proof. intros c e ws u v t r K H. apply (K ws false u v t r). exact H. Qed.

Lemma keeps_Literal : forall c m, is_white c = false -> cmem c m = false -> keeps c (Literal m).
Proof.
  intros c m W M. apply keeps_impl; [exact W|]. intros ws u v t r H. cbn [Literal impl] in H.
  destruct m as [|m1 m2]; [discriminate|]. destruct (is_prefix (m1 :: m2) (u ++ c :: v)) eqn:P; [|discriminate].
  injection H as _ <-. apply prefix_spec in P as [q P].
  assert (Q : exists u', u = (m1 :: m2) ++ u').
  { assert (G : forall (m u : str), cmem c m = false -> u ++ c :: v = m ++ q -> exists u', u = m ++ u').
    { clear. induction m as [|d m IH]; intros u M P; [exists u; reflexivity|].
      destruct u as [|e u].
      - cbn [app] in P. injection P as -> _. unfold cmem in M. cbn [existsb] in M. now rewrite Ascii.eqb_refl in M.
      - cbn [app] in P. injection P as -> P. unfold cmem in M. cbn [existsb] in M.
        apply orb_false_elim in M as [_ M]. destruct (IH u M P) as [u' ->]. exists u'. reflexivity. }
    exact (G (m1 :: m2) u M P). }
  destruct Q as [u' ->]. exists u'. rewrite <- app_assoc. exact (skipn_app_len _ (m1 :: m2) (u' ++ c :: v)).
Qed.
Lemma span_keeps : forall p c u v a b, p c = false -> span p (u ++ c :: v) = (a, b) -> exists u', b = u' ++ c :: v.
Proof.
  intros p c u v. induction u as [|d u IH]; intros a b P H; cbn [app span] in H.
  - rewrite P in H. injection H as _ <-. exists []. reflexivity.
  - destruct (p d); [|injection H as _ <-; exists (d :: u); reflexivity].
    destruct (span p (u ++ c :: v)) as [a' b'] eqn:E. injection H as _ <-. exact (IH a' b' P eq_refl).
Qed.
Lemma keeps_Word2 : forall c ini body, is_white c = false -> ini c = false -> body c = false -> keeps c (Word2 ini body).
Proof.
  intros c ini body W I B. apply keeps_impl; [exact W|]. intros ws u v t r H. cbn [Word2 impl] in H.
  destruct u as [|d u]; cbn [app] in H; [now rewrite I in H|].
  destruct (ini d); [|discriminate]. destruct (span body (u ++ c :: v)) as [a b] eqn:E.
  injection H as _ <-. exact (span_keeps _ _ _ _ _ _ B E).
Qed.
Lemma keeps_rest : forall c l ws u v t r, Forall (keeps c) l -> and_rest l ws (u ++ c :: v) = Some (t, r) ->
  exists u', r = u' ++ c :: v.
Proof.
  intros c l ws u v t r K. revert u t r. induction K as [|e l Ke _ IH]; intros u t r H; cbn [and_rest] in H.
  - injection H as _ <-. exists u. reflexivity.
  - destruct (run e ws true (u ++ c :: v)) as [[t1 r1]|] eqn:E; [|discriminate].
    destruct (Ke _ _ _ _ _ _ E) as [u1 ->].
    destruct (and_rest l ws (u1 ++ c :: v)) as [[t2 r2]|] eqn:E2; [|discriminate].
    injection H as _ <-. exact (IH _ _ _ E2).
Qed.
Lemma keeps_And : forall c e l, is_white c = false -> keeps c e -> Forall (keeps c) l -> keeps c (And e l).
Proof.
  intros c e l W Ke Kl. apply keeps_impl; [exact W|]. intros ws u v t r H. cbn [And impl] in H.
  destruct (run e ws false (u ++ c :: v)) as [[t1 r1]|] eqn:E; [|discriminate].
  destruct (Ke _ _ _ _ _ _ E) as [u1 ->].
  destruct (and_rest l ws (u1 ++ c :: v)) as [[t2 r2]|] eqn:E2; [|discriminate].
  injection H as _ <-. exact (keeps_rest _ _ _ _ _ _ _ Kl E2).
Qed.
Lemma keeps_Or : forall c l, is_white c = false -> Forall (keeps c) l -> keeps c (Or l).
Proof.
  intros c l W K. apply keeps_impl; [exact W|]. intros ws u v t r H. cbn [Or impl] in H.
  assert (G : forall r0, (forall t0 k0, r0 = Some (t0, k0) -> exists u', k0 = u' ++ c :: v) ->
            forall t r, fold_left longer (map (fun e => run e ws true (u ++ c :: v)) l) r0 = Some (t, r) ->
            exists u', r = u' ++ c :: v).
  { clear H t r. induction K as [|e l Ke _ IH]; intros r0 R0 t r H; cbn [map fold_left] in H.
    - exact (R0 _ _ H).
    - refine (IH _ _ t r H). intros t0 k0 E0.
      destruct (run e ws true (u ++ c :: v)) as [[t1 k1]|] eqn:E1.
      + destruct r0 as [[t2 k2]|]; cbn [longer] in E0.
        * destruct (length k1 <? length k2); injection E0 as <- <-; [exact (Ke _ _ _ _ _ _ E1)|exact (R0 _ _ eq_refl)].
        * injection E0 as <- <-. exact (Ke _ _ _ _ _ _ E1).
      + rewrite longer_none in E0. exact (R0 _ _ E0). }
  apply (G None) in H; [exact H|discriminate].
Qed.
Lemma keeps_Suppress : forall c e, is_white c = false -> keeps c e -> keeps c (Suppress e).
Proof.
  intros c e W K. apply keeps_impl; [exact W|]. intros ws u v t r H. cbn [Suppress impl] in H.
  destruct (run e ws false (u ++ c :: v)) as [[t1 r1]|] eqn:E; [|discriminate].
  injection H as _ <-. exact (K _ _ _ _ _ _ E).
Qed.
Lemma keeps_loop : forall c e ws v n u t r, keeps c e -> loop n e ws (u ++ c :: v) = (t, r) -> exists u', r = u' ++ c :: v.
Proof.
  intros c e ws v n. induction n as [|n IH]; intros u t r K H; cbn [loop] in H.
  - injection H as _ <-. exists u. reflexivity.
  - destruct (run e ws true (u ++ c :: v)) as [[t1 r1]|] eqn:E; [|injection H as _ <-; exists u; reflexivity].
    destruct (K _ _ _ _ _ _ E) as [u1 ->]. destruct (loop n e ws (u1 ++ c :: v)) as [t2 r2] eqn:E2.
    injection H as _ <-. exact (IH _ _ _ K E2).
Qed.
Lemma keeps_ZeroOrMore : forall c e, is_white c = false -> keeps c e -> keeps c (ZeroOrMore e).
Proof.
  intros c e W K. apply keeps_impl; [exact W|]. intros ws u v t r H. cbn [ZeroOrMore impl] in H.
  destruct (run e ws false (u ++ c :: v)) as [[t1 r1]|] eqn:E; [|injection H as _ <-; exists u; reflexivity].
  destruct (K _ _ _ _ _ _ E) as [u1 ->].
  destruct (loop (length (u1 ++ c :: v)) e ws (u1 ++ c :: v)) as [t2 r2] eqn:E2.
  injection H as _ <-. exact (keeps_loop _ _ _ _ _ _ _ _ K E2).
Qed.
