(** Lemmas on nested parentheses and comma separated lists (references and authors). *)
From Coq Require Import String List Ascii NArith ZArith Bool Arith Lia.
From Verif.Model Require Import Py Particle Pyparsing Grammars.
From Verif.Spec Require Import Text Codes.
From Verif.Proofs Require Import StrLemmas ParseLemmas GrammarFields.
Import ListNotations.
Local Open Scope list_scope.
Local Open Scope nat_scope.

(** * Quotes *)

(** At most one quotation mark of each kind. *)
Definition quiet (s : str) : Prop := forall q, q = ch 34 \/ q = ch 39 -> count_occ ascii_dec s q <= 1.

Lemma quiet_suffix : forall a s, quiet (a ++ s) -> quiet s.
Proof. intros a s H q Q. specialize (H q Q). rewrite count_occ_app in H. lia. Qed.
Lemma quiet_cons : forall c s, quiet (c :: s) -> quiet s.
Proof. intros c s H. exact (quiet_suffix [c] s H). Qed.
Lemma quiet_skip : forall s, quiet s -> quiet (skip_white s).
Proof. intros s H. destruct (skip_decomp s) as (w & E & _). rewrite E in H. now apply quiet_suffix in H. Qed.
Lemma quiet_near : forall x y, near x y -> quiet y -> quiet x.
Proof. intros x y [->| ->] H; [exact H|now apply quiet_skip]. Qed.

Lemma span_join : forall p s, fst (span p s) ++ snd (span p s) = s.
Proof.
  induction s as [|c s IH]; [reflexivity|]. cbn [span]. destruct (p c); [|reflexivity].
  destruct (span p s) as [a b]. cbn [fst snd app] in *. now rewrite IH.
Qed.

Lemma quoted_body_join : forall n q s, fst (quoted_body n q s) ++ snd (quoted_body n q s) = s.
Proof.
  induction n as [|n IH]; intros q s; [reflexivity|].
  destruct s as [|c s]; [reflexivity|]. cbn [quoted_body].
  destruct (Ascii.eqb c q).
  - destruct s as [|d s]; [reflexivity|]. destruct (Ascii.eqb d q); [|reflexivity].
    specialize (IH q s). destruct (quoted_body n q s) as [a b]. cbn [fst snd app] in *. now rewrite IH.
  - destruct (Ascii.eqb c "\"%char).
    + destruct s as [|d s]; [reflexivity|]. destruct (Ascii.eqb d "x"%char).
      * pose proof (span_join is_hex s) as J. destruct (span is_hex s) as [[|h hs] r]; [reflexivity|].
        specialize (IH q r). destruct (quoted_body n q r) as [a b]. cbn [fst snd app] in *.
        rewrite <- J, <- IH. rewrite <- ?app_assoc. reflexivity.
      * specialize (IH q s). destruct (quoted_body n q s) as [a b]. cbn [fst snd app] in *. now rewrite IH.
    + destruct (Ascii.eqb c nl || Ascii.eqb c cr); [reflexivity|].
      specialize (IH q s). destruct (quoted_body n q s) as [a b]. cbn [fst snd app] in *. now rewrite IH.
Qed.

Lemma quote_fails : forall q s ws pre, count_occ ascii_dec s q <= 1 ->
  run (And (QuoteStart q) [Literal [q]]) false (pre : bool) s = None \/ ws = true.
Proof.
  intros q s ws pre H. left. unfold run. rewrite !andb_false_r. cbn [And impl]. unfold run at 1. cbn [andb].
  cbn [QuoteStart impl]. destruct s as [|c s]; [reflexivity|].
  destruct (Ascii.eqb c q) eqn:E; [|reflexivity]. apply Ascii.eqb_eq in E as ->.
  pose proof (quoted_body_join (length s) q s) as J.
  destruct (quoted_body (length s) q s) as [a b]. cbn [fst snd] in J. cbn [and_rest].
  unfold run. rewrite !andb_false_r. cbn [Literal impl]. destruct (is_prefix [q] b) eqn:P; [|reflexivity].
  apply prefix_spec in P as (t & ->). exfalso. rewrite <- J in H.
  cbn [count_occ] in H. destruct (ascii_dec q q) as [_|N]; [|congruence].
  rewrite count_occ_app in H. cbn [app count_occ] in H. destruct (ascii_dec q q) as [_|N]; [|congruence]. lia.
Qed.

Lemma quoted_fails : forall s ws, quiet s -> impl quotedString ws s = None.
Proof.
  intros s ws H. unfold quotedString. cbn [Combine impl]. unfold run. rewrite andb_false_r.
  cbn [andb MatchFirst impl first_of].
  destruct (quote_fails (ch 34) s false true) as [-> |]; [apply H; auto| |discriminate].
  destruct (quote_fails (ch 39) s false true) as [-> |]; [apply H; auto| |discriminate].
  reflexivity.
Qed.
Lemma quoted_run : forall x, quiet x -> run quotedString true true x = None.
Proof. intros x H. unfold run. cbn [quotedString Combine callpre skipws andb]. apply quoted_fails. now apply quiet_skip. Qed.
Lemma quoted_run_false : forall x b, quiet x -> run quotedString false b x = None.
Proof. intros x b H. unfold run. rewrite !andb_false_r. now apply quoted_fails. Qed.

(** * Words inside parentheses *)

Definition nested_stop (c : ascii) : bool := Ascii.eqb c "("%char || Ascii.eqb c ")"%char || is_white c.
(** Words: no whitespace of any kind, no parentheses. *)
Definition wordy (c : ascii) : Prop := nested_stop c = false /\ is_space c = false.

Definition content_char : pe := And (NotAny quotedString) [CharNotIn nested_stop].
Lemma content_step : forall c s b, quiet (c :: s) -> nested_stop c = false ->
  run content_char false b (c :: s) = Some ([PTok [c]], s).
Proof.
  intros c s b Q W. unfold run. rewrite !andb_false_r. unfold content_char. cbn [And impl].
  unfold run at 1. cbn [andb NotAny impl]. rewrite quoted_run_false by assumption. cbn [is_some].
  cbn [and_rest]. unfold run. rewrite !andb_false_r. cbn [CharNotIn impl]. now rewrite W.
Qed.
Lemma content_stop : forall k b, quiet k -> fol nested_stop k -> run content_char false b k = None.
Proof.
  intros k b Q F. unfold run. rewrite !andb_false_r. unfold content_char. cbn [And impl].
  unfold run at 1. cbn [andb NotAny impl]. rewrite quoted_run_false by assumption. cbn [is_some].
  cbn [and_rest]. unfold run. rewrite !andb_false_r. cbn [CharNotIn impl].
  destruct k as [|c k]; [reflexivity|]. cbn [fol] in F. now rewrite F.
Qed.
Lemma content_loop : forall w k n, quiet (w ++ k) -> Forall (fun c => nested_stop c = false) w ->
  fol nested_stop k -> length w <= n ->
  loop n content_char false (w ++ k) = (map (fun c => PTok [c]) w, k).
Proof.
  induction w as [|c w IH]; intros k n Q W F L.
  - cbn [app map]. destruct n; [reflexivity|]. cbn [loop]. now rewrite content_stop.
  - inversion W; subst. cbn [length] in L. destruct n; [lia|]. cbn [app loop].
    rewrite content_step by assumption. rewrite IH; [reflexivity|now apply quiet_cons in Q|assumption..|lia].
Qed.
Lemma flat_chars : forall w, concat (map flat (map (fun c => PTok [c]) w)) = w.
Proof. induction w as [|c w IH]; [reflexivity|]. cbn. now rewrite IH. Qed.
Lemma strip_wordy : forall w, Forall wordy w -> strip w = w.
Proof.
  intros w H. assert (L : forall w, Forall wordy w -> lstrip w = w).
  { intros v [|c v' [_ S] _]; [reflexivity|]. cbn [lstrip]. now rewrite S. }
  unfold strip, rstrip. rewrite (L _ H), L; [apply rev_involutive|now apply Forall_rev].
Qed.

Lemma content_word : forall c w k ws, quiet (c :: w ++ k) -> Forall wordy (c :: w) -> fol nested_stop k ->
  impl nested_content ws (c :: w ++ k) = Some ([PTok (c :: w)], k).
Proof.
  intros c w k ws Q W F. unfold nested_content. cbn [strip_action impl Combine].
  unfold run. cbn [andb OneOrMore impl]. fold content_char.
  change (fun c0 => Ascii.eqb c0 "(" || Ascii.eqb c0 ")" || is_white c0) with nested_stop.
  fold content_char. inversion W as [|? ? [W1 _] W2]; subst.
  rewrite content_step by assumption.
  rewrite content_loop; [|now apply quiet_cons in Q|eapply Forall_impl; [|exact W2]; now intros d [D _]|assumption|rewrite app_length; lia].
  cbn [app map concat flat]. rewrite flat_chars. now rewrite strip_wordy.
Qed.
Lemma content_refuses : forall x, quiet x -> fol (fun c => nested_stop c) (skip_white x) -> run nested_content true true x = None.
Proof.
  intros x Q F. unfold run. unfold nested_content. cbn [strip_action callpre skipws Combine andb impl].
  unfold run. cbn [andb OneOrMore impl].
  change (fun c0 => Ascii.eqb c0 "(" || Ascii.eqb c0 ")" || is_white c0) with nested_stop.
  fold content_char. rewrite content_stop; [reflexivity|now apply quiet_skip|exact F].
Qed.

(** * Steps of a repetition *)

Inductive steps (e : pe) : str -> list (list ptree) -> str -> Prop :=
| steps_end : forall x, run e true true x = None -> steps e x [] x
| steps_one : forall x t x' ts k, run e true true x = Some (t, x') -> steps e x' ts k -> steps e x (t :: ts) k.
Lemma steps_loop : forall e x ts k, steps e x ts k -> forall n, length ts <= n ->
  loop n e true x = (concat ts, k).
Proof.
  induction 1 as [x H|x t x' ts k H S IH]; intros n L.
  - now rewrite loop_stop.
  - cbn [length] in L. destruct n; [lia|]. cbn [loop concat]. rewrite H, IH by lia. reflexivity.
Qed.
Lemma steps_many : forall e x ts k, steps e x ts k -> callpre e = false ->
  (forall t x', run e true true x = Some (t, x') -> length ts <= S (length x')) ->
  run (ZeroOrMore e) true true x = Some (concat ts, k).
Proof.
  intros e x ts k S C D. rewrite run_ZeroOrMore. destruct S as [x H|x t x' ts k H S].
  - rewrite H, C. reflexivity.
  - rewrite H. specialize (D _ _ H). cbn [length] in D.
    rewrite (steps_loop _ _ _ _ S) by lia. reflexivity.
Qed.

(** * Nested parentheses *)

(** [nest l s]: the text [s] consists of the words and parentheses [l]; a word ends at
    whitespace or a parenthesis. *)
Inductive nest : list ptree -> str -> Prop :=
| nest_nil : forall w, Forall gap w -> nest [] w
| nest_word : forall w c t l s, Forall gap w -> Forall wordy (c :: t) -> nest l s -> fol nested_stop s ->
    nest (PTok (c :: t) :: l) (w ++ c :: t ++ s)
| nest_group : forall w inner l s1 s2, Forall gap w -> nest inner s1 -> nest l s2 ->
    nest (PGroup inner :: l) (w ++ "("%char :: s1 ++ ")"%char :: s2).

Lemma nest_length : forall l s, nest l s -> length l <= length s.
Proof.
  induction 1 as [w G|w c t l s G W N IH F|w inner l s1 s2 G N1 IH1 N2 IH2].
  - cbn. lia.
  - cbn [length]. rewrite app_length. cbn [length]. rewrite app_length. lia.
  - cbn [length]. rewrite app_length. cbn [length]. rewrite app_length. cbn [length]. lia.
Qed.

Definition nested_item (d : nat) : pe := MatchFirst [quotedString; nestedExpr d; nested_content].

Lemma run_nestedExpr : forall d x, run (nestedExpr (S d)) true true x =
  match and_rest [Suppress (Literal (lit "(")); ZeroOrMore (nested_item d); Suppress (Literal (lit ")"))] true x with
  | Some (t, x') => Some ([PGroup t], x')
  | None => None
  end.
Proof.
  intros d x. change (nestedExpr (S d)) with
    (Forward (Group (And (Suppress (Literal (lit "("))) [ZeroOrMore (nested_item d); Suppress (Literal (lit ")"))]))).
  unfold run at 1. cbn [Forward callpre skipws Group And Suppress Literal andb impl].
  unfold run at 1. cbn [andb Group impl]. unfold run at 1. cbn [andb And impl].
  cbn [and_rest].
  assert (E : run (Suppress (Literal (lit "("))) true false (skip_white x) = run (Suppress (Literal (lit "("))) true true x) by reflexivity.
  rewrite E. destruct (run (Suppress (Literal (lit "("))) true true x) as [[t x']|]; [|reflexivity].
  destruct (run (ZeroOrMore (nested_item d)) true true x') as [[t1 x1]|]; [|reflexivity].
  destruct (run (Suppress (Literal (lit ")"))) true true x1) as [[t2 x2]|]; reflexivity.
Qed.

Lemma nestedExpr_refuses : forall d x, fol (fun c => negb (Ascii.eqb "("%char c)) (skip_white x) ->
  run (nestedExpr d) true true x = None.
Proof.
  intros [|d] x F; [reflexivity|]. rewrite run_nestedExpr. cbn [and_rest].
  rewrite (Suppress_refuses _ _ (Literal_head "("%char [])) by exact F. reflexivity.
Qed.

Lemma run_lit : forall c x, is_white c = false -> run (Suppress (Literal [c])) true true (c :: x) = Some ([], x).
Proof.
  intros c x W. rewrite run_Suppress, run_pre by reflexivity. rewrite skip_non by assumption. cbn [Literal impl is_prefix].
  rewrite Ascii.eqb_refl. reflexivity.
Qed.
Lemma run_lit_gap : forall c w x, is_white c = false -> Forall gap w ->
  run (Suppress (Literal [c])) true true (w ++ c :: x) = Some ([], x).
Proof.
  intros c w x W G. rewrite run_Suppress, run_pre by reflexivity. rewrite skip_gap by assumption. rewrite skip_non by assumption. cbn [Literal impl is_prefix].
  rewrite Ascii.eqb_refl. reflexivity.
Qed.

Lemma concat_single : forall (A : Type) (l : list A), concat (map (fun t => [t]) l) = l.
Proof. induction l as [|x l IH]; [reflexivity|]. cbn [map concat app]. now rewrite IH. Qed.

Lemma nest_steps : forall l s, nest l s -> forall k d, quiet (s ++ ")"%char :: k) -> length s <= d ->
  exists w, Forall gap w /\ steps (nested_item d) (s ++ ")"%char :: k) (map (fun t => [t]) l) (w ++ ")"%char :: k) /\
  (forall t x', run (nested_item d) true true (s ++ ")"%char :: k) = Some (t, x') -> length l <= S (length x')).
Proof.
  induction 1 as [w G|w c t l s G W N IH F|w inner l s1 s2 G N1 IH1 N2 IH2]; intros k d Q L.
  - exists w. split; [exact G|]. split; [|intros; cbn; lia]. apply steps_end. unfold nested_item. rewrite run_MatchFirst. cbn [first_of].
    rewrite quoted_run by assumption. rewrite nestedExpr_refuses, content_refuses; auto.
    + rewrite skip_gap by assumption. reflexivity.
    + rewrite skip_gap by assumption. reflexivity.
  - rewrite app_length in L. cbn [length] in L. rewrite app_length in L.
    destruct (IH k d) as (v & V & S & B); [|lia|].
    { rewrite <- app_assoc in Q. apply quiet_suffix in Q. cbn [app] in Q. apply quiet_cons in Q.
      rewrite <- app_assoc in Q. now apply quiet_suffix in Q. }
    assert (R : run (nested_item d) true true ((w ++ c :: t ++ s) ++ ")"%char :: k) = Some ([PTok (c :: t)], s ++ ")"%char :: k)).
    { unfold nested_item. rewrite run_MatchFirst. cbn [first_of]. rewrite quoted_run by assumption.
      inversion W as [|? ? [W1 W1'] W2]; subst.
      assert (SK : skip_white ((w ++ c :: t ++ s) ++ ")"%char :: k) = c :: t ++ s ++ ")"%char :: k).
      { rewrite <- app_assoc. rewrite skip_gap by assumption. cbn [app]. rewrite <- app_assoc. apply skip_non.
        unfold nested_stop in W1. now apply orb_false_iff in W1 as [_ W1]. }
      rewrite nestedExpr_refuses.
      2:{ rewrite SK. cbn [fol]. unfold nested_stop in W1. apply orb_false_iff in W1 as [W1 _]. apply orb_false_iff in W1 as [W1 _].
          rewrite Ascii.eqb_sym. now rewrite W1. }
      rewrite run_pre by reflexivity. rewrite SK. rewrite content_word.
      - reflexivity.
      - apply quiet_skip in Q. now rewrite SK in Q.
      - exact W.
      - destruct s; [reflexivity|exact F]. }
    exists v. split; [exact V|]. split.
    + cbn [map]. eapply steps_one; [exact R|exact S].
    + intros u x' U. rewrite R in U. injection U as <- <-. apply nest_length in N. rewrite app_length. cbn [length]. lia.
  - rewrite app_length in L. cbn [length] in L. rewrite app_length in L. cbn [length] in L.
    assert (Q' : quiet (s1 ++ ")"%char :: s2 ++ ")"%char :: k)).
    { rewrite <- app_assoc in Q. apply quiet_suffix in Q. cbn [app] in Q. apply quiet_cons in Q.
      rewrite <- app_assoc in Q. exact Q. }
    destruct d as [|d]; [lia|].
    destruct (IH1 (s2 ++ ")"%char :: k) d Q') as (v1 & V1 & S1 & B1); [lia|].
    destruct (IH2 k (S d)) as (v2 & V2 & S2 & B2); [|lia|].
    { apply quiet_suffix in Q'. now apply quiet_cons in Q'. }
    assert (R : run (nested_item (S d)) true true ((w ++ "("%char :: s1 ++ ")"%char :: s2) ++ ")"%char :: k) = Some ([PGroup inner], s2 ++ ")"%char :: k)).
    { unfold nested_item. rewrite run_MatchFirst. cbn [first_of]. rewrite quoted_run by assumption.
      rewrite run_nestedExpr. cbn [and_rest]. rewrite <- app_assoc. change (lit "(") with ["("%char].
      cbn [app]. rewrite run_lit_gap by (auto; reflexivity). rewrite <- app_assoc.
      cbn [app]. rewrite (steps_many _ _ _ _ S1); [|reflexivity|].
      2:{ intros u x' U. rewrite map_length. apply (B1 u x' U). }
      change (lit ")") with [")"%char]. rewrite run_lit_gap by (auto; reflexivity).
      rewrite ?app_nil_r. cbn [app]. rewrite ?app_nil_r, concat_single. reflexivity. }
    exists v2. split; [exact V2|]. split.
    + cbn [map]. eapply steps_one; [exact R|exact S2].
    + intros u x' U. rewrite R in U. injection U as <- <-. apply nest_length in N2. rewrite app_length. cbn [length]. lia.
Qed.

Lemma nested_reads : forall l s k d, nest l s -> quiet (s ++ ")"%char :: k) -> length s < d ->
  run (nestedExpr d) true true ("("%char :: s ++ ")"%char :: k) = Some ([PGroup l], k).
Proof.
  intros l s k d N Q L. destruct d as [|d]; [lia|]. destruct (nest_steps l s N k d Q) as (w & W & S & B); [lia|].
  rewrite run_nestedExpr. cbn [and_rest]. change (lit "(") with ["("%char].
  rewrite run_lit by reflexivity.
  rewrite (steps_many _ _ _ _ S); [|reflexivity|intros u x' U; rewrite map_length; exact (B u x' U)].
  change (lit ")") with [")"%char]. rewrite run_lit_gap by (auto; reflexivity).
  rewrite ?app_nil_r. cbn [app]. rewrite ?app_nil_r, concat_single. reflexivity.
Qed.

Lemma nested_reads_gap : forall v l s k d, Forall gap v -> nest l s -> quiet (s ++ ")"%char :: k) -> length s < d ->
  run (nestedExpr d) true true (v ++ "("%char :: s ++ ")"%char :: k) = Some ([PGroup l], k).
Proof.
  intros v l s k d V N Q L. pose proof (nested_reads l s k d N Q L) as R. destruct d as [|d]; [lia|].
  rewrite run_nestedExpr in *. cbn [and_rest] in *. change (lit "(") with ["("%char] in *.
  rewrite run_lit in R by reflexivity. rewrite run_lit_gap by (auto; reflexivity). exact R.
Qed.

(** = and the next parentheses, any number of times. *)
Inductive chain : list (list ptree) -> str -> Prop :=
| chain_nil : forall w, Forall gap w -> chain [] w
| chain_cons : forall w v l s ls t, Forall gap w -> Forall gap v -> nest l s -> chain ls t ->
    chain (l :: ls) (w ++ "="%char :: v ++ "("%char :: s ++ ")"%char :: t).
Definition eq_item (d : nat) : pe := And equals [nestedExpr d].
Lemma eq_item_reads : forall w v l s k d, Forall gap w -> Forall gap v -> nest l s -> quiet (s ++ ")"%char :: k) -> length s < d ->
  run (eq_item d) true true (w ++ "="%char :: v ++ "("%char :: s ++ ")"%char :: k) = Some ([PTok (lit "="); PGroup l], k).
Proof.
  intros w v l s k d W V N Q L. rewrite run_pre by reflexivity. rewrite skip_gap by assumption. rewrite skip_non by reflexivity.
  pose proof (nested_reads_gap v l s k d V N Q L) as R. unfold eq_item. cbn [And impl].
  assert (E : run equals true false ("="%char :: v ++ "("%char :: s ++ ")"%char :: k) = Some ([PTok (lit "=")], v ++ "("%char :: s ++ ")"%char :: k)) by reflexivity.
  rewrite E. cbn [and_rest]. rewrite R. reflexivity.
Qed.
Lemma chain_length : forall ls t, chain ls t -> length ls <= length t.
Proof. induction 1; cbn [length]; [lia|]. rewrite app_length. cbn [length]. rewrite app_length. cbn [length]. rewrite app_length. cbn [length]. lia. Qed.
Lemma chain_steps : forall ls t, chain ls t -> forall k d, quiet (t ++ ")"%char :: k) -> length t < d ->
  exists w, Forall gap w /\ steps (eq_item d) (t ++ ")"%char :: k) (map (fun l => [PTok (lit "="); PGroup l]) ls) (w ++ ")"%char :: k).
Proof.
  induction 1 as [w W|w v l s ls t W V N C IH]; intros k d Q L.
  - exists w. split; [exact W|]. apply steps_end. rewrite run_pre by reflexivity. rewrite skip_gap by assumption. reflexivity.
  - rewrite app_length in L. cbn [length] in L. rewrite app_length in L. cbn [length] in L. rewrite app_length in L. cbn [length] in L.
    assert (Q' : quiet (s ++ ")"%char :: t ++ ")"%char :: k)).
    { rewrite <- app_assoc in Q. apply quiet_suffix in Q. cbn [app] in Q. apply quiet_cons in Q. rewrite <- app_assoc in Q. apply quiet_suffix in Q.
      cbn [app] in Q. apply quiet_cons in Q. rewrite <- app_assoc in Q. exact Q. }
    destruct (IH k d) as (u & U & S); [now apply quiet_suffix, quiet_cons in Q'|lia|]. exists u. split; [exact U|]. cbn [map].
    eapply steps_one; [|exact S].
    replace ((w ++ "="%char :: v ++ "("%char :: s ++ ")"%char :: t) ++ ")"%char :: k) with (w ++ "="%char :: v ++ "("%char :: s ++ ")"%char :: (t ++ ")"%char :: k)).
    2:{ rewrite <- app_assoc. cbn [app]. rewrite <- app_assoc. cbn [app]. rewrite <- app_assoc. reflexivity. }
    apply eq_item_reads; auto. lia.
Qed.

(** x4refcodetautology: several codes in parentheses, then the rest of the line. *)
Lemma tautology_reads : forall c l s ls t k, nest l s -> chain ls t -> ls <> [] ->
  let x := "("%char :: "("%char :: s ++ ")"%char :: t ++ ")"%char :: k in
  quiet x -> ~ In (ascii_of_N 9) x -> ~ In nl k ->
  g_refcodetautology (x4grammars c) x = Some (PGroup l :: concat (map (fun l => [PTok (lit "="); PGroup l]) ls) ++ [PTok k]).
Proof.
  intros c l s ls t k N C NE x Q T NL. cbn [x4grammars g_refcodetautology]. unfold parseString, expandtabs.
  rewrite !(expandtabs_id _ _ T). set (d := S (length x)).
  assert (Q1 : quiet (s ++ ")"%char :: t ++ ")"%char :: k)) by (unfold x in Q; now apply quiet_cons, quiet_cons in Q).
  assert (Lx : length x = 3 + length s + 1 + length t + length k) by (unfold x; cbn [length]; rewrite app_length; cbn [length]; rewrite app_length; cbn [length]; lia).
  pose proof (nested_reads l s (t ++ ")"%char :: k) d N Q1 ltac:(lia)) as R.
  destruct (chain_steps ls t C k d) as (w & W & ST); [now apply quiet_suffix, quiet_cons in Q1|lia|].
  assert (O : run (OneOrMore (eq_item d)) true true (t ++ ")"%char :: k) = Some (concat (map (fun l => [PTok (lit "="); PGroup l]) ls), w ++ ")"%char :: k)).
  { rewrite run_OneOrMore. destruct C as [w0 W0|w0 v l0 s0 ls t W0 V N0 C]; [congruence|]. cbn [map] in *. inversion ST as [|? ? x' ? ? E1 E2]; subst. rewrite E1.
    rewrite (steps_loop _ _ _ _ E2); [reflexivity|]. rewrite map_length. apply chain_length in C.
    replace ((w0 ++ "="%char :: v ++ "("%char :: s0 ++ ")"%char :: t) ++ ")"%char :: k) with (w0 ++ "="%char :: v ++ "("%char :: s0 ++ ")"%char :: (t ++ ")"%char :: k)) in E1.
    2:{ rewrite <- app_assoc. cbn [app]. rewrite <- app_assoc. cbn [app]. rewrite <- app_assoc. reflexivity. }
    rewrite (eq_item_reads w0 v l0 s0 (t ++ ")"%char :: k) d W0 V N0) in E1.
    - injection E1 as <-. rewrite app_length. cbn [length]. lia.
    - apply quiet_suffix, quiet_cons in Q1. rewrite <- app_assoc in Q1. apply quiet_suffix in Q1. cbn [app] in Q1. apply quiet_cons in Q1.
      rewrite <- app_assoc in Q1. apply quiet_suffix in Q1. cbn [app] in Q1. apply quiet_cons in Q1. rewrite <- app_assoc in Q1. exact Q1.
    - rewrite app_length in Lx. cbn [length] in Lx. rewrite app_length in Lx. cbn [length] in Lx. rewrite app_length in Lx. cbn [length] in Lx. lia. }
  unfold x4refcodetautology. change (And equals [nestedExpr d]) with (eq_item d). rewrite run_pre by reflexivity.
  unfold x at 1. rewrite skip_non by reflexivity. generalize dependent (nestedExpr d). intros ne R. generalize dependent (OneOrMore (eq_item d)). intros om O. cbn [And impl].
  assert (E : run lpar true false ("("%char :: "("%char :: s ++ ")"%char :: t ++ ")"%char :: k) = Some ([], "("%char :: s ++ ")"%char :: t ++ ")"%char :: k)) by reflexivity.
  rewrite E. cbn [and_rest]. rewrite R, O. unfold rpar. change (lit ")") with [")"%char]. rewrite run_lit_gap by (auto; reflexivity).
  unfold run. cbn [restOfLine callpre skipws impl andb].
  rewrite <- (app_nil_r k) at 1. rewrite span_app.
  - cbn [app]. rewrite ?app_nil_r. reflexivity.
  - apply forallb_forall. intros y Y. apply negb_true_iff. apply Ascii.eqb_neq. intros ->. contradiction.
  - exact I.
Qed.

(** x4refcode: the parentheses, then the rest of the line. *)
Lemma refcode_reads : forall c l s k, nest l s -> quiet (s ++ ")"%char :: k) ->
  ~ In (ascii_of_N 9) ("("%char :: s ++ ")"%char :: k) ->
  exists line, g_refcode (x4grammars c) ("("%char :: s ++ ")"%char :: k) = Some [PGroup l; PTok line] /\
    (~ In nl k -> line = k).
Proof.
  intros c l s k N Q T. cbn [x4grammars g_refcode]. unfold parseString, expandtabs.
  rewrite !(expandtabs_id _ _ T). set (x := "("%char :: s ++ ")"%char :: k).
  assert (R : run (nestedExpr (S (length x))) true true x = Some ([PGroup l], k)).
  { apply nested_reads; auto. unfold x. cbn [length]. rewrite app_length. lia. }
  unfold x4refcode. unfold run at 1.
  set (ne := nestedExpr (S (length x))) in *. cbn [And callpre skipws impl].
  assert (SK : skipws ne = true) by reflexivity. assert (CP : callpre ne = true) by reflexivity.
  rewrite SK. cbn [andb]. unfold run in R at 1. rewrite CP, SK in R. cbn [andb] in R.
  unfold run at 1. cbn [andb]. rewrite R. cbn [and_rest]. unfold run. cbn [restOfLine callpre skipws impl andb].
  destruct (span (fun c0 => negb (Ascii.eqb c0 nl)) k) as [a b] eqn:E. exists a. split; [reflexivity|].
  intros NL. rewrite <- (app_nil_r k) in E. rewrite span_app in E.
  - congruence.
  - apply forallb_forall. intros y Y. apply negb_true_iff. apply Ascii.eqb_neq. intros ->. contradiction.
  - exact I.
Qed.
