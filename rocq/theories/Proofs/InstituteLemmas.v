(** Lemmas on institutes. *)
From Coq Require Import String List Ascii NArith ZArith Bool Arith Lia.
From Verif.Model Require Import Py Particle Dicts Pyparsing Grammars Reaction Field.
From Verif.Spec Require Import Text Codes Names.
From Verif.Proofs Require Import StrLemmas ParseLemmas GrammarFields NestedLemmas CommaLemmas AuthorLemmas.
Import ListNotations.
Local Open Scope list_scope.
Local Open Scope nat_scope.

Definition iword : ascii -> bool := alphanum_or ",.;+-*/'".
Lemma iword_is : forall c, institute_char c <-> iword c = true.
Proof.
  intros c. unfold institute_char, letter_or_digit, letter, capital, digit, iword, alphanum_or, is_alphanum, Grammars.is_alpha, is_cap, is_low, is_dig, code.
  rewrite !orb_true_iff, !andb_true_iff, !N.leb_le. unfold cmem. rewrite existsb_exists.
  split.
  - intros [H|H]; [left; tauto|right]. exists c. split; [|apply Ascii.eqb_refl]. exact H.
  - intros [H|(d & H & E)]; [left; tauto|right]. apply Ascii.eqb_eq in E as <-. exact H.
Qed.
Lemma iword_facts : forall c, iword c = true -> is_white c = false /\ Ascii.eqb "("%char c = false /\ Ascii.eqb ")"%char c = false.
Proof.
  intros c H. assert (E : forall c, implb (iword c) (negb (is_white c) && negb (Ascii.eqb "(" c) && negb (Ascii.eqb ")" c)) = true).
  { apply forall_ascii. vm_compute. reflexivity. }
  specialize (E c). rewrite H in E. cbn [implb] in E. apply andb_prop in E as [E E3]. apply andb_prop in E as [E1 E2].
  now rewrite !negb_true_iff in *.
Qed.

Definition stops (k : str) : Prop := fol (fun c => negb (iword c)) k.

Lemma word_run : forall b w k, Forall gap b -> nonempty institute_char w -> stops k ->
  run x4word true true (b ++ w ++ k) = Some ([PTok w], k).
Proof.
  intros b w k B [N W] K. rewrite run_pre by reflexivity. rewrite skip_gap by assumption.
  destruct w as [|c w]; [contradiction|]. inversion W as [|? ? W1 W2]; subst. apply iword_is in W1.
  destruct (iword_facts c W1) as (X & _). cbn [app]. rewrite skip_non by exact X.
  unfold x4word. cbn [Word Word2 impl]. fold iword. rewrite W1. rewrite span_app; [reflexivity| |exact K].
  apply forallb_forall. intros d D. apply iword_is. rewrite Forall_forall in W2. now apply W2.
Qed.
Lemma word_stop : forall x, stops (skip_white x) -> run x4word true true x = None.
Proof. intros x S. exact (Word2_refuses iword iword x S). Qed.

Lemma words_steps : forall words cm s, words_text words cm -> stops s -> stops (skip_white s) ->
  steps x4word (cm ++ s) (map (fun w => [PTok w]) words) s.
Proof.
  intros words cm s W S S'. induction W as [|b w ws cm B0 B W WT IH]; [apply steps_end; now apply word_stop|].
  cbn [map]. rewrite <- app_assoc, <- app_assoc. eapply steps_one; [|exact IH].
  apply word_run; [exact B|exact W|]. destruct WT as [|b' w' ws' s' B0' B' _ _]; [exact S|].
  destruct b' as [|c b']; [contradiction|]. cbn [app]. unfold stops. cbn [fol]. inversion B'; subst.
  apply gap_white in H1. destruct (iword c) eqn:E; [|reflexivity]. apply iword_facts in E as [E _]. congruence.
Qed.
Lemma words_more : forall ws cm s, words_text ws cm -> stops s -> stops (cm ++ s).
Proof.
  intros ws cm s [|b w ws' s' B0 B _ _] S; [exact S|]. destruct b as [|c b]; [contradiction|]. cbn [app]. unfold stops. cbn [fol].
  inversion B as [|? ? B1 _]; subst. apply gap_white in B1. destruct (iword c) eqn:E; [|reflexivity]. apply iword_facts in E as [E _]. congruence.
Qed.
Lemma words_dark : forall ws cm, words_text ws cm -> length ws <= length cm.
Proof.
  induction 1 as [|b w ws s0 B0 B [W _] _ IH]; [cbn; lia|]. destruct w; [contradiction|]. cbn [length]. rewrite !app_length. cbn [length]. lia.
Qed.
Lemma words_many : forall words cm s, comment_text words cm -> stops s -> stops (skip_white s) ->
  exists k, run (ZeroOrMore x4word) true true (cm ++ s) = Some (map PTok words, k) /\ near k s.
Proof.
  intros words cm s W S S'. rewrite run_ZeroOrMore. destruct W as [|b w ws cm B W WT].
  - cbn [app]. rewrite word_stop by exact S'. eexists. split; [reflexivity|]. now right.
  - assert (R : run x4word true true ((b ++ w ++ cm) ++ s) = Some ([PTok w], cm ++ s)).
    { rewrite <- app_assoc, <- app_assoc. apply word_run; [exact B|exact W|]. exact (words_more _ _ _ WT S). }
    rewrite R. rewrite (steps_loop _ _ _ _ (words_steps _ _ _ WT S S')).
    + exists s. split; [|apply near_refl]. cbn [map app concat]. rewrite <- (map_map PTok (fun t => [t])). now rewrite concat_single.
    + rewrite map_length, app_length. pose proof (words_dark _ _ WT). lia.
Qed.

Lemma minicode_close : forall k, run x4minicode true true (")"%char :: k) = None.
Proof. reflexivity. Qed.
Lemma minis_steps : forall ws cm k, words_text ws cm ->
  steps (MatchFirst [x4word; x4minicode]) (cm ++ ")"%char :: k) (map (fun w => [PTok w]) ws) (")"%char :: k).
Proof.
  intros ws cm k W. induction W as [|b w ws cm B0 B W WT IH]; [now apply steps_end|].
  cbn [map]. rewrite <- app_assoc, <- app_assoc. eapply steps_one; [|exact IH]. rewrite run_MatchFirst. cbn [first_of].
  rewrite word_run; [reflexivity|exact B|exact W|]. exact (words_more _ _ (")"%char :: k) WT eq_refl).
Qed.
Lemma iphrase_run : forall code others more k, nonempty institute_char code -> words_text others more ->
  run x4phrase true true (code ++ more ++ ")"%char :: k) = Some (PTok code :: map PTok others, ")"%char :: k).
Proof.
  intros code others more k C O. unfold x4phrase. rewrite run_OneOrMore.
  assert (R : run (MatchFirst [x4word; x4minicode]) true true (code ++ more ++ ")"%char :: k) = Some ([PTok code], more ++ ")"%char :: k)).
  { rewrite run_MatchFirst. cbn [first_of].
    pose proof (word_run [] code (more ++ ")"%char :: k) (Forall_nil _) C (words_more _ _ (")"%char :: k) O eq_refl)) as R. cbn [app] in R. now rewrite R. }
  rewrite R. rewrite (steps_loop _ _ _ _ (minis_steps _ _ k O)).
  - cbn [app]. rewrite <- (map_map PTok (fun t => [t])). now rewrite concat_single.
  - rewrite map_length, app_length. pose proof (words_dark _ _ O). lia.
Qed.
Lemma code_run : forall b code others more k, Forall gap b -> nonempty institute_char code -> words_text others more ->
  run (Group x4code) true true (b ++ "("%char :: code ++ more ++ ")"%char :: k) = Some ([PGroup (PTok code :: map PTok others)], k).
Proof.
  intros b code others more k B C O. rewrite run_Group. unfold x4code. rewrite run_Or. cbn [map fold_left].
  set (text := code ++ more ++ ")"%char :: k).
  assert (R1 : run (And lpar [x4phrase; rpar]) true true (b ++ "("%char :: text) = Some (PTok code :: map PTok others, k)).
  { rewrite run_pre by reflexivity. rewrite skip_gap by assumption. rewrite skip_non by reflexivity. cbn [And impl].
    assert (L : run lpar true false ("("%char :: text) = Some ([], text)) by reflexivity.
    rewrite L. cbn [and_rest]. unfold text. rewrite (iphrase_run _ _ _ _ C O).
    assert (L2 : run rpar true true (")"%char :: k) = Some ([], k)) by reflexivity. rewrite L2. rewrite !app_nil_r. reflexivity. }
  assert (R2 : run (And lpar [lpar; x4phrase; rpar; equals; lpar; x4phrase; rpar; rpar]) true true (b ++ "("%char :: text) = None).
  { rewrite run_pre by reflexivity. rewrite skip_gap by assumption. rewrite skip_non by reflexivity. cbn [And impl].
    assert (L : run lpar true false ("("%char :: text) = Some ([], text)) by reflexivity.
    rewrite L. unfold text. destruct C as [N C]. destruct code as [|c code]; [contradiction|]. inversion C as [|? ? C1 C2]; subst.
    apply iword_is in C1. destruct (iword_facts c C1) as (X & Y & _). cbn [and_rest].
    assert (L2 : run lpar true true ((c :: code) ++ more ++ ")"%char :: k) = None).
    { apply (Suppress_refuses _ _ (Literal_head "("%char [])). cbn [app]. rewrite skip_non by exact X. cbn [fol]. now rewrite Y. }
    rewrite L2. reflexivity. }
  rewrite R1, R2. reflexivity.
Qed.

(** What the grammar makes of an institute. *)
Definition institute_tree (i : str * list str) (others : list str) : ptree :=
  PGroup (PGroup (PTok (fst i) :: map PTok others) :: map PTok (snd i)).
Definition tree_of (i : str * list str) (t : ptree) : Prop := exists others, t = institute_tree i others.

Lemma unread_white : forall c s, unread (c :: s) -> is_white c = false.
Proof.
  intros c s (G & _ & _ & T). destruct (is_white c) eqn:E; [|reflexivity]. elim G. clear - E T.
  destruct c as [[] [] [] [] [] [] [] []]; try discriminate; try (now elim T); vm_compute; auto.
Qed.
Lemma unread_stops : forall s, unread s -> stops s /\ stops (skip_white s).
Proof.
  intros [|c s] U; [split; exact I|]. pose proof (unread_white _ _ U) as W. destruct U as (G & I & _).
  assert (J : iword c = false) by (destruct (iword c) eqn:E; [elim I; now apply iword_is|reflexivity]).
  rewrite skip_non by exact W. unfold stops. cbn [fol]. rewrite J. split; reflexivity.
Qed.
Lemma text_stops : forall l s, institutes_text l s -> stops s /\ stops (skip_white s).
Proof.
  intros l s H. assert (G : forall b t, Forall gap b -> stops t -> stops (b ++ t)).
  { intros [|c b] t B T; [exact T|]. inversion B; subst. unfold stops. cbn [app fol]. apply gap_white in H2.
    destruct (iword c) eqn:E; [|reflexivity]. apply iword_facts in E as [E _]. congruence. }
  destruct H as [b r B U|b code others more words cm rest s B C O W I].
  - destruct (unread_stops _ U) as (U1 & U2). split; [now apply G|]. now rewrite skip_gap by assumption.
  - split; [now apply G|]. rewrite skip_gap by assumption. rewrite skip_non by reflexivity. reflexivity.
Qed.

Lemma codefield_run : forall b code others more words cm l s x, Forall gap b -> nonempty institute_char code -> words_text others more ->
  comment_text words cm -> institutes_text l s -> near x (b ++ "("%char :: code ++ more ++ ")"%char :: cm ++ s) ->
  exists k, run (Group x4codefield) true true x = Some ([institute_tree (code, words) others], k) /\ near k s.
Proof.
  intros b code others more words cm l s x B C O W I N. rewrite run_Group.
  rewrite (run_near _ _ _ N) by reflexivity.
  unfold x4codefield. rewrite run_pre by reflexivity. rewrite skip_gap by assumption. rewrite skip_non by reflexivity. cbn [And impl].
  assert (R : run (Group x4code) true false ("("%char :: code ++ more ++ ")"%char :: cm ++ s) = Some ([PGroup (PTok code :: map PTok others)], cm ++ s)).
  { exact (code_run [] code others more (cm ++ s) (Forall_nil _) C O). }
  rewrite R. cbn [and_rest]. destruct (text_stops _ _ I) as [S S'].
  destruct (words_many words cm s W S S') as (k & E & K). rewrite E. exists k. split; [|exact K].
  now rewrite app_nil_r.
Qed.

Lemma text_steps : forall l s, institutes_text l s -> forall x, near x s ->
  exists ts k, Forall2 tree_of l ts /\ steps (Group x4codefield) x (map (fun t => [t]) ts) k.
Proof.
  induction 1 as [b r B U|b code others more words cm rest s B C O W I IH]; intros x N.
  - exists [], x. split; [constructor|]. apply steps_end. rewrite run_Group. rewrite (run_near _ _ _ N) by reflexivity.
    unfold x4codefield. rewrite run_pre by reflexivity. rewrite skip_gap by assumption.
    destruct r as [|c t]; [reflexivity|]. pose proof (unread_white _ _ U) as W. destruct U as (_ & _ & P & _).
    rewrite skip_non by exact W.
    cbn [And impl].
    assert (L : run (Group x4code) true false (c :: t) = None).
    { clear - P W. destruct c as [[] [] [] [] [] [] [] []]; try discriminate; try (now elim P); reflexivity. }
    rewrite L. reflexivity.
  - destruct (codefield_run b code others more words cm rest s x B C O W I N) as (k & E & K). destruct (IH k K) as (ts & k' & F & S).
    exists (institute_tree (code, words) others :: ts), k'. split; [constructor; [now exists others|exact F]|]. cbn [map]. eapply steps_one; eassumption.
Qed.
Lemma text_dark : forall l s, institutes_text l s -> length l <= dark s.
Proof.
  induction 1 as [b r B U|b code others more words cm rest s B C O W I IH]; [cbn; lia|]. rewrite dark_app.
  change ("("%char :: code ++ more ++ ")"%char :: cm ++ s) with (["("%char] ++ code ++ more ++ [")"%char] ++ cm ++ s). rewrite !dark_app.
  change (dark ["("%char]) with 1. cbn [length]. lia.
Qed.

Lemma textfield_reads : forall c l s, institutes_text l s -> l <> [] -> no_tabs s ->
  exists ts, g_textfield (x4grammars c) s = Some ts /\ Forall2 tree_of l ts.
Proof.
  intros c l s I N T. cbn [x4grammars g_textfield]. unfold parseString, expandtabs. rewrite (expandtabs_id _ _ T).
  unfold x4textfield. rewrite run_OneOrMore. destruct I as [|b code others more words cm rest s B C O W I]; [contradiction|].
  destruct (codefield_run b code others more words cm rest s _ B C O W I (near_refl _)) as (k & E & K). rewrite E.
  destruct (text_steps rest s I k K) as (ts & k' & F & S). rewrite (steps_loop _ _ _ _ S).
  - cbn [app]. rewrite concat_single. eexists. split; [reflexivity|]. constructor; [now exists others|exact F].
  - rewrite map_length. pose proof (text_dark _ _ I) as D. rewrite (Forall2_len2 _ _ _ _ _ F) in D. rewrite <- (dark_near _ _ K) in D. pose proof (dark_len k). lia.
Qed.

(** * Names *)

Lemma last_three_ok : forall s, last_three s (last_n 3 s).
Proof.
  intros s. unfold last_n. destruct (Nat.lt_ge_cases (length s) 3) as [L|L].
  - right. split; [exact L|]. replace (length s - 3) with 0 by lia. reflexivity.
  - left. exists (firstn (length s - 3) s). split; [symmetry; apply firstn_skipn|]. rewrite skipn_length. lia.
Qed.
Lemma institute_read : forall d i t, tree_of i t -> (forall k l, dget str_eqb k d = Some l -> l <> []) ->
  exists r, institute_of d t = Ok r /\ institute_named title (fun k => dget str_eqb k d) i r.
Proof.
  intros d [code words] t [others ->] D. unfold institute_tree, institute_of. cbn [fst snd idx nth_error of_option bind skipn].
  assert (J : join_toks [sp] (map PTok words) = Ok (between [sp] words)).
  { unfold join_toks. assert (M : forall l, map_res (fun t => match t with PTok s => Ok s | PGroup _ => Raise TypeError end) (map PTok l) = Ok l).
    { induction l as [|x l IH]; [reflexivity|]. cbn [map map_res bind]. now rewrite IH. }
    rewrite M. cbn [bind]. now rewrite between_join. }
  rewrite J. cbn [bind]. destruct (dget str_eqb (last_n 3 code) d) as [fields|] eqn:E.
  - destruct fields as [|f fs]; [exfalso; now apply (D _ _ E)|]. cbn [idx nth_error of_option bind]. eexists. split; [reflexivity|].
    cbn [institute_named]. split; [reflexivity|]. split; [reflexivity|]. exists (last_n 3 code). split; [apply last_three_ok|]. now rewrite E.
  - eexists. split; [reflexivity|]. cbn [institute_named]. split; [reflexivity|]. split; [reflexivity|].
    exists (last_n 3 code). split; [apply last_three_ok|]. now rewrite E.
Qed.

Lemma institute_field : forall c e lines f iss, e_g e = x4grammars c -> X4PlainField lines = Ok f ->
  (forall k l, dget str_eqb k (e_institutes e) = Some l -> l <> []) ->
  Forall2 (fun is pl => is <> [] /\ institutes_text is (subfield_str (snd pl)) /\ no_tabs (subfield_str (snd pl))) iss (f_dict f) ->
  exists rs, X4InstituteField e lines = Ok (f, rs) /\ Forall2 (institute_named title (fun k => dget str_eqb k (e_institutes e))) (concat iss) rs.
Proof.
  intros c e lines f iss G P D F. unfold X4InstituteField. rewrite P. cbn [bind]. rewrite G.
  assert (M : exists rss, map_res (fun pl => il <- of_option InstituteParsingError (g_textfield (x4grammars c) (subfield_str (snd pl))) ;;
      map_res (institute_of (e_institutes e)) il) (f_dict f) = Ok rss /\ Forall2 (institute_named title (fun k => dget str_eqb k (e_institutes e))) (concat iss) (concat rss)).
  { clear P. induction F as [|is pl iss pls (N & I & T) _ (rss & E & R)]; [exists []; split; [reflexivity|constructor]|].
    cbn [map_res]. destruct (textfield_reads c is _ I N T) as (ts & -> & TS). cbn [of_option bind].
    assert (X : exists rs, map_res (institute_of (e_institutes e)) ts = Ok rs /\ Forall2 (institute_named title (fun k => dget str_eqb k (e_institutes e))) is rs).
    { clear -D TS. induction TS as [|i t is ts T1 _ (rs & E & R)]; [exists []; split; [reflexivity|constructor]|].
      destruct (institute_read (e_institutes e) i t T1 D) as (r & E1 & R1). cbn [map_res]. rewrite E1. cbn [bind]. rewrite E. cbn [bind].
      eexists. split; [reflexivity|]. now constructor. }
    destruct X as (rs & E1 & R1). rewrite E1. cbn [bind]. rewrite E. cbn [bind]. eexists. split; [reflexivity|].
    cbn [concat]. now apply Forall2_app. }
  destruct M as (rss & E & R). rewrite E. cbn [bind]. eexists. split; [reflexivity|exact R].
Qed.
