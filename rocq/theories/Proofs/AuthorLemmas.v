(** Lemmas on author lists. *)
From Coq Require Import String List Ascii NArith ZArith Bool Arith Lia.
From Verif.Model Require Import Py Particle Pyparsing Grammars Reaction Field.
From Verif.Spec Require Peg Grammar.
From Verif.Spec Require Import Text Codes Names.
From Verif.Proofs Require Import StrLemmas ParseLemmas SuffixLemmas PegLemmas GrammarRules GrammarFields NestedLemmas CommaLemmas.
Import ListNotations.
Local Open Scope list_scope.
Local Open Scope nat_scope.

(** The text with each run of whitespace replaced by one blank, dropped at the end. *)
Fixpoint sq (g : bool) (s : str) : str :=
  match s with
  | [] => []
  | c :: s' => if is_white c then sq true s' else (if g then [sp] else []) ++ c :: sq false s'
  end.

Lemma sq_true : forall s, sq true s = match skip_white s with [] => [] | x => sp :: sq false x end.
Proof.
  induction s as [|c s IH]; [reflexivity|]. cbn [sq skip_white]. destruct (is_white c) eqn:E; [exact IH|].
  cbn [sq]. rewrite E. reflexivity.
Qed.
Lemma sq_word : forall w s, Forall (fun c => is_white c = false) w -> sq false (w ++ s) = w ++ sq false s.
Proof.
  induction 1 as [|c w W _ IH]; [reflexivity|]. cbn [app sq]. rewrite W. cbn [app]. now rewrite IH.
Qed.

Definition wordy_or_blank (c : ascii) : Prop := wordy c \/ c = sp.

Lemma body_words : forall n s, length s <= n -> Forall wordy_or_blank s ->
  exists ws, nest (map PTok ws) s /\ between [sp] ws = sq false (skip_white s).
Proof.
  induction n as [|n IH]; intros s L W.
  - destruct s; [|cbn in L; lia]. exists []. split; [constructor; constructor|reflexivity].
  - destruct (skip_decomp s) as (g & E & G). destruct (skip_white s) as [|c r] eqn:S.
    + exists []. split; [|reflexivity]. rewrite app_nil_r in E. subst g. apply nest_nil.
      clear -W G. induction G as [|c g Wc _ IHg]; [constructor|]. inversion W as [|? ? W1 W2]; subst. constructor; [|now apply IHg].
      destruct W1 as [[W1 _]| ->]; [|cbn; tauto]. unfold nested_stop in W1. rewrite Wc in W1. now rewrite orb_true_r in W1.
    + assert (Wc : is_white c = false).
      { destruct (is_white c) eqn:X; [|reflexivity]. exfalso. assert (Y := skip_idem s). rewrite S in Y. cbn [skip_white] in Y. rewrite X in Y.
        apply (f_equal (@length ascii)) in Y. pose proof (skip_len r). cbn [length] in Y. lia. }
      pose proof (span_join (fun d => negb (is_white d)) r) as J.
      destruct (span (fun d => negb (is_white d)) r) as [t k] eqn:SP. cbn [fst snd] in J.
      assert (T : Forall (fun d => is_white d = false) t /\ fol is_white k).
      { clear -SP. revert t k SP. induction r as [|d r IHr]; intros t k SP; cbn [span] in SP.
        - injection SP as <- <-. split; [constructor|exact I].
        - destruct (is_white d) eqn:X; cbn [negb] in SP.
          + injection SP as <- <-. split; [constructor|exact X].
          + destruct (span (fun d => negb (is_white d)) r) as [a b]. injection SP as <- <-. destruct (IHr a b eq_refl).
            split; [constructor; auto|assumption]. }
      destruct T as [T K]. clear SP. subst r.
      assert (WW : Forall wordy (c :: t) /\ Forall wordy_or_blank k).
      { rewrite E in W. apply Forall_app in W as [_ W]. inversion W as [|? ? W1 W2]; subst. apply Forall_app in W2 as [W2 W3].
        split; [|exact W3]. constructor.
        - destruct W1 as [W1| ->]; [exact W1|discriminate].
        - clear -T W2. induction T as [|d t D _ IHt]; [constructor|]. inversion W2 as [|? ? X Y]; subst. constructor; [|now apply IHt].
          destruct X as [X| ->]; [exact X|discriminate]. }
      destruct WW as [W1 W2].
      destruct (IH k) as (ws & N & B).
      { rewrite E in L. rewrite app_length in L. cbn [length] in L. rewrite app_length in L. lia. }
      { exact W2. }
      assert (GG : Forall gap g).
      { rewrite E in W. apply Forall_app in W as [W _]. clear -W G. induction G as [|d g Wd _ IHg]; [constructor|].
        inversion W as [|? ? X Y]; subst. constructor; [|now apply IHg].
        destruct X as [[X _]| ->]; [|cbn; tauto]. unfold nested_stop in X. rewrite Wd in X. now rewrite orb_true_r in X. }
      exists ((c :: t) :: ws). split.
      * cbn [map]. rewrite E. apply nest_word; auto. destruct k as [|d k]; [exact I|]. cbn [fol] in *. unfold nested_stop. now rewrite K, orb_true_r.
      * change (c :: t ++ k) with ((c :: t) ++ k).
        rewrite sq_word by (constructor; auto).
        destruct ws as [|w ws].
        -- cbn [between map] in *. inversion N as [x X E1 E2| |]; subst.
           assert (Z : sq false k = []).
           { clear -X K. assert (A : skip_white k = []).
             { clear K. induction X as [|d k D _ IHk]; [reflexivity|]. cbn [skip_white]. now rewrite (gap_white d D). }
             destruct k as [|d k]; [reflexivity|]. cbn [fol] in K. cbn [sq]. rewrite K. rewrite sq_true.
             cbn [skip_white] in A. rewrite K in A. now rewrite A. }
           rewrite Z. now rewrite app_nil_r.
        -- rewrite between_cons, B. f_equal. destruct k as [|d k].
           ++ cbn [skip_white sq] in B. exfalso. apply nest_length in N. cbn in N. lia.
           ++ cbn [fol] in K. cbn [sq skip_white]. rewrite K. rewrite sq_true. destruct (skip_white k) as [|d' k'] eqn:SK; [|reflexivity].
              exfalso. cbn [skip_white] in B. rewrite K, SK in B. cbn [sq] in B. 
              assert (NE : between [sp] (w :: ws) <> []).
              { cbn [map] in N. inversion N; subst. destruct ws; discriminate. }
              contradiction.
Qed.

Lemma sq_count : forall q s g, is_white q = false -> count_occ ascii_dec (sq g s) q = count_occ ascii_dec s q.
Proof.
  intros q s. induction s as [|c s IH]; intros g Q; [reflexivity|]. cbn [sq].
  assert (NE : sp <> q) by (intros <-; discriminate).
  destruct (is_white c) eqn:W.
  - rewrite IH by assumption. cbn [count_occ]. destruct (ascii_dec c q) as [->|_]; [congruence|reflexivity].
  - rewrite count_occ_app. assert (Z : count_occ ascii_dec (if g then [sp] else []) q = 0).
    { destruct g; [|reflexivity]. cbn [count_occ]. now destruct (ascii_dec sp q). }
    rewrite Z. cbn [count_occ]. rewrite IH by assumption. reflexivity.
Qed.
Lemma sq_tabs : forall s g, no_tabs (sq g s).
Proof.
  induction s as [|c s IH]; intros g H; [exact H|]. cbn [sq] in H. destruct (is_white c) eqn:W; [exact (IH _ H)|].
  apply in_app_or in H as [H|[H|H]].
  - destruct g; [|exact H]. destruct H as [H|[]]. discriminate.
  - subst c. discriminate.
  - exact (IH _ H).
Qed.

Lemma name_white : forall words, words_ok words -> forall s, words <> [] -> sq false (between [sp] words ++ s) = between [sp] words ++ sq false s.
Proof.
  induction 1 as [|w words [W1 W2] W IH]; intros s N; [contradiction|].
  assert (WW : Forall (fun c => is_white c = false) w).
  { eapply Forall_impl; [|exact W2]. intros c M. now destruct (mark_facts c M). }
  destruct words as [|w' words].
  - cbn [between]. now apply sq_word.
  - rewrite between_cons, <- !app_assoc. rewrite sq_word by assumption. f_equal. cbn [app sq]. change (is_white sp) with true. cbv iota.
    rewrite sq_true. specialize (IH s ltac:(discriminate)).
    inversion W as [|? ? [V1 V2] V]; subst. destruct w' as [|c w']; [contradiction|]. inversion V2; subst.
    destruct (mark_facts c) as (X & _ & _); [assumption|].
    assert (B : exists r, between [sp] ((c :: w') :: words) = c :: r) by (destruct words; eexists; reflexivity).
    destruct B as (r & B). rewrite B in *. cbn [app] in *. rewrite skip_non by exact X. now rewrite IH.
Qed.

Lemma blanks_sq : forall b words s, Forall (eq sp) b -> words <> [] -> words_ok words ->
  sq false (b ++ between [sp] words ++ s) = (match b with [] => [] | _ => [sp] end) ++ between [sp] words ++ sq false s.
Proof.
  intros b words s B N W. destruct b as [|c b]; [now apply name_white|]. inversion B; subst. cbn [app sq].
  change (is_white sp) with true. cbv iota. rewrite sq_true.
  rewrite skip_gap by (eapply Forall_impl; [|eassumption]; intros d <-; cbn; tauto).
  destruct words as [|w words]; [contradiction|]. pose proof (name_white _ W s N) as NW.
  inversion W as [|? ? [V1 V2] V]; subst. destruct w as [|c w]; [contradiction|]. inversion V2; subst.
  destruct (mark_facts c) as (X & _ & _); [assumption|].
  assert (E : exists r, between [sp] ((c :: w) :: words) = c :: r) by (destruct words; eexists; reflexivity).
  destruct E as (r & E). rewrite E in *. cbn [app] in *. rewrite skip_non by exact X. now rewrite NW.
Qed.

Lemma tail_sq : forall names items, indented names items -> Forall (name_of mark) names ->
  exists items', sq false (tail_text items) = tail_text items' /\ Forall2 item_text items' names.
Proof.
  induction 1 as [|n i names items (b & B & ->) _ IH]; intros F.
  - exists []. split; [reflexivity|constructor].
  - inversion F as [|? ? (words & N & W & ->) F']; subst. destruct (IH F') as (items' & E & I).
    assert (OK : words_ok words).
    { eapply Forall_impl; [|exact W]. intros w [A C]. split; [exact A|]. eapply Forall_impl; [|exact C]. intros c. apply mark_is. }
    exists (((match b with [] => [] | _ => [sp] end) ++ between [sp] words) :: items'). split.
    + assert (X : tail_text ((b ++ between [" "%char] words) :: items) = ","%char :: b ++ between [sp] words ++ tail_text items).
      { unfold tail_text. cbn [map concat]. cbn [app]. f_equal. symmetry. apply app_assoc. }
      rewrite X. cbn [sq]. change (is_white ",") with false. cbv iota. cbn [app].
      rewrite blanks_sq by assumption. rewrite E. unfold tail_text. cbn [map concat app]. f_equal. apply app_assoc.
    + constructor; [|exact I]. right. exists (match b with [] => [] | _ => [sp] end), words.
      split; [destruct b; repeat constructor|auto].
Qed.

Lemma list_sq : forall names items, indented names items -> Forall (name_of mark) names -> names <> [] ->
  exists items', sq false (skip_white (between [","%char] items)) = between [","%char] items' /\ Forall2 item_text items' names /\ items' <> [].
Proof.
  intros names items I F N. destruct I as [|n i names items (b & B & ->) I]; [contradiction|].
  inversion F as [|? ? (words & N' & W & ->) F']; subst. destruct (tail_sq _ _ I F') as (items' & E & I').
  assert (OK : words_ok words).
  { eapply Forall_impl; [|exact W]. intros w [A C]. split; [exact A|]. eapply Forall_impl; [|exact C]. intros c. apply mark_is. }
  exists (between [sp] words :: items'). rewrite !between_tail, <- app_assoc.
  rewrite skip_gap by (eapply Forall_impl; [|eassumption]; intros d <-; cbn; tauto).
  split; [|split; [|discriminate]].
  - assert (SK : skip_white (between [sp] words ++ tail_text items) = between [sp] words ++ tail_text items).
    { clear -OK N'. destruct words as [|w words]; [contradiction|]. inversion OK as [|? ? [V1 V2] V]; subst. destruct w as [|c w]; [contradiction|]. inversion V2; subst.
      destruct (mark_facts c) as (X & _ & _); [assumption|]. destruct words; apply skip_non; exact X. }
    change [" "%char] with [sp]. rewrite SK, name_white by assumption. now rewrite E.
  - constructor; [|exact I']. right. exists [], words. auto.
Qed.

Lemma plain_wordy : forall c, plain_mark c -> wordy c.
Proof.
  intros c (M & A & B). apply mark_is in M. destruct (mark_facts c M) as (X & _ & Y). split; [|exact Y].
  unfold nested_stop. rewrite X. apply Ascii.eqb_neq in A. apply Ascii.eqb_neq in B. now rewrite A, B.
Qed.
Lemma names_body : forall names items, indented names items -> Forall (name_of plain_mark) names ->
  Forall wordy_or_blank (between [","%char] items).
Proof.
  intros names items I F.
  assert (C : wordy_or_blank ","%char) by (left; split; reflexivity).
  assert (NW : forall words, Forall (nonempty plain_mark) words -> Forall wordy_or_blank (between [sp] words)).
  { induction 1 as [|w words [_ W] _ IHw]; [constructor|].
    assert (WW : Forall wordy_or_blank w) by (eapply Forall_impl; [|exact W]; intros c P; left; now apply plain_wordy).
    destruct words as [|w' words]; [exact WW|]. rewrite between_cons. apply Forall_app. split; [exact WW|].
    constructor; [now right|exact IHw]. }
  assert (G : Forall (Forall wordy_or_blank) items).
  { induction I as [|n i names items (b & B & ->) I IH]; [constructor|]. inversion F as [|? ? (words & N & W & ->) F']; subst.
    constructor; [|now apply IH]. apply Forall_app. split; [|now apply NW]. eapply Forall_impl; [|exact B]. intros c <-. now right. }
  clear -G C. induction G as [|i items I G IH]; [constructor|]. destruct items as [|j items]; [exact I|].
  rewrite between_cons. apply Forall_app. split; [exact I|]. constructor; [exact C|exact IH].
Qed.

Lemma between_join : forall sep l, join sep l = between sep l.
Proof. reflexivity || (intros sep l; induction l as [|x [|y l] IH]; [reflexivity|reflexivity|]; cbn [between join] in *; now rewrite IH). Qed.

Lemma count_skip : forall q s, is_white q = false -> count_occ ascii_dec (skip_white s) q = count_occ ascii_dec s q.
Proof.
  intros q s Q. induction s as [|c s IH]; [reflexivity|]. cbn [skip_white]. destruct (is_white c) eqn:W; [|reflexivity].
  rewrite IH. cbn [count_occ]. destruct (ascii_dec c q) as [->|_]; [congruence|reflexivity].
Qed.

(** What is made of the pieces of an author list. *)
Definition authors_words (e : env) (words : list ptree) : res (list str) :=
  x0 <- idx words 0 ;;
  s <- join_tree [sp] x0 ;;
  ttt <- of_option TypeError (g_comma (e_g e) s) ;;
  Ok (map title ttt).
Lemma authors_of_words : forall e lines, authors_of e lines =
  (words <- match g_refcode (e_g e) (concat (map strip lines)) with
        | Some words => Ok words
        | None => of_option TypeError (g_refcode (e_g e) (hd [] (split_char ")"%char (concat (map strip lines))) ++ lit ")"))
        end ;;
   authors_words e words).
Proof. reflexivity. Qed.

Lemma authors_text : forall c e names t, e_g e = x4grammars c -> name_list names t ->
  exists words, g_refcode (e_g e) t = Some words /\ authors_words e words = Ok (map title names).
Proof.
  intros c e names t G (N & F & items & comment & I & T & Q & TB). rewrite T in *. unfold authors_words. rewrite G.
  assert (F' : Forall (name_of mark) names).
  { eapply Forall_impl; [|exact F]. intros n (words & A & W & B). exists words. split; [exact A|]. split; [|exact B].
    eapply Forall_impl; [|exact W]. intros w [X Y]. split; [exact X|]. eapply Forall_impl; [|exact Y]. now intros d [D _]. }
  apply few_quiet in Q.
  destruct (body_words _ _ (le_n _) (names_body _ _ I F)) as (ws & NS & B).
  destruct (list_sq _ _ I F' N) as (items' & S & I' & N').
  destruct (refcode_reads c (map PTok ws) _ comment NS) as (line & R & _).
  { now apply quiet_cons in Q. }
  { exact TB. }
  rewrite R. eexists. split; [reflexivity|]. cbn [bind idx nth_error of_option].
  assert (J : join_tree [sp] (PGroup (map PTok ws)) = Ok (between [sp] ws)).
  { unfold join_tree, join_toks. assert (M : forall l, map_res (fun t => match t with PTok s => Ok s | PGroup _ => Raise TypeError end) (map PTok l) = Ok l).
    { induction l as [|x l IH]; [reflexivity|]. cbn [map map_res bind]. now rewrite IH. }
    rewrite M. cbn [bind]. now rewrite between_join. }
  rewrite J. cbn [bind]. rewrite B, S.
  rewrite (comma_reads c items' names I' N').
  - reflexivity.
  - rewrite <- S. intros q W. rewrite sq_count by (destruct W as [-> | ->]; reflexivity).
    apply quiet_cons in Q. rewrite count_skip by (destruct W as [-> | ->]; reflexivity). specialize (Q q W). rewrite count_occ_app in Q. lia.
  - rewrite <- S. apply sq_tabs.
Qed.

(** Nothing without a closing parenthesis is a nested expression. *)
Lemma nested_closes : forall d ws pre s t r, run (nestedExpr d) ws pre s = Some (t, r) -> In ")"%char s.
Proof.
  intros d ws pre s t r E. destruct d as [|d]; [unfold run in E; discriminate E|].
  unfold run in E. set (x := if pre && _ && _ && ws then skip_white s else s) in E.
  assert (X : tail_of x s) by (unfold x; destruct (pre && _ && _ && ws); [apply skip_tail|apply tail_refl]).
  apply (tail_In _ _ _ X). clearbody x. clear X s.
  cbn [nestedExpr Forward impl] in E. unfold run at 1 in E. cbn [Group impl andb] in E.
  destruct (run (And _ _) ws false x) as [[t1 r1]|] eqn:A; [|discriminate]. clear E.
  unfold run in A. cbn [And impl andb] in A.
  destruct (run (Suppress (Literal (lit "("))) ws false x) as [[t2 s2]|] eqn:O; [|discriminate].
  destruct (run_keeps _ _ _ _ _ _ _ (keeps_Suppress _ _ (keeps_Literal _)) O) as [T2 _].
  apply (tail_In _ _ _ T2). cbn [and_rest] in A.
  destruct (run (ZeroOrMore _) ws true s2) as [[t3 s3]|] eqn:Z; [|discriminate].
  assert (K : keeps false (MatchFirst [quotedString; nestedExpr d; nested_content])).
  { assert (E : denote (Grammar.names [] []) d (Peg.GFirst [Grammar.quotation; Peg.GRef 0; Grammar.nested_word])
              = MatchFirst [quotedString; nestedExpr d; nested_content]).
    { rewrite denote_First. cbn [map]. rewrite (d_nested (mkCodes [] [])). now destruct d. }
    rewrite <- E. eapply keeps_less, (denote_keeps _ (names_eats (mkCodes [] []))). }
  destruct (run_keeps _ _ _ _ _ _ _ (keeps_ZeroOrMore _ _ K) Z) as [T3 _].
  apply (tail_In _ _ _ T3).
  destruct (run (Suppress (Literal (lit ")"))) ws true s3) as [[t4 s4]|] eqn:C; [|discriminate].
  unfold run in C. set (y := if true && _ && _ && ws then skip_white s3 else s3) in C.
  assert (Y : tail_of y s3) by (unfold y; destruct (true && _ && _ && ws); [apply skip_tail|apply tail_refl]).
  apply (tail_In _ _ _ Y). clearbody y. cbn [Suppress impl] in C. unfold run in C. cbn [Literal impl andb lit list_ascii_of_string] in C.
  destruct y as [|a y]; [discriminate|]. cbn [is_prefix] in C. destruct (Ascii.eqb ")"%char a) eqn:Q; [|discriminate].
  apply Ascii.eqb_eq in Q as <-. now left.
Qed.
Lemma refcode_closes : forall c t, ~ In ")"%char t -> no_tabs t -> g_refcode (x4grammars c) t = None.
Proof.
  intros c t N T. change (g_refcode (x4grammars c) t) with (parseString (x4refcode (Datatypes.S (length (expandtabs t)))) t).
  unfold parseString. unfold expandtabs. rewrite !(expandtabs_id _ _ T). set (d := Datatypes.S (length t)).
  destruct (run (x4refcode d) true true t) as [[u r]|] eqn:E; [|reflexivity]. exfalso. apply N.
  unfold x4refcode, run in E. set (x := if true && _ && _ && true then skip_white t else t) in E.
  assert (X : tail_of x t) by (unfold x; destruct (true && _ && _ && true); [apply skip_tail|apply tail_refl]).
  apply (tail_In _ _ _ X). cbn [And impl] in E. destruct (run (nestedExpr d) true false x) as [[v w]|] eqn:R; [|discriminate].
  exact (nested_closes _ _ _ _ _ _ R).
Qed.
Lemma split_none_hd : forall c t, ~ In c t -> hd [] (split_char c t) = t.
Proof.
  intros c. induction t as [|d t IH]; intros N; [reflexivity|]. cbn [split_char].
  destruct (Ascii.eqb d c) eqn:E; [apply Ascii.eqb_eq in E as ->; exfalso; apply N; now left|].
  assert (X : hd [] (split_char c t) = t) by (apply IH; intros I; apply N; now right).
  destruct (split_char c t) as [|x l]; cbn [hd] in *; congruence.
Qed.

Lemma authors_read : forall c e names lines, e_g e = x4grammars c ->
  author_list names (concat (map strip lines)) ->
  authors_of e lines = Ok (map title names).
Proof.
  intros c e names lines G [L|(N & L)]; rewrite authors_of_words.
  - destruct (authors_text c e names _ G L) as (words & E & A). rewrite E. exact A.
  - destruct (authors_text c e names _ G L) as (words & E & A). destruct L as (_ & _ & _ & _ & _ & _ & _ & T).
    rewrite G at 1. rewrite refcode_closes; [|exact N|intros I; apply T, in_or_app; now left].
    rewrite split_none_hd by exact N. change (lit ")") with [")"%char]. rewrite E. exact A.
Qed.
