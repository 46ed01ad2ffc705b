(** What the procedure of Proofs/Guess.v accepts is well written. *)
From Coq Require Import String List Ascii NArith ZArith Bool Arith Lia.
From Verif.Model Require Import Py PyFloat Dicts Particle Reaction Field Section Entry Columns Pyparsing Grammars.
From Verif.Spec Require Import Text Exfor Tables Codes General Balance Known GeneralKnown IsomerMath Names References Document WellWritten.
From Verif.Proofs Require Import StrLemmas ParseLemmas BibLemmas FieldLemmas MonitorLemmas DataLemmas ShippedLemmas DocumentLemmas DocumentCheck KnownCheck GeneralCheck IsomerCheck InstituteLemmas NamesExamples RefCheck CommaLemmas WellCheck Guess.
Import ListNotations.
Local Open Scope string_scope.
Local Open Scope list_scope.
Local Open Scope nat_scope.

(** ** Numbers *)

Lemma numeralb_ok : forall s, numeralb s = true -> s = digits_text (map digit_of s) /\ is_digits (map digit_of s).
Proof.
  intros s H. unfold numeralb in H. rewrite forallb_forall in H. split.
  - unfold digits_text. rewrite map_map. rewrite <- (map_id s) at 1. apply map_ext_in. intros c I. specialize (H c I).
    apply andb_true_iff in H. destruct H as [H _]. now apply Ascii.eqb_eq in H.
  - apply Forall_forall. intros d I. apply in_map_iff in I. destruct I as (c & <- & I). specialize (H c I).
    apply andb_true_iff in H. destruct H as [_ H]. now apply N.ltb_lt.
Qed.
Lemma digitb_numeral : forall c, digitb c = true -> Ascii.eqb c (digit_char (digit_of c)) && (digit_of c <? 10)%N = true.
Proof. intros [[] [] [] [] [] [] [] []]; vm_compute; auto. Qed.
Lemma cut_digits : forall s a b, cut digitb s = (a, b) -> s = a ++ b /\ a = digits_text (map digit_of a) /\ is_digits (map digit_of a).
Proof.
  intros s a b E. apply cut_app in E. destruct E as [E F]. split; [exact E|]. apply numeralb_ok. unfold numeralb. apply forallb_forall.
  intros c I. rewrite Forall_forall in F. apply digitb_numeral, F, I.
Qed.
Lemma all_blank : forall a, Forall (fun c => Ascii.eqb " " c = true) a -> a = repeat " "%char (length a).
Proof. induction 1 as [|c a E _ IH]; [reflexivity|]. apply Ascii.eqb_eq in E. subst. cbn [length repeat]. now rewrite <- IH. Qed.
Lemma sign_of_char : forall c, inb c "+-" = true -> exists m, c = sign_char m.
Proof. intros c H. apply inb_ok in H. vm_compute in H. destruct H as [<-|[<-|[]]]; [now exists false|now exists true]. Qed.

Lemma cut_stop : forall p s a b, cut p s = (a, b) -> forall x t, b = x :: t -> p x = false.
Proof.
  induction s as [|y s IH]; intros a b E x t Q; cbn [cut] in E; [injection E as <- <-; discriminate|].
  destruct (p y) eqn:P; [|injection E as <- <-; congruence]. destruct (cut p s) as [a' b']. injection E as <- <-. exact (IH _ _ eq_refl x t Q).
Qed.

Lemma exponentb_ok : forall sg ip fr r, good_mantissa ip fr -> exponentb r = true -> exists x, Document.number_text (mantissa_text sg ip fr ++ r) x.
Proof.
  intros sg ip fr r G H. destruct r as [|x s]; [rewrite app_nil_r; eexists; apply number_plain, G|]. cbn [exponentb] in H.
  destruct (cut (Ascii.eqb " ") (x :: s)) as [b t] eqn:C. cbn [snd] in H. apply cut_app in C. destruct C as [C F]. rewrite C, (all_blank b F).
  destruct t as [|e ds]; [discriminate|]. destruct (Ascii.eqb e "E") eqn:E.
  - apply Ascii.eqb_eq in E. subst e. destruct ds as [|g ds]; [discriminate|]. rewrite !andb_true_iff in H. destruct H as [[H1 H2] H3].
    destruct (sign_of_char _ H1) as [m ->]. destruct (numeralb_ok _ H3) as [D1 D2]. rewrite D1. eexists. apply number_E; [exact G|exact D2|].
    intro Q. apply map_eq_nil in Q. subst. discriminate.
  - rewrite !andb_true_iff in H. destruct H as [[H1 H2] H3].
    destruct (sign_of_char _ H1) as [m ->]. destruct (numeralb_ok _ H3) as [D1 D2]. rewrite D1. eexists. apply number_sign; [exact G|exact D2|].
    rewrite map_length. apply orb_true_iff in H2. destruct H2 as [H2|H2]; apply Nat.eqb_eq in H2; auto.
Qed.
Lemma number_okb_ok : forall t, number_okb t = true -> exists x, Document.number_text t x.
Proof.
  intros [|c t] H; [eexists; constructor|]. cbn [number_okb] in H. set (u := if inb c "+-" then t else c :: t) in H.
  assert (U : exists sg, c :: t = sign_text sg ++ u).
  { subst u. destruct (inb c "+-") eqn:E; [|now exists SNone]. destruct (sign_of_char _ E) as [[] ->]; [now exists SMinus|now exists SPlus]. }
  destruct U as [sg ->]. clearbody u. destruct (cut digitb u) as [ip r] eqn:C. apply cut_digits in C. destruct C as (-> & D & I).
  assert (M : forall fr, sign_text sg ++ digits_text (map digit_of ip) ++ match fr with Some fp => "."%char :: digits_text fp | None => [] end
                = mantissa_text sg (map digit_of ip) fr) by reflexivity.
  assert (P : negb (length ip =? 0) = true -> good_mantissa (map digit_of ip) None).
  { intros N. split; [exact I|]. split; [constructor|]. cbn [frac_digits]. rewrite app_nil_r. intros Q. apply map_eq_nil in Q. subst ip. discriminate. }
  destruct r as [|d r].
  - rewrite app_nil_r, D. specialize (M None). cbv iota in M. rewrite app_nil_r in M. rewrite M. eexists. apply number_plain, P, H.
  - destruct (Ascii.eqb d ".") eqn:E.
    + apply Ascii.eqb_eq in E. subst d. destruct (cut digitb r) as [fp r2] eqn:C2. apply cut_digits in C2. destruct C2 as (-> & D2 & I2).
      apply andb_true_iff in H. destruct H as [N H]. specialize (M (Some (map digit_of fp))). cbv iota in M. rewrite <- D, <- D2 in M.
      replace (sign_text sg ++ ip ++ "."%char :: fp ++ r2) with (mantissa_text sg (map digit_of ip) (Some (map digit_of fp)) ++ r2)
        by (rewrite <- M, <- !app_assoc; reflexivity).
      apply exponentb_ok; [|exact H]. split; [exact I|]. split; [exact I2|]. cbn [frac_digits]. rewrite <- map_app. intros Q. apply map_eq_nil in Q.
      rewrite Q in N. discriminate.
    + apply andb_true_iff in H. destruct H as [N H]. specialize (M None). cbv iota in M. rewrite app_nil_r, <- D in M.
      rewrite app_assoc, M. apply exponentb_ok; [now apply P|exact H].
Qed.

Lemma numeric_tableb_ok : forall b, numeric_tableb b = true -> numeric_table b.
Proof.
  intros b H. unfold numeric_tableb in H. destruct b as [|l0 rest]; [discriminate|].
  pose proof (split_words (columns 0 33 l0)) as W. destruct (split_ws (columns 0 33 l0)) as [|w0 [|w1 [|w2 ws]]]; try discriminate.
  destruct (numeral w1) as [n1|] eqn:N1; [|discriminate]. destruct (numeral w2) as [n2|] eqn:N2; [|discriminate].
  set (b := l0 :: rest) in *. cbv zeta in H. set (cols := Z.to_nat n1) in *. set (k := lines_per_row cols) in *.
  set (rows := (length b - 2) / k - 2) in *. rewrite !andb_true_iff in H. destruct H as [[[[[[H1 H2] H3] H4] H5] H6] H7].
  apply numeral_ok in N1, N2. assert (n1 = Z.of_nat cols) as E1.
  { subst cols. rewrite Z2Nat.id; [reflexivity|]. destruct N1 as (ds & _ & _ & _ & ->). apply N2Z.is_nonneg. }
  exists cols, rows. cbv zeta. fold k. split; [now apply Nat.ltb_lt|]. split; [revert H2; apply forallb_Forall; exact cardb_ok|]. split.
  { exists l0, rest, w0, w1, w2, ws. split; [reflexivity|]. split; [exact W|]. rewrite <- E1. split; [exact N1|].
    apply existsb_exists in H5. destruct H5 as (m & I & E). apply Z.eqb_eq in E. exists m. rewrite <- E. split; [exact N2|exact I]. }
  split; [now apply Nat.eqb_eq|]. intros i j Hi Hj. rewrite forallb_forall in H7. specialize (H7 i ltac:(apply in_seq; lia)).
  rewrite forallb_forall in H7. specialize (H7 j ltac:(apply in_seq; lia)).
  destruct (nth_error b (1 + (2 + i) * k + j / 6)) as [l|] eqn:E; [|discriminate]. destruct (number_okb_ok _ H7) as [x X].
  eexists. exists x. split; [|exact X]. exists l. split; [exact E|]. apply strip_trimmed.
Qed.

(** ** Reactions *)

Section Codes.
Variable c : codes.
Notation wr := (written (c_particles c) (c_compounds c)).

Fixpoint ctrees (x : ct) : list ptree :=
  match x with
  | Rx r => [PGroup (general_tree r)]
  | Par e => PTok (tx "(") :: ctrees e ++ [PTok (tx ")")]
  | Bin op a b => ctrees a ++ PTok op :: ctrees b
  end.
Lemma ct_written : forall x, ct_ok c x = true ->
  (is_factor x = true -> cfactor wr (ctokens x) (ctrees x)) /\ (is_term x = true -> cterm wr (ctokens x) (ctrees x)) /\ cexpr wr (ctokens x) (ctrees x).
Proof.
  assert (L : forall ts l, cfactor wr ts l -> cterm wr ts l /\ cexpr wr ts l).
  { intros ts l F. assert (T : cterm wr ts l) by (now apply ct_factor). split; [exact T|now apply ce_term]. }
  induction x as [r|e IH|op a IHa b IHb]; intros H; cbn [ct_ok ctokens ctrees is_factor is_term] in *.
  - assert (F : cfactor wr (general_tokens r) [PGroup (general_tree r)]).
    { apply cf_reaction. exists r. split; [|split; reflexivity]. apply andb_true_iff in H. destruct H as [H _]. now apply good_generalb_ok. }
    destruct (L _ _ F). auto.
  - destruct (IH H) as (_ & _ & E). assert (F := cf_paren _ _ _ E). destruct (L _ _ F). auto.
  - rewrite !andb_true_iff in H. destruct H as [[HA HB] HO]. destruct (IHa HA) as (_ & TA & EA). destruct (IHb HB) as (FB & TB & _).
    split; [discriminate|]. destruct (smem op times_ops) eqn:E.
    + apply andb_true_iff in HO. destruct HO as [X Y]. apply smem_In in E.
      assert (T : cterm wr (ctokens a ++ op :: ctokens b) (ctrees a ++ PTok op :: ctrees b)) by (apply ct_times; [exact E|now apply TA|now apply FB]).
      split; [intros _; exact T|now apply ce_term].
    + apply andb_true_iff in HO. destruct HO as [X Y]. apply smem_In in X. split; [discriminate|]. apply ce_plus; [exact X|exact EA|now apply TB].
Qed.
Lemma piece_ok_ok : forall r, piece_ok c r = true -> piece_of (c_particles c) (c_compounds c) (general_tree r).
Proof.
  intros r H. apply andb_true_iff in H. destruct H as [G H]. apply good_generalb_ok in G. apply orb_true_iff in H. destruct H as [H|H].
  - apply piece_known; [exact G|now apply known_generalb_ok].
  - destruct (gc_residual r) as [[n| |]|] eqn:R; try discriminate. destruct (general_quantities r) as [|q qs]; [discriminate|].
    apply (piece_states _ _ r n q G). now apply state_mathb_ok.
Qed.
Lemma ct_pieces : forall x, ct_ok c x = true -> forall q, In (PGroup q) (ctrees x) -> piece_of (c_particles c) (c_compounds c) q.
Proof.
  induction x as [r|e IH|op a IHa b IHb]; intros H q I; cbn [ct_ok ctrees] in *.
  - destruct I as [I|[]]. assert (q = general_tree r) as -> by congruence. now apply piece_ok_ok.
  - destruct I as [I|I]; [discriminate|]. apply in_app_or in I. destruct I as [I|[I|[]]]; [now apply IH|discriminate].
  - rewrite !andb_true_iff in H. destruct H as [[HA HB] _]. apply in_app_or in I. destruct I as [I|[I|I]]; [now apply IHa|discriminate|now apply IHb].
Qed.

Lemma in_text_ok : forall ts text rest, in_text ts text rest = true -> exists line, in_field ts line text.
Proof.
  intros ts text rest H. unfold in_text in H. cbv zeta in H. set (n := length text - length rest) in *.
  destruct (cut gapc (skipn n text)) as [w k] eqn:E. apply cut_app in E. destruct E as [E _]. apply in_fieldb_ok in H.
  rewrite <- E, firstn_skipn in H. now exists k.
Qed.
Lemma code_found_ok : forall text found, code_found c text found = true -> reaction_code c text.
Proof.
  intros text [[x rest]|] H; [|discriminate]. cbn [code_found] in H.
  rewrite !andb_true_iff in H. destruct H as [[F K] T]. destruct (in_text_ok _ _ _ T) as [line L].
  destruct x as [r|e|]; [| |discriminate].
  - cbn [ct_ok ctokens] in *. apply andb_true_iff in K. destruct K as [G K]. apply good_generalb_ok in G. apply orb_true_iff in K. destruct K as [K|K].
    + left. exists r, line. split; [exact G|]. split; [now apply known_generalb_ok|exact L].
    + right. left. destruct (gc_residual r) as [[n| |]|] eqn:R; try discriminate. destruct (general_quantities r) as [|q qs]; [discriminate|].
      exists r, n, q, line. split; [exact G|]. split; [now apply state_mathb_ok|exact L].
  - right. right. cbn [ct_ok ctokens] in *. exists (ctokens e), (ctrees e), line. split; [now apply ct_written|]. split; [exact L|now apply ct_pieces].
Qed.
Lemma reaction_codeb_ok : forall text, reaction_codeb c text = true -> reaction_code c text.
Proof. intros text H. exact (code_found_ok _ _ H). Qed.

(** ** Fields *)

Lemma pointersb_ok : forall f fld, pointersb f fld = true -> forall p ls, pointer_lines fld p ls -> f ls = true.
Proof. intros f fld H p ls L. apply pointer_lines_in in L. unfold pointersb in H. rewrite forallb_forall in H. exact (H (p, ls) L). Qed.
Lemma written_reactionsb_ok : forall fld, written_reactionsb c fld = true -> written_reactions c fld.
Proof.
  intros fld H p ls text L T. apply pointer_text_is in T. subst. apply reaction_codeb_ok. exact (pointersb_ok _ _ H p ls L).
Qed.

Lemma opensb_iff : forall l, opens l <-> opensb l = true.
Proof.
  intros l. unfold opens, opensb. split.
  - intros (rest & T). apply strip_iff in T. now rewrite T.
  - intros H. destruct (strip l) as [|a s] eqn:E; [discriminate|]. apply Ascii.eqb_eq in H. subst. exists s. now apply strip_iff.
Qed.
Lemma opens_twiceb_ok : forall l, opens_twiceb l = true -> opens_twice l.
Proof.
  intros l H. unfold opens_twiceb in H. destruct (strip l) as [|a [|b s]] eqn:E; try discriminate. apply andb_true_iff in H. destruct H as [A B].
  apply Ascii.eqb_eq in A, B. subst. exists s. now apply strip_iff.
Qed.
Lemma remark_lines_ok : forall ls a b, remark_lines ls = (a, b) -> ls = a ++ b /\ Forall (fun l => ~ opens l) a.
Proof.
  induction ls as [|l ls IH]; intros a b E; cbn [remark_lines] in E; [injection E as <- <-; auto|].
  destruct (opensb l) eqn:O; [injection E as <- <-; auto|]. destruct (remark_lines ls) as [x y]. injection E as <- <-.
  destruct (IH x y eq_refl) as [-> F]. split; [reflexivity|]. constructor; [|exact F]. rewrite opensb_iff. congruence.
Qed.
Lemma remarks_text_ok : forall ls, Forall (fun l => ~ opens l) ls -> remarks ls (remarks_text ls).
Proof.
  induction 1 as [|l ls O _ IH]; [constructor|]. unfold remarks_text. cbn [map concat app]. apply remarks_cons; [apply strip_trimmed|exact O|exact IH].
Qed.
Lemma monitor_groups_ok : forall fuel ls gs ts, monitor_groups fuel ls = Some (gs, ts) -> ls = concat gs /\ Forall2 monitor_item gs ts.
Proof.
  induction fuel as [|n IH]; intros ls gs ts H; (destruct ls as [|l more]; cbn [monitor_groups] in H; [injection H as <- <-; auto|]); [discriminate|].
  destruct (negb (opensb l)) eqn:O; [discriminate|]. apply negb_false_iff in O. apply opensb_iff in O.
  destruct (balancedb l) eqn:B.
  - apply Nat.eqb_eq in B. destruct (remark_lines more) as [rm rest] eqn:R. apply remark_lines_ok in R. destruct R as [-> F].
    destruct (monitor_groups n rest) as [[gs' ts']|] eqn:E; [|discriminate]. cbn [obind] in H. injection H as <- <-.
    destruct (IH _ _ _ E) as [-> F2]. split; [reflexivity|]. constructor; [|exact F2]. apply monitor_one; [exact O|exact B|now apply remarks_text_ok].
  - apply Nat.eqb_neq in B. destruct (opens_twiceb l) eqn:W; [|discriminate]. apply opens_twiceb_ok in W.
    destruct more as [|nxt more]; [discriminate|]. destruct (remark_lines more) as [rm rest] eqn:R. apply remark_lines_ok in R. destruct R as [-> F].
    destruct (monitor_groups n rest) as [[gs' ts']|] eqn:E; [|discriminate]. cbn [obind] in H. injection H as <- <-.
    destruct (IH _ _ _ E) as [-> F2]. split; [reflexivity|]. constructor; [|exact F2]. apply monitor_two; [exact W|exact B|now apply remarks_text_ok].
Qed.
Lemma monitor_textb_ok : forall t, monitor_textb c t = true -> monitor_text c t.
Proof.
  intros [|a rest] H.
  - apply mt_remark; [|discriminate]. intros M. apply contains_intro in M. discriminate.
  - cbn [monitor_textb] in H. destruct (Ascii.eqb a "(") eqn:A.
    + apply Ascii.eqb_eq in A. subst a. destruct (contains (tx "((MONIT") ("("%char :: rest)) eqn:M.
      * apply andb_true_iff in H. destruct H as [P H]. set (t := "("%char :: rest) in *.
        assert (E : t = tx "((MONIT" ++ skipn 7 t).
        { apply ParseLemmas.prefix_spec in P. destruct P as [u Q]. rewrite Q. reflexivity. }
        set (u := skipn 7 t) in *. clearbody u. rewrite E. destruct (cut (fun x => negb (Ascii.eqb x ")")) u) as [n r] eqn:C.
        pose proof (cut_stop _ _ _ _ C) as ST. apply cut_app in C. destruct C as [-> F]. destruct r as [|d r]; [discriminate|]. specialize (ST d r eq_refl). apply negb_false_iff, Ascii.eqb_eq in ST. subst d.
        apply andb_true_iff in H. destruct H as [X Y]. apply mt_heading.
        -- intros I. rewrite Forall_forall in F. specialize (F _ I). discriminate.
        -- intros Q. apply contains_intro in Q. rewrite Q in X. discriminate.
        -- now apply reaction_codeb_ok.
      * apply mt_reaction; [|now apply reaction_codeb_ok]. intros Q. apply contains_intro in Q. congruence.
    + apply mt_remark.
      * intros Q. apply contains_intro in Q. rewrite Q in H. discriminate.
      * intros s E. assert (a = "("%char) by congruence. subst. discriminate.
Qed.
Lemma written_monitorsb_ok : forall fld, written_monitorsb c fld = true -> written_monitors c fld.
Proof.
  intros fld H p ls L. pose proof (pointersb_ok _ _ H p ls L) as M. unfold monitor_linesb in M.
  destruct (remark_lines ls) as [bf rest] eqn:R. apply remark_lines_ok in R. destruct R as [-> F].
  destruct (monitor_groups (S (length rest)) rest) as [[gs ts]|] eqn:E; [|discriminate]. apply monitor_groups_ok in E. destruct E as [-> G].
  apply andb_true_iff in M. destruct M as [T B].
  assert (FT : Forall (monitor_text c) ts) by (revert T; apply forallb_Forall; exact monitor_textb_ok).
  destruct bf as [|l more].
  - exists [], [], gs, ts. cbn [app length]. split; [reflexivity|]. split; [constructor|]. split; [lia|]. split; [exact G|exact FT].
  - inversion F as [|? ? F1 F2]; subst. exists [l :: more], [strip l ++ remarks_text more], gs, ts. split; [cbn [app concat]; reflexivity|].
    split; [|split; [cbn [length]; lia|split; [exact G|]]].
    + constructor; [|constructor]. apply remark_first; [apply strip_trimmed|exact F1|now apply remarks_text_ok].
    + cbn [app]. constructor; [now apply monitor_textb_ok|exact FT].
Qed.
End Codes.

Lemma name_listb_ok : forall text, name_listb text = true -> exists names, name_list names text.
Proof.
  intros [|a u] H; [discriminate|]. cbn [name_listb] in H. destruct (cut (fun x => negb (Ascii.eqb x ")")) u) as [body r]. cbv zeta in H.
  apply andb_true_iff in H. destruct H as [H E]. apply str_eqb_eq in E. eexists. eapply name_list_ok; [exact H|exact E].
Qed.
Lemma strips : forall ls parts, Forall2 trimmed ls parts -> parts = map strip ls.
Proof. induction 1 as [|l p ls ps T _ IH]; [reflexivity|]. cbn [map]. f_equal; [|exact IH]. symmetry. now apply strip_iff. Qed.
Lemma written_authorsb_ok : forall fld, written_authorsb fld = true -> written_authors fld.
Proof.
  intros fld H. apply orb_true_iff in H. destruct H as [H|H].
  - left. apply existsb_exists in H. destruct H as (l & I & H). exists l. split; [exact I|]. apply orb_true_iff in H.
    destruct H as [H|H]; [left|right]; now apply contains_mentions in H.
  - right. intros p ls parts L T. apply strips in T. subst.
    destruct (name_listb_ok _ (pointersb_ok _ _ H p ls L)) as (names & NL). exists names. now left.
Qed.

Lemma institutesb_ok : forall text, institutesb text = true -> exists is, is <> [] /\ institutes_text is text /\ no_tabs text.
Proof.
  intros text H. unfold institutesb in H. destruct (ipieces (length text) text) as [[l b] rest]. rewrite !andb_true_iff in H. destruct H as [[[[[H1 H2] H3] H4] H5] H6].
  apply str_eqb_eq in H5. eexists. split; [|split; [exact (render_ok _ _ _ _ H2 H3 H4 H5)|apply no_tabsb_ok; now apply negb_true_iff]].
  intros Q. apply map_eq_nil in Q. rewrite Q in H1. discriminate.
Qed.
Lemma written_institutesb_ok : forall fld, written_institutesb fld = true -> written_institutes fld.
Proof. intros fld H p ls text L T. apply pointer_text_is in T. subst. apply institutesb_ok. exact (pointersb_ok _ _ H p ls L). Qed.

Lemma written_referencesb_ok : forall fld, written_referencesb fld = true -> written_references fld.
Proof.
  intros fld H. unfold written_referencesb in H. rewrite !andb_true_iff in H. destruct H as [[[H1 H2] H3] H4]. split; [now apply newlines_ok|]. split.
  - intros p ls L. exists (refs_guess ls). exact (ref_linesb_ok _ (pointersb_ok _ _ H2 p ls L)).
  - intros p ps ls M L. pose proof (pointersb_ok _ _ H2 p ls L) as R. rewrite M in H4. apply pointer_lines_get in L.
    destruct (field_lines fld) as [|[q ls'] ds] eqn:FL; [discriminate|]. apply Ascii.eqb_eq in H4. subst q.
    assert (ls' = ls) as -> by (cbn [dget] in L; rewrite Ascii.eqb_refl in L; congruence).
    apply ref_linesb_ok in R. unfold first_publication in H3. destruct (refs_guess ls) as [|r rs]; [discriminate|]. exists r, rs. split; [exact R|now apply cmem_In].
Qed.

Lemma field_okb_ok : forall c fld, field_okb c fld = true -> well_field c fld.
Proof.
  intros c fld H. unfold field_okb in H.
  assert (U : forall kw kw', field_keyword (tx kw) fld -> field_keyword (tx kw') fld -> tx kw' = tx kw).
  { intros kw kw' (l & r & E & T) (l' & r' & E' & T'). rewrite E in E'. assert (l' = l) by congruence. subst. apply strip_iff in T, T'. congruence. }
  destruct (keywordb (tx "REACTION") fld) eqn:K1.
  { apply keyword_iff in K1. constructor; intros Q; try (pose proof (U _ _ K1 Q); discriminate). now apply written_reactionsb_ok. }
  destruct (keywordb (tx "MONITOR") fld) eqn:K2.
  { apply keyword_iff in K2. constructor; intros Q; try (pose proof (U _ _ K2 Q); discriminate). now apply written_monitorsb_ok. }
  destruct (keywordb (tx "REFERENCE") fld) eqn:K3.
  { apply keyword_iff in K3. constructor; intros Q; try (pose proof (U _ _ K3 Q); discriminate). now apply written_referencesb_ok. }
  destruct (keywordb (tx "AUTHOR") fld) eqn:K4.
  { apply keyword_iff in K4. constructor; intros Q; try (pose proof (U _ _ K4 Q); discriminate). now apply written_authorsb_ok. }
  destruct (keywordb (tx "INSTITUTE") fld) eqn:K5.
  { apply keyword_iff in K5. constructor; intros Q; try (pose proof (U _ _ K5 Q); discriminate). now apply written_institutesb_ok. }
  constructor; intros Q; apply keyword_iff in Q; congruence.
Qed.

(** ** Sections, subentries, entries *)

Lemma bib_fields : forall b, match b with _ :: l :: _ => negb (BibLemmas.is_frame l) | _ => false end = true -> fields b (bib_chunkify b).
Proof.
  intros b F. destruct (bib_chunkify b) as [|f fs] eqn:E; [exfalso|].
  - destruct (BibLemmas.bib_chunkify_spec b) as (f & r & _ & Q & _). congruence.
  - apply fields_ok; [exact E|]. destruct b as [|x [|l r]]; try discriminate. exists l. split; [right; now left|].
    intro X. apply BibLemmas.is_frame_iff in X. rewrite X in F. discriminate.
Qed.
Lemma section_okb_ok : forall c b, section_okb c b = true -> well_section c b.
Proof.
  intros c b H. unfold section_okb in H. destruct (keywordb (tx "BIB") b) eqn:K.
  - left. split; [now apply keyword_iff|]. apply andb_true_iff in H. destruct H as [F W]. exists (bib_chunkify b). split; [now apply bib_fields|].
    revert W. apply forallb_Forall. apply field_okb_ok.
  - right. apply andb_true_iff in H. destruct H as [Q T]. split; [|now apply numeric_tableb_ok]. apply orb_true_iff in Q.
    destruct Q as [Q|Q]; [left|right]; now apply keyword_iff.
Qed.
Lemma subentry_okb_ok : forall c text, subentry_okb c text = true -> well_subentry c text.
Proof.
  intros c text H. apply andb_true_iff in H. destruct H as [N S]. destruct (extractX4SubEntryIndex (split_char nl text)) as [num|] eqn:E; [|discriminate].
  apply (well_subentry_check _ num); [unfold numberedb; rewrite E; apply str_eqb_refl|]. revert S. apply forallb_Forall. apply section_okb_ok.
Qed.
Lemma entry_okb_ok : forall c acc raw, entry_okb c acc raw = true -> well_entry c acc raw.
Proof.
  intros c acc raw H. unfold entry_okb in H. rewrite !andb_true_iff in H. destruct H as [[H1 H2] H3]. constructor.
  - destruct raw as [|text rest]; [discriminate|]. destruct (split_char nl text) as [|l ls] eqn:E; [discriminate|].
    rewrite !andb_true_iff in H1. destruct H1 as [[S A] L]. exists text, rest, l, ls. split; [reflexivity|]. split; [rewrite <- E; apply split_lines|].
    split; [|split; [now apply str_eqb_eq|now apply Nat.eqb_eq]].
    pose proof (split_words l) as X. destruct (split_ws l) as [|w ws]; [discriminate|]. apply str_eqb_eq in S. subst w. exists ws. exact X.
  - revert H2. apply forallb_Forall. apply subentry_okb_ok.
  - destruct (lastb (numberedb (acc ++ tx "001")) raw) as [text|] eqn:E; [|discriminate].
    destruct (lastb (keywordb (tx "BIB")) (sections_in text)) as [b|] eqn:B; [|discriminate]. exists text, b. split; [|now apply has_sectionb].
    apply (lastb_ok _ _ (numberedb (acc ++ tx "001"))); [intros y; apply numbered_iff|exact E].
Qed.
