(** What the grammars of Model/Grammars.v make of well-formed codes. *)
From Coq Require Import String List Ascii NArith ZArith Bool Arith Lia.
From Verif.Model Require Import Py Particle Pyparsing Grammars.
From Verif.Spec Require Import Text Codes.
From Verif.Proofs Require Import StrLemmas ParseLemmas.
Import ListNotations.
Local Open Scope list_scope.
Local Open Scope nat_scope.

(** * Characters *)

Lemma digit_dig : forall c, digit c <-> is_dig c = true.
Proof. intros c. unfold digit, is_dig, code. rewrite andb_true_iff, !N.leb_le. tauto. Qed.
Lemma capital_cap : forall c, capital c <-> is_cap c = true.
Proof. intros c. unfold capital, is_cap, code. rewrite andb_true_iff, !N.leb_le. tauto. Qed.
Lemma letter_alpha : forall c, letter c <-> is_alpha c = true.
Proof.
  intros c. unfold letter, is_alpha, is_low, code. rewrite orb_true_iff, capital_cap, andb_true_iff, !N.leb_le. tauto.
Qed.
Lemma Forall_forallb : forall (P : ascii -> Prop) p, (forall c, P c <-> p c = true) ->
  forall s, Forall P s <-> forallb p s = true.
Proof.
  intros P p E s. rewrite forallb_forall, Forall_forall. split; intros H c I; apply E; auto.
Qed.
Definition digits_dig := Forall_forallb digit is_dig digit_dig.
Definition letters_alpha := Forall_forallb letter is_alpha letter_alpha.

(** Facts about all characters are computed. *)
Ltac by_chars := apply forall_ascii; vm_compute; reflexivity.

Lemma implies_chars : forall p q : ascii -> bool,
  forallb (fun c => implb (p c) (q c)) all_ascii = true -> forall c, p c = true -> q c = true.
Proof.
  intros p q H c C. rewrite forallb_forall in H. specialize (H c (all_ascii_In c)). rewrite C in H. exact H.
Qed.
Ltac chars H :=
  match type of H with
  | ?L = true =>
      match goal with
      | |- ?R = true =>
          match L with
          | context [?v] =>
              lazymatch v with Ascii _ _ _ _ _ _ _ _ => fail | _ => idtac end;
              match type of v with
              | ascii =>
                  let P := eval pattern v in L in
                  let Q := eval pattern v in R in
                  match P with
                  | ?p _ => match Q with
                            | ?q _ => refine (implies_chars p q _ v H); vm_compute; reflexivity
                            end
                  end
              end
          end
      end
  end.

Lemma dig_dark : forall c, is_dig c = true -> is_white c = false.
Proof. intros c H. apply negb_true_iff. chars H. Qed.
Lemma alpha_dark : forall c, is_alpha c = true -> is_white c = false.
Proof. intros c H. apply negb_true_iff. chars H. Qed.
Lemma cap_dark : forall c, is_cap c = true -> is_white c = false.
Proof. intros c H. apply negb_true_iff. chars H. Qed.

Lemma nxt_fol : forall p k, (forall c, is_white c = true -> p c = true) -> nxt p k -> fol p k.
Proof.
  intros p [|c k] W H; [exact I|]. unfold nxt in H. cbn [skip_white] in H. cbn [fol].
  destruct (is_white c) eqn:E; [now apply W|exact H].
Qed.
Lemma fol_weaken : forall (p q : ascii -> bool) k, (forall c, p c = true -> q c = true) -> fol p k -> fol q k.
Proof. intros p q [|c k] I H; [exact H|]. cbn [fol] in *. auto. Qed.
Lemma nxt_weaken : forall (p q : ascii -> bool) k, (forall c, p c = true -> q c = true) -> nxt p k -> nxt q k.
Proof. intros p q k. apply fol_weaken. Qed.
Lemma nxt_skip : forall p k, nxt p k <-> fol p (skip_white k).
Proof. reflexivity. Qed.

Lemma oneof_parses : forall cs c, In c cs -> forallb (fun d => negb (is_white d)) cs = true ->
  parses (MatchFirst (map (fun d => Literal [d]) cs)) [[c]] [PTok [c]] any.
Proof.
  induction cs as [|d cs IH]; intros c I W; [destruct I|].
  cbn [forallb] in W. apply andb_prop in W as [Wd W]. apply negb_true_iff in Wd.
  intros s k x S K N. rewrite run_MatchFirst. cbn [map first_of].
  destruct (Ascii.eqb d c) eqn:E.
  - apply Ascii.eqb_eq in E as ->. destruct (Literal_parses c [] Wd s k x S K N) as (k' & E' & N').
    exists k'. now rewrite E'.
  - destruct I as [->|I]; [now rewrite Ascii.eqb_refl in E|].
    assert (Wc : is_white c = false).
    { rewrite forallb_forall in W. specialize (W c I). now apply negb_true_iff. }
    rewrite (Literal_head d [] x).
    + exact (IH c I W s k x S K N).
    + rewrite (near_skip _ _ N). destruct (skip_spaced c [] [] s k Wc S) as (s' & -> & _).
      cbn [app fol]. now rewrite E.
Qed.
Lemma oneof_refuses : forall cs, refuses (MatchFirst (map (fun d => Literal [d]) cs)) (fol (fun c => negb (cmem c cs))).
Proof.
  intros cs. apply MatchFirst_refuses. rewrite Forall_map, Forall_forall. intros d I.
  eapply refuses_weaken; [apply Literal_head|]. intros k. apply fol_weaken. intros c H.
  apply negb_true_iff in H. apply negb_true_iff. destruct (Ascii.eqb d c) eqn:E; [|reflexivity].
  apply Ascii.eqb_eq in E as ->. now rewrite (proj2 (cmem_In c cs) I) in H.
Qed.

(** * Nuclides *)

Definition nuc_stop (c : ascii) : bool := negb (is_dig c || isomer_letter c || cmem c (lit "+-*/")).

Lemma nums_parses : forall w, nonempty digit w -> parses nums [w] [PTok w] (fol (fun c => negb (is_dig c))).
Proof.
  intros [|c t] [NE H]; [congruence|]. apply digits_dig in H. cbn [forallb] in H. apply andb_prop in H as [C T].
  apply Word2_parses; auto. now apply dig_dark.
Qed.
Lemma nums_refuses : refuses nums (fol (fun c => negb (is_dig c))).
Proof. apply Word2_refuses. Qed.

Lemma number_parses : forall w, Forall digit w ->
  parses (Optional nums) (number_tokens w) (map PTok (number_tokens w)) (nxt (fun c => negb (is_dig c))).
Proof.
  intros [|c t] H.
  - apply Optional_none, nums_refuses.
  - eapply parses_weaken; [apply Optional_parses, nums_parses; split; [discriminate|exact H]|].
    intros k. apply nxt_fol. intros d D. chars D.
Qed.

Lemma dash_parses : parses dash [tx "-"] [] any.
Proof. eapply Suppress_parses. apply (Literal_parses "-"%char []). reflexivity. Qed.

Lemma isomer_parses : forall i, good_isomer i ->
  parses (And mathop isomer_modifier) (isomer_tokens i) (map PTok (isomer_tokens i))
         (nxt (fun c => negb (is_dig c || isomer_letter c))).
Proof.
  intros i (O & L & D).
  assert (Lb : isomer_letter (i_letter i) = true) by now apply cmem_In.
  assert (W : is_white (i_letter i) = false) by (apply negb_true_iff; chars Lb).
  apply (parses_And mathop isomer_modifier [[i_op i]] [PTok [i_op i]] any
           ([i_letter i] :: number_tokens (i_number i)) (map PTok ([i_letter i] :: number_tokens (i_number i)))).
  - reflexivity.
  - apply (oneof_parses (lit "+-*/")); [exact O|reflexivity].
  - apply (rest_cons (WordMax isomer_letter isomer_letter 1) [Optional nums] [[i_letter i]] [PTok [i_letter i]]
             (fol (fun d => negb (isomer_letter d)))).
    + apply WordMax_parses; auto.
    + apply rest_one. eapply parses_weaken; [apply number_parses, D|].
      intros k. apply nxt_weaken. intros c C. chars C.
    + intros s k S K. destruct (i_number i) as [|d t] eqn:E.
      * inversion S; subst. cbn [app]. apply nxt_fol; [intros c C; chars C|].
        eapply nxt_weaken; [|exact K]. intros c C. chars C.
      * inversion D as [|? ? Dd _]; subst. apply digit_dig in Dd. eapply fol_spaced; [|exact S| |].
        -- exists d, t, []. split; [reflexivity|now apply dig_dark].
        -- intros c C. chars C.
        -- intros c t' l X. injection X as <- _ _. chars Dd.
  - exact (fun _ _ _ _ => I).
Qed.

Lemma isomer_tokened : forall i, good_isomer i -> tokened (isomer_tokens i).
Proof.
  intros i (O & _). exists (i_op i), [], ([i_letter i] :: number_tokens (i_number i)). split; [reflexivity|].
  assert (B : cmem (i_op i) (lit "+-*/") = true) by now apply cmem_In. apply negb_true_iff. chars B.
Qed.

Lemma isomers_parse : forall l, Forall good_isomer l ->
  parses (ZeroOrMore (And mathop isomer_modifier)) (flat_map isomer_tokens l)
         (map PTok (flat_map isomer_tokens l)) (nxt nuc_stop).
Proof.
  intros l H. set (items := map (fun i => (isomer_tokens i, map PTok (isomer_tokens i))) l).
  assert (E1 : flat_map isomer_tokens l = concat (map fst items)).
  { unfold items. rewrite map_map, flat_map_concat_map. reflexivity. }
  assert (E2 : map PTok (flat_map isomer_tokens l) = concat (map snd items)).
  { unfold items. rewrite map_map, flat_map_concat_map, concat_map, map_map. reflexivity. }
  rewrite E2, E1.
  apply (ZeroOrMore_parses _ (fol nuc_stop)).
  - apply And_refuses; [reflexivity|]. eapply refuses_weaken; [apply (oneof_refuses (lit "+-*/"))|].
    intros k. apply fol_weaken. intros c C. chars C.
  - apply (chain_uniform _ (nxt (fun c => negb (is_dig c || isomer_letter c)))).
    + unfold items. rewrite Forall_map. rewrite Forall_forall in *. intros i I.
      split; [now apply isomer_tokened, H|apply isomer_parses; auto].
    + intros k. apply fol_weaken. intros c C. chars C.
    + intros i s k I S. unfold items in I. apply in_map_iff in I as (j & <- & J).
      rewrite Forall_forall in H. specialize (H j J). destruct H as (O & _).
      assert (B : cmem (i_op j) (lit "+-*/") = true) by now apply cmem_In.
      eapply nxt_spaced; [exact S| |]; [apply negb_true_iff; chars B|chars B].
Qed.

(** Element symbols: the longest of the alternatives. *)
Lemma element_parses : forall sym, (exists c t, sym = c :: t /\ capital c /\ (t = [] \/ exists d, t = [d] /\ letter d)) ->
  parses x4element [sym] [PTok sym] (nxt (fun c => Ascii.eqb c "-"%char)).
Proof.
  intros sym (c & t & -> & C & T). apply capital_cap in C. pose proof (cap_dark _ C) as W.
  assert (Ta : forallb is_alpha t = true /\ length t <= 1).
  { destruct T as [->|(d & -> & D)]; [auto|]. apply letter_alpha in D. cbn. rewrite D. auto. }
  destruct Ta as [Ta Tl].
  intros s k x S K N.
  destruct (WordMax_parses capsStar is_alpha 2 c t W) with (s := s) (k := k) (x := x) as (k' & E & N'); auto.
  { unfold capsStar. now rewrite C. }
  { lia. }
  { apply nxt_fol; [intros d D; chars D|]. eapply nxt_weaken; [|exact K]. intros d D. chars D. }
  exists k'. split; [|exact N'].
  unfold x4element. rewrite run_Or. cbn [map fold_left]. rewrite E, none_longer.
  apply fold_longer_keep with (rs := [_; _; _; _; _]).
  destruct (skip_spaced c t [] s k W S) as (s' & X & S'). inversion S'; subst s'. cbn [app] in X.
  assert (L : forall m, 1 <= length m -> length m <= length (c :: t) \/ (forallb (fun d => negb (is_white d || Ascii.eqb d "-"%char)) m = true) ->
     shorter (run (Literal m) true true x) (length k')).
  { intros m Lm H. rewrite run_pre by reflexivity. rewrite (near_skip _ _ N), X. cbn [Literal impl].
    destruct m as [|m1 m2]; [cbn in Lm; lia|].
    destruct (is_prefix (m1 :: m2) (c :: t ++ k)) eqn:P; [|exact I]. cbn [shorter].
    pose proof (near_len _ _ N') as NL.
    rewrite skipn_length. cbn [length]. rewrite app_length.
    assert (length (m1 :: m2) <= length (c :: t)); [|cbn [length] in *; lia].
    destruct H as [H|H]; [exact H|].
    destruct (Nat.le_gt_cases (length (m1 :: m2)) (length (c :: t))) as [|G]; [assumption|exfalso].
    apply prefix_spec in P as [r P]. change (c :: t ++ k) with ((c :: t) ++ k) in P.
    assert (Q : exists e' q, k = e' :: q /\ In e' (m1 :: m2)).
    { assert (Q : firstn (length (m1 :: m2)) ((c :: t) ++ k) = m1 :: m2).
      { rewrite P. rewrite firstn_app, Nat.sub_diag, firstn_O, app_nil_r. apply firstn_all. }
      rewrite firstn_app in Q. rewrite firstn_all2 in Q by lia.
      destruct k as [|e' q].
      - apply (f_equal (@length ascii)) in P. rewrite !app_length in P. cbn [length] in P, G. lia.
      - exists e', q. split; [reflexivity|]. rewrite <- Q. apply in_or_app. right.
        destruct (length (m1 :: m2) - length (c :: t)) eqn:D; [lia|]. now left. }
    destruct Q as (e' & q & -> & Ie). rewrite forallb_forall in H. specialize (H e' Ie).
    unfold nxt in K. cbn [skip_white] in K. apply negb_true_iff, orb_false_elim in H as [H1 H2].
    rewrite H1 in K. cbn [fol] in K. congruence. }
  repeat apply Forall_cons; try apply Forall_nil; (apply L; [cbn; lia|right; reflexivity]).
Qed.

Lemma nucleus_parses : forall n, good_nuclide n ->
  parses x4nucleus (nuclide_tokens n) (map PTok ([n_Z n; n_sym n; n_A n] ++ flat_map isomer_tokens (n_iso n)))
         (nxt nuc_stop).
Proof.
  intros n (Z & A & Is & Sy).
  assert (Hd : forall s k, spaced (tx "-" :: n_sym n :: tx "-" :: n_A n :: flat_map isomer_tokens (n_iso n)) s ->
                 fol (fun c => negb (is_dig c)) (s ++ k)).
  { intros s k S. eapply fol_spaced; [|exact S| |].
    - eexists _, _, _. split; reflexivity.
    - intros c C. chars C.
    - intros c t l X. injection X as <- _ _. reflexivity. }
  apply (parses_And nums _ [n_Z n] [PTok (n_Z n)] (fol (fun c => negb (is_dig c)))
           (tx "-" :: n_sym n :: tx "-" :: n_A n :: flat_map isomer_tokens (n_iso n))
           (map PTok ([n_sym n; n_A n] ++ flat_map isomer_tokens (n_iso n)))).
  - reflexivity.
  - apply nums_parses, Z.
  - apply (rest_cons dash _ [tx "-"] [] any); [apply dash_parses| |exact (fun _ _ _ _ => I)].
    apply (rest_cons x4element _ [n_sym n] [PTok (n_sym n)] (nxt (fun c => Ascii.eqb c "-"%char)));
      [apply element_parses, Sy| |].
    2:{ intros s k S _. eapply nxt_spaced; [exact S|reflexivity|reflexivity]. }
    apply (rest_cons dash _ [tx "-"] [] any); [apply dash_parses| |exact (fun _ _ _ _ => I)].
    apply (rest_cons nums _ [n_A n] [PTok (n_A n)] (fol (fun c => negb (is_dig c)))); [apply nums_parses, A| |].
    + apply rest_one, isomers_parse, Is.
    + intros s k S K. destruct (n_iso n) as [|i l].
      * inversion S; subst. apply nxt_fol; [intros c C; chars C|]. eapply nxt_weaken; [|exact K].
        intros c C. chars C.
      * inversion Is as [|? ? (O & _) _]; subst.
        assert (B : cmem (i_op i) (lit "+-*/") = true) by now apply cmem_In.
        eapply fol_spaced; [|exact S| |].
        -- exists (i_op i), [], ([i_letter i] :: number_tokens (i_number i) ++ flat_map isomer_tokens l).
           split; [reflexivity|]. apply negb_true_iff. chars B.
        -- intros c C. chars C.
        -- intros c t l' X. injection X as <- _ _. chars B.
  - intros s k S _. now apply Hd.
Qed.

Lemma nucleus_refuses : refuses x4nucleus (fol (fun c => negb (is_dig c))).
Proof. apply And_refuses; [reflexivity|apply nums_refuses]. Qed.

(** * Words *)

Lemma app_inj_len : forall (a b c d : str), length a = length b -> a ++ c = b ++ d -> a = b /\ c = d.
Proof.
  induction a as [|x a IH]; intros [|y b] c d L E; try discriminate; [auto|].
  cbn [app] in E. injection E as -> E. injection L as L. destruct (IH b c d L E) as [-> ->]. auto.
Qed.
Lemma app_longer : forall (a b c d : str), a ++ c = b ++ d -> length a <= length b ->
  exists u, b = a ++ u /\ c = u ++ d.
Proof.
  induction a as [|x a IH]; intros b c d E L; [exists b; auto|].
  destruct b as [|y b]; [cbn in L; lia|]. cbn [app] in E. injection E as -> E. cbn [length] in L.
  destruct (IH b c d E) as (u & -> & ->); [lia|]. exists u. auto.
Qed.

Lemma Literal_result : forall m x, run (Literal m) true true x = None \/
  exists q, m <> [] /\ skip_white x = m ++ q /\ run (Literal m) true true x = Some ([PTok m], q).
Proof.
  intros m x. rewrite run_pre by reflexivity. cbn [Literal impl]. destruct m as [|c m]; [now left|].
  destruct (is_prefix (c :: m) (skip_white x)) eqn:P; [|now left]. right. apply prefix_spec in P as [q ->].
  exists q. split; [discriminate|]. split; [reflexivity|]. f_equal. f_equal. exact (skipn_app_len _ (c :: m) q).
Qed.
Lemma one_of_result : forall keys x, run (one_of keys) true true x = None \/
  exists m q, In m keys /\ m <> [] /\ skip_white x = m ++ q /\ run (one_of keys) true true x = Some ([PTok m], q).
Proof.
  intros keys x. unfold one_of. rewrite run_Or.
  assert (G : forall ks r0, (forall m, In m ks -> In m keys) ->
     (r0 = None \/ exists m q, In m keys /\ m <> [] /\ skip_white x = m ++ q /\ r0 = Some ([PTok m], q)) ->
     let r := fold_left longer (map (fun e => run e true true x) (map Literal ks)) r0 in
     r = None \/ exists m q, In m keys /\ m <> [] /\ skip_white x = m ++ q /\ r = Some ([PTok m], q)).
  { induction ks as [|k ks IH]; intros r0 I R0; [exact R0|]. cbn [map fold_left].
    apply IH; [intros m M; apply I; now right|].
    destruct (Literal_result k x) as [->|(q & NE & X & ->)]; [now rewrite longer_none|].
    destruct R0 as [->|(m & q' & Im & Nm & Xm & ->)]; cbn [longer].
    - right. exists k, q. repeat split; auto. apply I. now left.
    - right. destruct (length q <? length q'); [exists k, q|exists m, q'; auto].
      repeat split; auto. apply I. now left. }
  apply (G keys None); auto.
Qed.

Lemma word_split : forall w, word w -> exists c t b, w = (c :: t) ++ b /\ is_alpha c = true /\
  forallb is_alpha t = true /\ forallb is_dig b = true.
Proof.
  intros w (a & b & -> & [NE A] & B). destruct a as [|c t]; [congruence|].
  apply letters_alpha in A. cbn [forallb] in A. apply andb_prop in A as [C T].
  exists c, t, b. repeat split; auto. now apply digits_dig.
Qed.

Lemma particle_run : forall w k x, word w -> fol (fun c => negb (is_alphanum c)) k -> skip_white x = w ++ k ->
  run x4particle true true x = Some ([PTok w], k).
Proof.
  intros w k x W K X. destruct (word_split w W) as (c & t & b & -> & C & T & B).
  rewrite run_pre by reflexivity. rewrite X. unfold x4particle. cbn [Combine impl].
  assert (K1 : fol (fun d => negb (is_alpha d)) (b ++ k)).
  { destruct b as [|d b]; cbn [app].
    - eapply fol_weaken; [|exact K]. intros d D. chars D.
    - cbn [forallb] in B. apply andb_prop in B as [D _]. cbn [fol]. chars D. }
  assert (K2 : fol (fun d => negb (is_dig d)) k) by (eapply fol_weaken; [|exact K]; intros d D; chars D).
  assert (R : run (And (Word is_alpha) [Optional nums]) false false ((c :: t ++ b) ++ k)
              = Some (PTok (c :: t) :: map PTok (number_tokens b), k)).
  { unfold run at 1. cbn [andb And impl]. unfold run at 1. cbn [andb Word Word2 impl app].
    rewrite C, <- app_assoc, (span_app _ _ _ T K1). cbn [and_rest]. unfold run.
    cbn [andb Optional OptionalD callpre skipws impl nums Word Word2]. unfold run. cbn [andb impl].
    destruct b as [|d b]; cbn [app].
    - destruct k as [|e k]; [reflexivity|]. cbn [fol] in K2. apply negb_true_iff in K2. unfold nums, Word. cbn [Word2 impl]. rewrite K2. reflexivity.
    - cbn [forallb] in B. apply andb_prop in B as [D B]. unfold nums, Word. cbn [Word2 impl]. rewrite D, (span_app _ _ _ B K2). reflexivity. }
  cbn [app] in R |- *. rewrite R. f_equal. f_equal. f_equal. f_equal.
  destruct b as [|d b]; cbn; rewrite ?app_nil_r; reflexivity.
Qed.
Lemma particle_parses : forall w, word w -> parses x4particle [w] [PTok w] (fol (fun c => negb (is_alphanum c))).
Proof.
  intros w W s k x S K N. exists k. split; [|apply near_refl]. apply particle_run; auto.
  destruct (word_split w W) as (c & t & b & E & C & _). cbn [app] in E. rewrite E in *.
  rewrite (near_skip _ _ N). destruct (skip_spaced c (t ++ b) [] s k (alpha_dark _ C) S) as (s' & -> & S').
  inversion S'; subst. reflexivity.
Qed.
Lemma particle_refuses : refuses x4particle (fol (fun c => negb (is_alpha c))).
Proof.
  intros x X. rewrite run_pre by reflexivity. unfold x4particle. cbn [Combine impl].
  unfold run at 1. cbn [andb And impl]. unfold run at 1. cbn [andb Word Word2 impl].
  destruct (skip_white x) as [|c s]; [reflexivity|]. cbn [fol] in X. apply negb_true_iff in X. now rewrite X.
Qed.

(** The first token of a text. *)
Lemma first_token : forall t ts s k x c u, t = c :: u -> is_white c = false -> spaced (t :: ts) s -> near x (s ++ k) ->
  exists s', skip_white x = t ++ s' ++ k /\ spaced ts s'.
Proof.
  intros t ts s k x c u -> W S N. rewrite (near_skip _ _ N).
  destruct (skip_spaced c u ts s k W S) as (s' & E & S'). exists s'. split; [exact E|exact S'].
Qed.

(** A list of digits read as a nuclide, followed by something other than a dash. *)
Lemma nucleus_not : forall w k x, nonempty digit w -> skip_white x = w ++ k ->
  fol (fun c => negb (is_dig c)) k -> nxt (fun c => negb (Ascii.eqb c "-"%char)) k -> run x4nucleus true true x = None.
Proof.
  intros w k x D X F N. destruct D as [NE D]. destruct w as [|c t]; [congruence|]. apply digits_dig in D.
  cbn [forallb] in D. apply andb_prop in D as [C T].
  rewrite run_pre by reflexivity. rewrite X. unfold x4nucleus. cbn [And impl]. unfold run at 1.
  cbn [andb nums Word Word2 impl app]. rewrite C, (span_app _ _ _ T F). cbn [and_rest].
  assert (R : run dash true true k = None); [|now rewrite R].
  apply (Suppress_refuses _ _ (Literal_head "-"%char []) k). eapply fol_weaken; [|exact N]. intros d E. chars E.
Qed.

Definition prod_stop (c : ascii) : bool := cmem c (lit "+)").

(** A key of the particle dictionary that starts with a digit is 0. *)
Lemma basic_digit : forall c x, Forall particle_key (c_particles c) ->
  forall d u, skip_white x = d :: u -> is_dig d = true ->
  run (x4basicparticle c) true true x = None \/
  exists q, skip_white x = "0"%char :: q /\ run (x4basicparticle c) true true x = Some ([PTok (tx "0")], q).
Proof.
  intros c x K d u X D. rewrite run_pre by reflexivity. unfold x4basicparticle. cbn [And impl].
  assert (O : run (Optional (Literal (lit "X"))) true false (skip_white x) = Some ([], skip_white x)).
  { unfold run. cbn [andb Optional OptionalD impl]. unfold run. cbn [andb].
    change (impl (Literal (lit "X")) true (skip_white x)) with
      (if is_prefix (lit "X") (skip_white x) then Some ([PTok (lit "X")], skipn 1 (skip_white x)) else None).
    rewrite X. change (is_prefix (lit "X") (d :: u)) with (Ascii.eqb "X"%char d && true).
    assert (E : negb (Ascii.eqb "X"%char d) = true) by chars D. apply negb_true_iff in E. now rewrite E. }
  rewrite O. cbn [and_rest].
  destruct (one_of_result (c_particles c) (skip_white x)) as [->|(m & q & I & NE & E & ->)]; [now left|].
  rewrite skip_idem in E. right. rewrite Forall_forall in K. destruct (K m I) as [->|(a & t & -> & L)].
  - exists q. split; [exact E|reflexivity].
  - exfalso. rewrite X in E. cbn [app] in E. injection E as -> _. apply letter_alpha in L.
    assert (Z : negb (is_dig a) = true) by chars L. now rewrite D in Z.
Qed.

Lemma zero_shorter : forall c t (k k' : str) x, skip_white x = c :: t -> length k' <= length k -> length k <= length t ->
  shorter (run (Literal (tx "0")) true true x) (length k') /\ (length k < length t -> much_shorter (run (Literal (tx "0")) true true x) (length k')).
Proof.
  intros c t k k' x X L1 L2. destruct (Literal_result (tx "0") x) as [->|(q & _ & E & ->)]; [split; auto; intros; exact I|].
  rewrite X in E. injection E as _ ->. cbn [shorter much_shorter]. lia.
Qed.

(** Products. *)
Lemma product_word : forall c w, Forall particle_key (c_particles c) -> good_product (c_particles c) (CWord w) ->
  parses (x4product c) [w] [PTok w] (nxt prod_stop).
Proof.
  intros c w K (W & NX & B) s k x S F N. destruct (word_split w W) as (a & t & b & E & A & T & D).
  cbn [app] in E. destruct (first_token w [] s k x a (t ++ b) E (alpha_dark _ A) S N) as (s' & X & S').
  inversion S'; subst s'. cbn [app] in X.
  assert (FA : fol (fun d => negb (is_alphanum d)) k).
  { apply nxt_fol; [intros d H; chars H|]. eapply nxt_weaken; [|exact F]. intros d H. chars H. }
  assert (XA : skip_white x = a :: (t ++ b) ++ k) by now rewrite X, E.
  exists k. split; [|apply near_refl]. unfold x4product. rewrite run_Or. cbn [map fold_left].
  rewrite (Group_refuses _ _ nucleus_refuses x) by (rewrite XA; cbn [fol]; chars A).
  rewrite none_longer. rewrite (particle_run w k x W FA X).
  assert (A4 : run (Group (And (Optional nums) [x4particle])) true true x = Some ([PGroup [PTok w]], k)).
  { rewrite run_Group, run_pre by reflexivity. cbn [And impl].
    assert (O : run (Optional nums) true false (skip_white x) = Some ([], skip_white x)).
    { pose proof (run_OptionalD nums [] (skip_white x)) as O. rewrite run_skip in O. unfold run at 1. cbn [andb].
      unfold Optional. rewrite O. rewrite (nums_refuses (skip_white x)).
      - cbn [callpre skipws nums Word Word2 andb]. now rewrite skip_idem.
      - rewrite skip_idem, XA. cbn [fol]. chars A. }
    rewrite O. cbn [and_rest]. rewrite (particle_run w k (skip_white x) W FA) by (rewrite skip_idem; exact X). reflexivity. }
  assert (A5 : run (Literal (lit "0")) true true x = None).
  { apply (Literal_head "0"%char []). rewrite XA. cbn [fol]. chars A. }
  rewrite A4, A5, longer_none.
  assert (BP : much_shorter (run (x4basicparticle c) true true x) (length k) \/
               run (x4basicparticle c) true true x = Some ([PTok w], k)).
  { rewrite run_pre by reflexivity. unfold x4basicparticle. cbn [And impl].
    destruct (Ascii.eqb "X"%char a) eqn:EX.
    - apply Ascii.eqb_eq in EX as <-. assert (Z : t ++ b = []) by (apply (NX (t ++ b)); exact E). rewrite Z in XA. cbn [app] in XA.
      assert (O : run (Optional (Literal (lit "X"))) true false (skip_white x) = Some ([PTok (lit "X")], k)).
      { rewrite XA. reflexivity. }
      rewrite O. cbn [and_rest]. left.
      destruct (one_of_result (c_particles c) k) as [->|(m & q & I & NE & Ek & _)]; [exact Logic.I|exfalso].
      unfold nxt in F. rewrite Ek in F. rewrite Forall_forall in K.
      destruct (K m I) as [->|(e & u & -> & L)]; cbn [app fol] in F.
      + discriminate.
      + apply letter_alpha in L. assert (Y : negb (prod_stop e) = true) by chars L. now rewrite F in Y.
    - assert (O : run (Optional (Literal (lit "X"))) true false (skip_white x) = Some ([], skip_white x)).
      { unfold run. cbn [andb Optional OptionalD impl]. unfold run. cbn [andb]. rewrite XA.
        change (impl (Literal (lit "X")) true (a :: (t ++ b) ++ k)) with
          (if Ascii.eqb "X"%char a && true then Some ([PTok (lit "X")], skipn 1 (a :: (t ++ b) ++ k)) else None).
        now rewrite EX. }
      rewrite O. cbn [and_rest].
      destruct (one_of_result (c_particles c) (skip_white x)) as [->|(m & q & Im & NE & Ek & ->)]; [left; exact I|].
      rewrite skip_idem, X in Ek. cbn [app].
      destruct (Nat.lt_trichotomy (length m) (length w)) as [L|[L|L]].
      + left. cbn [much_shorter]. apply (f_equal (@length ascii)) in Ek. rewrite !app_length in Ek. lia.
      + right. assert (H : w = m /\ k = q) by (apply app_inj_len; [now symmetry|exact Ek]). destruct H as [-> ->]. reflexivity.
      + exfalso. assert (H : exists u, m = w ++ u /\ k = u ++ q).
        { apply app_longer; [exact Ek|lia]. }
        destruct H as (u & -> & ->). destruct u as [|e u]; [rewrite app_nil_r in L; lia|].
        pose proof (B _ (e :: u) Im eq_refl) as Al. rewrite Forall_forall in Al.
        assert (Ie : In e (w ++ e :: u)) by (apply in_or_app; right; now left). specialize (Al e Ie).
        cbn [app fol] in FA. apply negb_true_iff in FA. unfold is_alphanum in FA. apply orb_false_elim in FA as [F1 F2].
        destruct Al as [Al|Al]; [apply letter_alpha in Al|apply digit_dig in Al]; congruence. }
  assert (TIE : forall u v, longer (Some (u, k)) (Some (v, k)) = Some (u, k)).
  { intros u v. cbn [longer]. now rewrite Nat.ltb_irrefl. }
  destruct BP as [BP| ->].
  - replace (longer (run (x4basicparticle c) true true x) (Some ([PTok w], k))) with (Some ([PTok w], k)); [apply TIE|].
    destruct (run (x4basicparticle c) true true x) as [[u q]|]; [|reflexivity].
    cbn [longer much_shorter] in *. now destruct (Nat.ltb_spec (length k) (length q)); [|lia].
  - rewrite TIE. apply TIE.
Qed.

Lemma product_many : forall c n w, Forall particle_key (c_particles c) -> nonempty digit n -> word w ->
  parses (x4product c) [n; w] [PGroup [PTok n; PTok w]] (nxt prod_stop).
Proof.
  intros c n w K Dn W s k x S F N. destruct Dn as [NE Dn]. destruct n as [|d t]; [congruence|].
  pose proof Dn as Db. apply digits_dig in Db. cbn [forallb] in Db. apply andb_prop in Db as [D T].
  destruct (first_token (d :: t) [w] s k x d t eq_refl (dig_dark _ D) S N) as (s' & X & S').
  destruct (word_split w W) as (a & u & b & E & A & _). cbn [app] in E.
  destruct (first_token w [] s' k (s' ++ k) a (u ++ b) E (alpha_dark _ A) S' (near_refl _)) as (s'' & X' & S'').
  inversion S''; subst s''. cbn [app] in X'.
  assert (FA : fol (fun d => negb (is_alphanum d)) k).
  { apply nxt_fol; [intros e H; chars H|]. eapply nxt_weaken; [|exact F]. intros e H. chars H. }
  assert (F1 : nxt is_alpha (s' ++ k)) by (unfold nxt; rewrite X', E; exact A).
  assert (F2 : fol (fun e => negb (is_dig e)) (s' ++ k)).
  { apply nxt_fol; [intros e H; chars H|]. eapply nxt_weaken; [|exact F1]. intros e H. chars H. }
  cbn [app] in X.
  assert (L : length k < length (t ++ s' ++ k)).
  { pose proof (skip_len (s' ++ k)) as L. rewrite X', E in L. rewrite !app_length in *. cbn [length] in L. rewrite app_length in L. lia. }
  exists k. split; [|apply near_refl]. unfold x4product. rewrite run_Or.
  change (map (fun e : pe => run e true true x)
     [Group x4nucleus; x4basicparticle c; x4particle; Group (And (Optional nums) [x4particle]); Literal (lit "0")])
    with ([run (Group x4nucleus) true true x; run (x4basicparticle c) true true x; run x4particle true true x] ++
          run (Group (And (Optional nums) [x4particle])) true true x :: [run (Literal (lit "0")) true true x]).
  assert (A4 : run (Group (And (Optional nums) [x4particle])) true true x = Some ([PGroup [PTok (d :: t); PTok w]], k)).
  { rewrite run_Group, run_pre by reflexivity. cbn [And impl].
    assert (O : run (Optional nums) true false (skip_white x) = Some ([PTok (d :: t)], s' ++ k)).
    { unfold run. cbn [andb Optional OptionalD impl]. unfold run, nums, Word. cbn [andb Word2 impl].
      rewrite X, D, (span_app _ _ _ T F2). reflexivity. }
    rewrite O. cbn [and_rest]. rewrite (particle_run w k (s' ++ k) W FA X'). reflexivity. }
  rewrite A4. apply fold_longer_pick; [exact I| |].
  - repeat apply Forall_cons; try apply Forall_nil.
    + rewrite run_Group, (nucleus_not (d :: t) (s' ++ k) x); auto; [exact I|split; auto|].
      eapply nxt_weaken; [|exact F1]. intros e H. chars H.
    + destruct (basic_digit c x K d _ X D) as [->|(q & Q & ->)]; [exact I|].
      rewrite X in Q. injection Q as _ <-. exact L.
    + rewrite (particle_refuses x); [exact I|]. rewrite X. cbn [fol]. chars D.
  - apply Forall_cons; [|apply Forall_nil].
    apply (zero_shorter d (t ++ s' ++ k) k k x X); lia.
Qed.

Lemma product_nuclide : forall c n, Forall particle_key (c_particles c) -> good_nuclide n ->
  parses (x4product c) (nuclide_tokens n) [nuclide_tree n] (nxt nuc_stop).
Proof.
  intros c n K G s k x S F N.
  destruct (Group_parses _ _ _ _ (nucleus_parses n G) s k x S F N) as (k' & E & N').
  exists k'. split; [|exact N']. unfold x4product. rewrite run_Or. cbn [map fold_left]. rewrite E, none_longer.
  change (fold_left longer [run (x4basicparticle c) true true x; run x4particle true true x;
     run (Group (And (Optional nums) [x4particle])) true true x; run (Literal (lit "0")) true true x]
     (Some ([nuclide_tree n], k')) = Some ([nuclide_tree n], k')).
  destruct G as ([NE D] & _). unfold nuclide_tokens in S. destruct (n_Z n) as [|d t]; [congruence|].
  apply digits_dig in D. cbn [forallb] in D. apply andb_prop in D as [D T].
  destruct (first_token (d :: t) _ s k x d t eq_refl (dig_dark _ D) S N) as (s' & X & S'). cbn [app] in S'.
  cbn [app] in X. pose proof (near_len _ _ N') as L.
  assert (L2 : length k <= length (t ++ s' ++ k)) by (rewrite !app_length; lia).
  assert (F2 : nxt (fun e => Ascii.eqb e "-"%char) (s' ++ k)) by (eapply nxt_spaced; [exact S'|reflexivity|reflexivity]).
  apply fold_longer_keep. repeat apply Forall_cons; try apply Forall_nil.
  - destruct (basic_digit c x K d _ X D) as [->|(q & Q & ->)]; [exact I|].
    rewrite X in Q. injection Q as _ <-. cbn [shorter]. lia.
  - rewrite (particle_refuses x); [exact I|]. rewrite X. cbn [fol]. chars D.
  - rewrite run_Group, run_pre by reflexivity. cbn [And impl].
    assert (O : run (Optional nums) true false (skip_white x) = Some ([PTok (d :: t)], s' ++ k)).
    { unfold run. cbn [andb Optional OptionalD impl]. unfold run, nums, Word. cbn [andb Word2 impl].
      rewrite X, D, (span_app _ _ _ T); [reflexivity|].
      apply nxt_fol; [intros e H; chars H|]. eapply nxt_weaken; [|exact F2]. intros e H. chars H. }
    rewrite O. cbn [and_rest]. rewrite (particle_refuses (s' ++ k)); [exact I|].
    eapply fol_weaken; [|exact F2]. intros e H. chars H.
  - apply (zero_shorter d (t ++ s' ++ k) k k' x X); lia.
Qed.

