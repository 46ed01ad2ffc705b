(** Checkers for the examples on authors, institutes and references. *)
From Coq Require Import String List Ascii NArith ZArith Bool Arith Lia.
From Verif.Model Require Import Py Particle Dicts Pyparsing Grammars Reaction Field.
From Verif.Spec Require Import Text Codes Exfor Names References.
From Verif.Proofs Require Import StrLemmas NumLemmas FieldLemmas ParseLemmas DictLemmas BibLemmas ErrorLemmas CommaLemmas AuthorLemmas InstituteLemmas ReferenceLemmas.
Import ListNotations.
Local Open Scope list_scope.
Local Open Scope nat_scope.

Lemma contains_join : forall p lines l, In l lines -> mentions l p -> contains p (join [nl] lines) = true.
Proof.
  intros p lines l I (a & b & ->). induction lines as [|x ls IH]; [contradiction|]. destruct ls as [|y ls].
  - destruct I as [->|[]]. cbn [join]. apply mentions_contains.
  - rewrite join_cons by discriminate. destruct I as [->|I].
    + rewrite <- !app_assoc. apply mentions_contains.
    + specialize (IH I). apply contains_mentions in IH as (a' & b' & ->).
      replace (x ++ [nl] ++ a' ++ p ++ b') with ((x ++ [nl] ++ a') ++ p ++ b') by now rewrite <- !app_assoc. apply mentions_contains.
Qed.
Lemma no_authors : forall e lines, author_missing lines ->
  exists a, X4AuthorField e lines = Ok a /\ a_authors a = [] /\ a_family_names a = [].
Proof.
  intros e lines (l & I & M). unfold X4AuthorField. cbv zeta.
  assert (E : contains (lit "No author given") (join [nl] lines) || contains (lit ".NOT GIVEN.") (join [nl] lines) = true).
  { apply orb_true_iff. destruct M as [M|M]; [left|right]; exact (contains_join _ _ _ I M). }
  rewrite E. eexists. split; [reflexivity|]. split; reflexivity.
Qed.
Lemma missing_no : forall lines, forallb (fun l => negb (contains (lit "No author given") l || contains (lit ".NOT GIVEN.") l)) lines = true ->
  ~ author_missing lines.
Proof.
  intros lines H (l & I & M). rewrite forallb_forall in H. specialize (H l I). rewrite negb_true_iff, orb_false_iff in H.
  destruct H as [A B], M as [(a & b & ->)|(a & b & ->)].
  - fold (lit "No author given") in A. change (list_ascii_of_string "No author given") with (lit "No author given") in A. rewrite mentions_contains in A. discriminate.
  - change (list_ascii_of_string ".NOT GIVEN.") with (lit ".NOT GIVEN.") in B. rewrite mentions_contains in B. discriminate.
Qed.

Definition plain_markb (c : ascii) : bool := is_mark c && negb (Ascii.eqb c "("%char) && negb (Ascii.eqb c ")"%char).
Lemma plain_markb_ok : forall c, plain_markb c = true -> plain_mark c.
Proof.
  intros c H. unfold plain_markb in H. rewrite !andb_true_iff, !negb_true_iff, !Ascii.eqb_neq in H. destruct H as [[A B] C].
  split; [now apply mark_is|]. auto.
Qed.
Definition nonemptyb (p : ascii -> bool) (w : str) : bool := match w with [] => false | _ => forallb p w end.
Lemma nonemptyb_ok : forall (p : ascii -> bool) (P : ascii -> Prop), (forall c, p c = true -> P c) ->
  forall w, nonemptyb p w = true -> nonempty P w.
Proof.
  intros p P H [|c w] E; [discriminate|]. split; [discriminate|]. cbn [nonemptyb] in E. rewrite forallb_forall in E.
  apply Forall_forall. intros d D. apply H, E, D.
Qed.
Definition nameb (n : str) : bool :=
  let words := split_char sp n in
  negb (length words =? 0) && forallb (nonemptyb plain_markb) words && str_eqb n (Names.between [sp] words).
Lemma nameb_ok : forall n, nameb n = true -> name_of plain_mark n.
Proof.
  intros n H. unfold nameb in H. rewrite !andb_true_iff in H. destruct H as [[A B] C]. apply str_eqb_eq in C.
  exists (split_char sp n). split; [intro E; rewrite E in A; discriminate|]. split; [|exact C].
  rewrite forallb_forall in B. apply Forall_forall. intros w W. apply (nonemptyb_ok plain_markb); [apply plain_markb_ok|now apply B].
Qed.
Definition few_quotesb (s : str) : bool :=
  (count_occ ascii_dec s (ascii_of_N 34) <=? 1) && (count_occ ascii_dec s (ascii_of_N 39) <=? 1).
Lemma few_quotesb_ok : forall s, few_quotesb s = true -> few_quotes s.
Proof. intros s H. unfold few_quotesb in H. rewrite andb_true_iff, !Nat.leb_le in H. exact H. Qed.
Lemma notinb_ok : forall c s, cmem c s = false -> ~ In c s.
Proof. intros c s H I. apply cmem_In in I. congruence. Qed.
Lemma no_tabsb_ok : forall s, cmem (ascii_of_N 9) s = false -> no_tabs s.
Proof. intros s. apply notinb_ok. Qed.

(** Names with one number of blanks each. *)
Lemma name_list_ok : forall names blanks comment text,
  negb (length names =? 0) && forallb nameb names && (length names =? length blanks)
    && few_quotesb text && negb (cmem (ascii_of_N 9) text) = true ->
  text = "("%char :: Names.between [","%char] (map (fun p => repeat sp (snd p) ++ fst p) (combine names blanks)) ++ ")"%char :: comment ->
  name_list names text.
Proof.
  intros names blanks comment text H E. rewrite !andb_true_iff, !negb_true_iff in H. destruct H as [[[[A B] C] D] F].
  split; [intros ->; discriminate|]. split.
  - rewrite forallb_forall in B. apply Forall_forall. intros n N. apply nameb_ok, B, N.
  - eexists. exists comment. split; [|split; [exact E|split; [now apply few_quotesb_ok|now apply no_tabsb_ok]]].
    apply Nat.eqb_eq in C. clear -C. revert blanks C. induction names as [|n names IH]; intros [|b blanks] C; try discriminate; [constructor|].
    cbn [combine map]. constructor; [|apply IH; now injection C]. exists (repeat sp b). split; [|reflexivity]. cbn [snd].
    clear. induction b; constructor; auto.
Qed.

(** Institutes: blanks, code, further words with blanks, words of the comment with blanks; then what
    is not read, with blanks. *)
Record piece := mkPiece { pc_gap : str; pc_code : str; pc_others : list (str * str); pc_words : list (str * str) }.
Definition render_words (l : list (str * str)) : str := concat (map (fun p => fst p ++ snd p) l).
Fixpoint render (l : list piece) (b rest : str) : str :=
  match l with
  | [] => b ++ rest
  | p :: l' => pc_gap p ++ "("%char :: pc_code p ++ render_words (pc_others p) ++ ")"%char :: render_words (pc_words p) ++ render l' b rest
  end.
Definition gapb (s : str) : bool := forallb (fun c => cmem c [sp; nl]) s.
Lemma gapb_ok : forall s, gapb s = true -> Forall gap s.
Proof.
  intros s H. apply Forall_forall. intros c C. unfold gapb in H. rewrite forallb_forall in H. apply H, cmem_In in C.
  destruct C as [<-|[<-|[]]]; unfold gap; cbn; auto.
Qed.
Definition wordsb (l : list (str * str)) : bool :=
  forallb (fun p => negb (length (fst p) =? 0) && gapb (fst p) && nonemptyb iword (snd p)) l.
Lemma wordsb_ok : forall l, wordsb l = true -> words_text (map snd l) (render_words l).
Proof.
  induction l as [|[b w] l IH]; intros H; [constructor|]. cbn [wordsb forallb fst snd] in H. rewrite !andb_true_iff in H. destruct H as [[[A B] C] D].
  cbn [map render_words concat fst snd]. rewrite <- app_assoc. constructor; [intros ->; discriminate|now apply gapb_ok| |now apply IH].
  apply (nonemptyb_ok iword); [|exact C]. intros c. apply iword_is.
Qed.
Definition commentb (l : list (str * str)) : bool :=
  match l with [] => true | (b, w) :: l' => gapb b && nonemptyb iword w && wordsb l' end.
Lemma commentb_ok : forall l, commentb l = true -> comment_text (map snd l) (render_words l).
Proof.
  intros [|[b w] l] H; [constructor|]. cbn [commentb] in H. rewrite !andb_true_iff in H. destruct H as [[A B] C].
  cbn [map render_words concat fst snd]. rewrite <- app_assoc. constructor; [now apply gapb_ok| |now apply wordsb_ok].
  apply (nonemptyb_ok iword); [|exact B]. intros c. apply iword_is.
Qed.
Definition unreadb (s : str) : bool :=
  match s with [] => true | c :: _ => negb (is_white c) && negb (iword c) && negb (Ascii.eqb c "(") end.
Lemma unreadb_ok : forall s, unreadb s = true -> unread s.
Proof.
  intros [|c s] H; [exact Logic.I|]. cbn [unreadb] in H. rewrite !andb_true_iff, !negb_true_iff in H. destruct H as [[A B] C].
  split; [|split; [|split]]; intro Q.
  - apply gap_white in Q. congruence.
  - apply iword_is in Q. congruence.
  - subst. discriminate.
  - subst. discriminate.
Qed.
Definition pieceb (p : piece) : bool := gapb (pc_gap p) && nonemptyb iword (pc_code p) && wordsb (pc_others p) && commentb (pc_words p).
Lemma render_ok : forall l b rest text, forallb pieceb l = true -> gapb b = true -> unreadb rest = true ->
  text = render l b rest -> institutes_text (map (fun p => (pc_code p, map snd (pc_words p))) l) text.
Proof.
  intros l b rest text H G U ->. induction l as [|[g code others words] l IH]; [constructor; [now apply gapb_ok|now apply unreadb_ok]|].
  cbn [forallb pieceb pc_gap pc_code pc_others pc_words] in H. unfold pieceb in H. cbn [pc_gap pc_code pc_others pc_words] in H. rewrite !andb_true_iff in H. destruct H as [[[[A B] C] D] E].
  cbn [map render pc_gap pc_code pc_others pc_words]. apply (institutes_cons g code (map snd others)); [now apply gapb_ok| |now apply wordsb_ok|now apply commentb_ok|now apply IH].
  apply (nonemptyb_ok iword); [|exact B]. intros c. apply iword_is.
Qed.

(** References. *)
Definition innerb (c : ascii) : bool := plain_markb c || Ascii.eqb c ","%char.
Lemma innerb_ok : forall c, innerb c = true -> plain_mark c \/ c = ","%char.
Proof.
  intros c H. unfold innerb in H. apply orb_true_iff in H. destruct H as [H|H]; [left; now apply plain_markb_ok|right; now apply Ascii.eqb_eq].
Qed.
Fixpoint blanksb (inside : bool) (s t : str) : bool :=
  match t with
  | [] => negb inside && match s with [] => true | _ => false end
  | c :: t' =>
      if inside then
        match s with
        | d :: s' => Ascii.eqb c d && if Ascii.eqb c ")"%char then blanksb false s' t' else innerb c && blanksb true s' t'
        | [] => false
        end
      else if cmem c [sp; nl] then blanksb false s t'
      else match s with
           | d :: s' => Ascii.eqb c d &&
                        if Ascii.eqb c "("%char then negb (Ascii.eqb (hd ")"%char s') ")"%char) && blanksb true s' t'
                        else innerb c && blanksb false s' t'
           | [] => false
           end
  end.
Lemma blanksb_ok : forall t s,
  (blanksb false s t = true -> blanks_in s t) /\
  (blanksb true s t = true -> exists w s' t', s = w ++ ")"%char :: s' /\ t = w ++ ")"%char :: t' /\
     Forall (fun c => plain_mark c \/ c = ","%char) w /\ blanks_in s' t').
Proof.
  induction t as [|c t IH]; intros s; (split; intros H).
  - destruct s; [constructor|discriminate].
  - discriminate.
  - cbn [blanksb] in H. destruct (cmem c [sp; nl]) eqn:G.
    + apply blanks_blank; [|now apply IH]. apply cmem_In in G. destruct G as [<-|[<-|[]]]; unfold gap; cbn; auto.
    + destruct s as [|d s]; [discriminate|]. apply andb_true_iff in H as [E H]. apply Ascii.eqb_eq in E as <-.
      destruct (Ascii.eqb c "("%char) eqn:P.
      * apply Ascii.eqb_eq in P as ->. apply andb_true_iff in H as [N H]. apply (proj2 (IH s)) in H as (w & s' & t' & -> & -> & W & B).
        apply blanks_group; [|exact B]. split; [intros ->; discriminate|exact W].
      * apply andb_true_iff in H as [I H]. apply blanks_char; [now apply innerb_ok|now apply IH].
  - cbn [blanksb] in H. destruct s as [|d s]; [discriminate|]. apply andb_true_iff in H as [E H]. apply Ascii.eqb_eq in E as <-.
    destruct (Ascii.eqb c ")"%char) eqn:P.
    + apply Ascii.eqb_eq in P as ->. exists [], s, t. split; [reflexivity|]. split; [reflexivity|]. split; [constructor|now apply IH].
    + apply andb_true_iff in H as [I H]. apply (proj2 (IH s)) in H as (w & s' & t' & -> & -> & W & B).
      exists (c :: w), s', t'. split; [reflexivity|]. split; [reflexivity|]. split; [constructor; [now apply innerb_ok|exact W]|exact B].
Qed.
Lemma ref_ok : forall r body text, text = "("%char :: body ++ ")"%char :: rt_comment r ->
  blanksb false (ref_code r) body && few_quotesb text && negb (cmem (ascii_of_N 9) text) &&
    forallb (forallb is_mark) (rt_name r :: rt_details r) && negb (length (rt_date r) =? 0) && forallb (fun d => (d <? 10)%N) (rt_date r) = true ->
  ref_text r text.
Proof.
  intros r body text E H. rewrite !andb_true_iff, !negb_true_iff in H. destruct H as [[[[[A B] C] D] F] G].
  exists body. split; [now apply blanksb_ok|]. split; [exact E|]. split; [now apply few_quotesb_ok|]. split; [now apply no_tabsb_ok|].
  split; [|split; [intro X; rewrite X in F; discriminate|]].
  - apply Forall_forall. intros w W. rewrite forallb_forall in D. specialize (D w W). apply Forall_forall. intros c K. rewrite forallb_forall in D.
    apply mark_is, D, K.
  - apply Forall_forall. intros d K. rewrite forallb_forall in G. apply N.ltb_lt, G, K.
Qed.

(** Lines: the first without its parenthesis, and the others. *)
Definition lineb (l : str) : bool := negb (Ascii.eqb (hd sp l) "("%char).
Lemma lineb_ok : forall l, lineb l = true -> ~ opening l.
Proof. intros l H (s & ->). discriminate. Qed.
Lemma lines_ok : forall (l : list (str * list str)) lines,
  forallb (fun p => lineb (fst p) && forallb lineb (snd p)) l = true ->
  lines = concat (map (fun p => ("("%char :: fst p) :: snd p) l) ->
  one_by_one lines (map (fun p => "("%char :: fst p ++ concat (snd p)) l).
Proof.
  intros l lines H ->. induction l as [|[f m] l IH]; [constructor|]. cbn [forallb fst snd] in H. rewrite !andb_true_iff in H. destruct H as [[A B] C].
  cbn [map concat app fst snd]. constructor; [now apply lineb_ok| |now apply IH].
  rewrite forallb_forall in B. apply Forall_forall. intros x X. apply lineb_ok, B, X.
Qed.
Lemma newlines_ok : forall lines, forallb (fun l => negb (cmem nl l)) lines = true -> Forall (fun l => ~ In nl l) lines.
Proof. intros lines H. rewrite forallb_forall in H. apply Forall_forall. intros l L. apply notinb_ok, negb_true_iff, H, L. Qed.

(** Dictionaries. *)
Lemma dget_In : forall (V : Type) k (d : list (str * V)) v, dget str_eqb k d = Some v -> exists k', In (k', v) d.
Proof.
  intros V k d v. induction d as [|[k' v'] d IH]; [discriminate|]. cbn [dget]. destruct (str_eqb k k'); intros H.
  - injection H as ->. exists k'. now left.
  - destruct (IH H) as (k2 & I). exists k2. now right.
Qed.
Definition wideb (dicts : list (str * x4dict)) (name : string) (n : nat) : bool :=
  match dget str_eqb (lit name) dicts with Some d => forallb (fun r => n <=? length (snd r)) d | None => true end.
Lemma wideb_ok : forall dicts name n, wideb dicts name n = true -> wide_rows dicts name n.
Proof.
  intros dicts name n H d key row D R. unfold wideb in H. rewrite D in H. apply dget_In in R as (k & I).
  rewrite forallb_forall in H. specialize (H _ I). now apply Nat.leb_le.
Qed.
Lemma rowsb_ok : forall dicts, wideb dicts "ConferencesAndBooks" 1 && wideb dicts "Journals" 1 && wideb dicts "ReferenceTypes" 2 = true -> rows_ok dicts.
Proof. intros dicts H. rewrite !andb_true_iff in H. destruct H as [[A B] C]. split; [|split]; now apply wideb_ok. Qed.
