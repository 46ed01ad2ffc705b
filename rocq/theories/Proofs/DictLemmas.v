(** Lemmas on dictionaries, element tables and reference years. *)
From Coq Require Import String List Ascii NArith ZArith Bool Arith Lia.
From Verif.Model Require Import Py Dicts Particle.
From Verif.Spec Require Import Text Nuclear.
From Verif.Proofs Require Import StrLemmas NumLemmas IntLemmas.
Import ListNotations.
Local Open Scope list_scope.

(** * Field slicing *)

Lemma concat_cut : forall bs from line, concat (cut from bs line) = line.
Proof.
  induction bs as [|b bs IH]; intros from line; cbn [cut concat]; [apply app_nil_r|].
  rewrite IH. apply firstn_skipn.
Qed.

Lemma concat_pieces : forall bs line, concat (pieces bs line) = line.
Proof. intros. apply concat_cut. Qed.

Lemma clamp_nat : forall n i : nat, clamp (Z.of_nat n) (Z.of_nat i) = Z.of_nat (Nat.min n i).
Proof. intros. unfold clamp. destruct (Z.ltb_spec (Z.of_nat i) 0); lia. Qed.

Lemma zslice_nat : forall (l : str) (i j : nat),
  zslice l (Z.of_nat i) (Z.of_nat j) = firstn (j - i) (skipn i l).
Proof.
  intros l i j. unfold zslice. rewrite !clamp_nat.
  replace (Z.to_nat (Z.of_nat (Nat.min (length l) j) - Z.of_nat (Nat.min (length l) i)))
    with (Nat.min (length l) j - Nat.min (length l) i) by lia.
  rewrite Nat2Z.id.
  destruct (Nat.le_gt_cases (length l) i) as [H|H].
  - rewrite (skipn_all2 (n := i)) by lia. rewrite skipn_all2 by lia. now rewrite !firstn_nil.
  - replace (Nat.min (length l) i) with i by lia.
    destruct (Nat.le_gt_cases (length l) j) as [H'|H'].
    + rewrite !firstn_all2; auto; rewrite skipn_length; lia.
    + now replace (Nat.min (length l) j) with j by lia.
Qed.

(** The slices between consecutive positions of a list of positions. *)
Fixpoint between (line : str) (from : nat) (l : list nat) : list str :=
  match l with
  | [] => []
  | b :: bs => firstn (b - from) (skipn from line) :: between line b bs
  end.

Lemma skipn_skipn_add : forall (A : Type) i j (l : list A), skipn i (skipn j l) = skipn (j + i) l.
Proof.
  intros A i j. induction j as [|j IH]; intro l; auto. destruct l; [now rewrite skipn_nil|]. apply IH.
Qed.

Lemma cut_between : forall bs from line, ascending from bs ->
  cut from bs (skipn from line)
  = between line from (bs ++ [Nat.max (length line) (last bs from)]).
Proof.
  induction bs as [|b bs IH]; intros from line A; cbn [cut between app].
  - cbn [last]. f_equal. rewrite firstn_all2; auto. rewrite skipn_length. lia.
  - destruct A as [A1 A2]. f_equal. rewrite skipn_skipn_add.
    replace (from + (b - from)) with b by lia.
    rewrite IH; auto. f_equal. f_equal. f_equal.
    destruct bs as [|b' bs]; auto. f_equal.
    change (last (b' :: bs) b = last (b' :: bs) from).
    clear. revert b'. induction bs; intros; auto. exact (IHbs a).
Qed.

Lemma map_res_ok : forall (A B : Type) (f : A -> res B) (g : A -> B) l,
  (forall x, In x l -> f x = Ok (g x)) -> map_res f l = Ok (map g l).
Proof.
  induction l as [|x l IH]; intro H; auto. cbn [map_res].
  rewrite (H x (or_introl eq_refl)). cbn [bind]. rewrite IH; auto.
  intros y I. apply H. now right.
Qed.

Lemma seq_slices : forall (fb : list nat) line k, S k = length fb ->
  map_res (fun i => a <- idx (map Z.of_nat fb) i ;; b <- idx (map Z.of_nat fb) (S i) ;;
                    Ok (strip (zslice line a b))) (seq 0 k)
  = match fb with [] => Ok [] | f :: l => Ok (map strip (between line f l)) end.
Proof.
  intros fb line k L. destruct fb as [|f fb]; [discriminate|].
  assert (G : forall m from l, skipn from (f :: fb) = m :: l ->
    map_res (fun i => a <- idx (map Z.of_nat (f :: fb)) i ;; b <- idx (map Z.of_nat (f :: fb)) (S i) ;;
                    Ok (strip (zslice line a b))) (seq from (length l))
    = Ok (map strip (between line m l))).
  2:{ cbn in L. injection L as L. rewrite L. now apply (G f 0 fb). }
  remember (map Z.of_nat (f :: fb)) as ZF eqn:EZ.
  intros m from l. revert m from. induction l as [|b l IH]; intros m from H; [reflexivity|].
  cbn [length seq map_res between map].
  assert (Hn : nth_error (f :: fb) from = Some m /\ nth_error (f :: fb) (S from) = Some b /\
               skipn (S from) (f :: fb) = b :: l).
  { clear -H. revert H. generalize (f :: fb). induction from as [|from IHf]; intros l0 H.
    - rewrite skipn_O in H. subst. auto.
    - destruct l0 as [|x l0]; [discriminate|]. cbn [skipn] in H. destruct (IHf l0 H) as (A & B & C).
      repeat split; auto. }
  destruct Hn as (N1 & N2 & N3).
  assert (I1 : idx ZF from = Ok (Z.of_nat m)).
  { rewrite EZ. unfold idx. rewrite nth_error_map, N1. reflexivity. }
  assert (I2 : idx ZF (S from) = Ok (Z.of_nat b)).
  { rewrite EZ. unfold idx. rewrite nth_error_map, N2. reflexivity. }
  rewrite I1. cbn [bind]. rewrite I2. cbn [bind]. rewrite zslice_nat.
  now rewrite (IH b (S from)).
Qed.

Lemma between_end : forall bs line from e, length line <= e ->
  between line from (bs ++ [Nat.max (length line) e]) = between line from (bs ++ [length line]).
Proof.
  induction bs as [|b bs IH]; intros; cbn [app between].
  - f_equal. rewrite !firstn_all2; auto; rewrite skipn_length; lia.
  - f_equal. now apply IH.
Qed.

Lemma between_end' : forall bs line from e,
  between line from (bs ++ [Nat.max (length line) e]) = between line from (bs ++ [length line]).
Proof.
  intros. destruct (Nat.le_gt_cases (length line) e); [now apply between_end|].
  now replace (Nat.max (length line) e) with (length line) by lia.
Qed.

Lemma dict_line_spec : forall breaks d line, ascending 0 breaks ->
  dict_line (Z.of_nat (S (length breaks))) (0%Z :: map Z.of_nat breaks) d line
  = match strip line with
    | [] => Ok d
    | _ => match map strip (pieces breaks (strip line)) with
           | [] => Raise IndexError
           | k :: item => Ok (dset str_eqb k item d)
           end
    end.
Proof.
  intros breaks d line A. unfold dict_line.
  destruct (strip line) as [|c t] eqn:E; auto. rewrite <- E. clear E c t.
  set (core := strip line). rewrite Nat2Z.id.
  replace ((0%Z :: map Z.of_nat breaks) ++ [Z.of_nat (length core)])
    with (map Z.of_nat (0 :: breaks ++ [length core]))
    by (cbn [map]; rewrite map_app; reflexivity).
  rewrite seq_slices by (cbn; rewrite app_length; cbn; lia).
  cbn [bind].
  replace (pieces breaks core) with (between core 0 (breaks ++ [length core])).
  - destruct (map strip (between core 0 (breaks ++ [length core]))); reflexivity.
  - pose proof (cut_between breaks 0 core A) as P. cbn [skipn] in P.
    unfold pieces. rewrite P. symmetry. apply between_end'.
Qed.

(** The definition of a line as a function. *)
Definition line_def (breaks : list nat) (line : str) : option (str * list str) :=
  match strip line with
  | [] => None
  | _ => match map strip (pieces breaks (strip line)) with
         | [] => None
         | k :: item => Some (k, item)
         end
  end.

Lemma pieces_nonempty : forall breaks line, exists p l, pieces breaks line = p :: l.
Proof. intros [|b bs] line; cbn; eauto. Qed.

Lemma Forall2_trimmed_map : forall l m, Forall2 trimmed l m <-> map strip l = m.
Proof.
  intros l m. split.
  - induction 1; cbn; auto. f_equal; auto. now apply strip_iff.
  - intros <-. induction l; cbn; constructor; auto. apply strip_trimmed.
Qed.

Lemma line_def_defines : forall breaks line k f,
  line_def breaks line = Some (k, f) <-> defines breaks line k f.
Proof.
  intros. unfold line_def, defines. split.
  - intro H. exists (strip line). split; [apply strip_trimmed|].
    destruct (strip line) as [|c t] eqn:E; [discriminate|]. rewrite <- E in *.
    split; [congruence|]. apply Forall2_trimmed_map.
    destruct (map strip (pieces breaks (strip line))); congruence.
  - intros (core & T & NE & F). apply strip_iff in T. rewrite T.
    destruct core as [|c t] eqn:E; [contradiction|]. rewrite <- E in *.
    apply Forall2_trimmed_map in F. now rewrite F.
Qed.

Lemma dict_line_def : forall breaks d line, ascending 0 breaks ->
  dict_line (Z.of_nat (S (length breaks))) (0%Z :: map Z.of_nat breaks) d line
  = Ok match line_def breaks line with Some (k, f) => dset str_eqb k f d | None => d end.
Proof.
  intros. rewrite dict_line_spec by auto. unfold line_def.
  destruct (strip line) as [|c t] eqn:E; auto. rewrite <- E.
  destruct (pieces_nonempty breaks (strip line)) as (p & l & ->). reflexivity.
Qed.

Definition put (breaks : list nat) (d : x4dict) (line : str) : x4dict :=
  match line_def breaks line with Some (k, f) => dset str_eqb k f d | None => d end.

Lemma fold_res_fold_left : forall (A S : Type) (f : S -> A -> res S) (h : S -> A -> S) l s,
  (forall s x, f s x = Ok (h s x)) -> fold_res f l s = Ok (fold_left h l s).
Proof.
  induction l as [|x l IH]; intros s H; auto. cbn [fold_res fold_left]. rewrite H. cbn [bind]. auto.
Qed.

Lemma puts_get : forall breaks body k d,
  dget str_eqb k (fold_left (put breaks) body d)
  = match find (fun line => match line_def breaks line with
                            | Some (k', _) => str_eqb k k' | None => false end) (rev body) with
    | Some line => option_map snd (line_def breaks line)
    | None => dget str_eqb k d
    end.
Proof.
  intros breaks body k. induction body as [|line body IH] using rev_ind; intro d; auto.
  rewrite fold_left_app. cbn [fold_left]. rewrite rev_app_distr. cbn [rev app find].
  unfold put at 1. destruct (line_def breaks line) as [[k' f]|] eqn:E; [|apply IH].
  destruct (str_eqb_spec k k') as [->|N].
  - rewrite (dget_dset_same str_eqb str_eqb_eq). now rewrite E.
  - rewrite (dget_dset_other str_eqb str_eqb_eq) by congruence. apply IH.
Qed.

Lemma find_split : forall (A : Type) (P : A -> bool) l x, find P l = Some x ->
  exists a b, l = a ++ x :: b /\ P x = true /\ forall y, In y a -> P y = false.
Proof.
  induction l as [|y l IH]; intros x H; [discriminate|]. cbn in H.
  destruct (P y) eqn:E.
  - injection H as <-. exists [], l. repeat split; auto. intros y' [].
  - destruct (IH x H) as (a & b & -> & H1 & H2). exists (y :: a), b. repeat split; auto.
    intros z [<-|I]; auto.
Qed.

Lemma find_none_all : forall (A : Type) (P : A -> bool) l, find P l = None -> forall x, In x l -> P x = false.
Proof. intros. now apply (find_none P l). Qed.

Lemma puts_last : forall breaks body k f,
  dget str_eqb k (fold_left (put breaks) body []) = Some f <-> last_definition breaks body k f.
Proof.
  intros. rewrite puts_get.
  set (P := fun line : str => match line_def breaks line with
                          | Some (k', _) => str_eqb k k' | None => false end).
  split.
  - destruct (find P (rev body)) as [line|] eqn:F; [|discriminate].
    destruct (find_split _ _ _ _ F) as (a & b & E & H1 & H2). intro H.
    exists (rev b), line, (rev a). repeat split.
    + rewrite <- (rev_involutive body), E, rev_app_distr. cbn [rev]. now rewrite <- app_assoc.
    + apply line_def_defines. unfold P in H1. destruct (line_def breaks line) as [[k' f']|]; [|discriminate].
      apply str_eqb_eq in H1. cbn in H. congruence.
    + intros l f' I D. apply in_rev in I. specialize (H2 l I). unfold P in H2.
      apply line_def_defines in D. rewrite D, str_eqb_refl in H2. discriminate.
  - intros (before & line & after & -> & D & N).
    rewrite rev_app_distr. cbn [rev]. rewrite <- app_assoc. cbn [app].
    assert (G : forall l, (forall x, In x l -> P x = false) ->
       find P (l ++ line :: rev before) = Some line).
    { intros l. induction l as [|x l IH]; intro H; cbn.
      - unfold P at 1. apply line_def_defines in D. now rewrite D, str_eqb_refl.
      - rewrite (H x) by now left. apply IH. intros y I. apply H. now right. }
    rewrite G.
    + apply line_def_defines in D. now rewrite D.
    + intros x I. apply in_rev in I. unfold P. destruct (line_def breaks x) as [[k' f']|] eqn:E; auto.
      destruct (str_eqb_spec k k') as [->|]; auto.
      exfalso. apply (N x f' I). now apply line_def_defines.
Qed.

(** * The header *)

Lemma split_char_app : forall c a b, ~ In c b -> last (split_char c (a ++ c :: b)) [] = b.
Proof.
  intros c a b N.
  assert (Hb : split_char c b = [b]).
  { clear a. induction b as [|x b IH]; auto. cbn.
    destruct (Ascii.eqb_spec x c) as [->|]; [exfalso; apply N; now left|].
    rewrite IH; auto. intro. apply N. now right. }
  induction a as [|x a IH].
  - cbn [app split_char]. rewrite Ascii.eqb_refl, Hb. reflexivity.
  - cbn [app split_char]. destruct (Ascii.eqb x c).
    + destruct (split_char c (a ++ c :: b)) eqn:E; [|exact IH].
      exfalso. clear -E. destruct (a ++ c :: b); cbn in E; [discriminate|].
      destruct (Ascii.eqb a0 c); [discriminate|]. destruct (split_char c l); discriminate.
    + destruct (split_char c (a ++ c :: b)) as [|w ws] eqn:E.
      * exfalso. clear -E. destruct (a ++ c :: b); cbn in E; [discriminate|].
        destruct (Ascii.eqb a0 c); [discriminate|]. destruct (split_char c l); discriminate.
      * destruct ws; [|exact IH]. exfalso. clear -E. revert w E.
        induction a as [|y a IH]; intros w E.
        -- cbn in E. rewrite Ascii.eqb_refl in E. injection E as _ E. destruct b as [|x b]; [discriminate|].
           cbn in E. destruct (Ascii.eqb x c); [discriminate|]. destruct (split_char c b); discriminate.
        -- cbn in E. destruct (Ascii.eqb y c).
           ++ injection E as _ E. destruct (a ++ c :: b) as [|z l]; [discriminate|].
              cbn in E. destruct (Ascii.eqb z c); [discriminate|]. destruct (split_char c l); discriminate.
           ++ destruct (split_char c (a ++ c :: b)) as [|w' ws'] eqn:E'.
              ** clear -E'. destruct (a ++ c :: b); cbn in E'; [discriminate|].
                 destruct (Ascii.eqb a0 c); [discriminate|]. destruct (split_char c l); discriminate.
              ** injection E as _ E. subst. now apply (IH w').
Qed.

Lemma number_char_not : forall n s c, number_text n s -> In c s -> ~ num_white c -> is_dig c = true.
Proof.
  intros n s c (a & ds & b & -> & Ha & Hb & D & _) I NW.
  apply in_app_or in I. destruct I as [I|I].
  - unfold num_blank in Ha. rewrite Forall_forall in Ha. now apply Ha in I.
  - apply in_app_or in I. destruct I as [I|I].
    + pose proof (digits_forallb ds D) as F. rewrite forallb_forall in F. auto.
    + unfold num_blank in Hb. rewrite Forall_forall in Hb. now apply Hb in I.
Qed.

Lemma number_no : forall n s c, number_text n s -> is_dig c = false -> is_space c = false -> ~ In c s.
Proof.
  intros n s c H D S I. rewrite (number_char_not n s c H I) in D; [discriminate|].
  intro W. apply num_white_white, is_space_white in W. congruence.
Qed.

Lemma number_text_int : forall n s, number_text n s -> int_of_str s = Some (Z.of_nat n).
Proof.
  intros n s (a & ds & b & -> & Ha & Hb & D & NE & V). rewrite int_of_digits by auto. rewrite V. f_equal. lia.
Qed.

Lemma number_text_strip : forall n s, number_text n s -> number_text n (strip s).
Proof.
  intros n s (a & ds & b & -> & Ha & Hb & D & NE & V).
  exists [], ds, []. rewrite strip_surround by now apply num_blank_blank.
  destruct (digits_ends_not_space ds D) as [H1 H2].
  rewrite strip_id by auto. rewrite app_nil_r. repeat split; auto; constructor.
Qed.

Lemma count_line_int : forall n line, count_line n line -> int_of_str (after_equals line) = Some (Z.of_nat n).
Proof.
  intros n line (pre & s & -> & H). unfold after_equals.
  rewrite split_char_app by (eapply number_no; eauto).
  apply number_text_int. now apply number_text_strip.
Qed.

Lemma split_comma : forall c items, items <> [] -> (forall x, In x items -> ~ In c x) ->
  split_char c (join [c] items) = items.
Proof.
  intros c items NE H. induction items as [|x l IH]; [contradiction|].
  assert (Hx : forall t, ~ In c x -> split_char c (x ++ t) =
    match split_char c t with [] => [x] | w :: ws => (x ++ w) :: ws end).
  { clear. induction x as [|y x IH]; intros t N; cbn [app split_char].
    - destruct (split_char c t) eqn:E; auto. exfalso. destruct t; [discriminate|]. cbn in E.
      destruct (Ascii.eqb a c); [discriminate|]. destruct (split_char c t); discriminate.
    - destruct (Ascii.eqb_spec y c) as [->|]; [exfalso; apply N; now left|].
      rewrite IH by (intro; apply N; now right). destruct (split_char c t); reflexivity. }
  destruct l as [|y l].
  - cbn [join]. rewrite <- (app_nil_r x) at 1. rewrite Hx by (apply H; now left). cbn. now rewrite app_nil_r.
  - change (join [c] (x :: y :: l)) with (x ++ [c] ++ join [c] (y :: l)).
    rewrite Hx by (apply H; now left). cbn [app split_char]. rewrite Ascii.eqb_refl.
    rewrite IH; [now rewrite app_nil_r|discriminate|]. intros z I. apply H. now right.
Qed.

Lemma comma_list_join : forall l, comma_list l = join [","%char] l.
Proof. induction l as [|x [|y l] IH]; auto. cbn [comma_list join] in *. now rewrite IH. Qed.

Lemma in_comma_list : forall c l, In c (comma_list l) -> c = ","%char \/ exists x, In x l /\ In c x.
Proof.
  induction l as [|x [|y l] IH]; intro H.
  - destruct H.
  - right. exists x. split; auto. now left.
  - cbn [comma_list] in H. apply in_app_or in H. destruct H as [H|[H|H]].
    + right. exists x. split; auto. now left.
    + now left.
    + destruct (IH H) as [E|(z & I & J)]; auto. right. exists z. split; auto. now right.
Qed.

Lemma comma_list_no : forall breaks items c, Forall2 number_text breaks items ->
  c <> ","%char -> is_dig c = false -> is_space c = false -> ~ In c (comma_list items).
Proof.
  intros breaks items c F N D S I. apply in_comma_list in I. destruct I as [|(x & Ix & Ic)]; auto.
  induction F as [|b x' bs is H F IH]; [destruct Ix|].
  destruct Ix as [->|Ix]; auto. eapply number_no; eauto.
Qed.

Lemma map_res_numbers : forall breaks items, Forall2 number_text breaks items ->
  map_res (fun c => of_option ValueError (int_of_str c)) items = Ok (map Z.of_nat breaks).
Proof.
  induction 1 as [|b x bs xs H F IH]; auto. cbn [map_res]. rewrite (number_text_int b x H).
  cbn [of_option bind]. now rewrite IH.
Qed.

Lemma replace_char_head : forall c s, replace_char c [] (c :: s) = replace_char c [] s.
Proof. intros. unfold replace_char. cbn [flat_map]. now rewrite Ascii.eqb_refl. Qed.

Lemma breaks_line_ints : forall breaks line, breaks <> [] -> breaks_line breaks line ->
  map_res (fun c => of_option ValueError (int_of_str c))
    (split_char ","%char (replace_char "]"%char [] (replace_char "["%char [] (after_equals line))))
  = Ok (map Z.of_nat breaks).
Proof.
  intros breaks line NE (pre & a & items & b & -> & Ha & Hb & F).
  assert (NB : forall s c, blank s -> is_space c = false -> ~ In c s).
  { intros s c B S I. unfold blank in B. rewrite Forall_forall in B. apply B, is_space_white in I. congruence. }
  unfold after_equals. rewrite split_char_app.
  - replace (a ++ "["%char :: comma_list items ++ "]"%char :: b)
      with (a ++ ("["%char :: comma_list items ++ ["]"%char]) ++ b)
      by (cbn [app]; rewrite <- app_assoc; reflexivity).
    rewrite strip_surround by auto. rewrite strip_id.
    + rewrite (replace_char_head "["%char).
      rewrite (replace_char_notin "["%char).
      * rewrite replace_char_app. rewrite (replace_char_notin "]"%char) by (eapply comma_list_no; eauto; discriminate).
        rewrite replace_char_head. change (replace_char "]"%char [] []) with (@nil ascii). rewrite !app_nil_r.
        rewrite comma_list_join, split_comma.
        -- now apply map_res_numbers.
        -- intros ->. inversion F. subst. contradiction.
        -- intros x I. clear -F I. induction F; [destruct I|]. destruct I as [->|I]; auto.
           eapply number_no; eauto.
      * intro I. apply in_app_or in I. destruct I as [I|[I|[]]]; [|discriminate].
        eapply comma_list_no in I; eauto; discriminate.
    + intros c t E. injection E as <- _. reflexivity.
    + intros t c E. change ("["%char :: comma_list items ++ ["]"%char]) with (("["%char :: comma_list items) ++ ["]"%char]) in E.
      apply app_inj_tail in E. destruct E as [_ <-]. reflexivity.
  - intro I. apply in_app_or in I. destruct I as [I|[I|I]]; [eapply NB in I; eauto|discriminate|].
    apply in_app_or in I. destruct I as [I|[I|I]]; [|discriminate|eapply NB in I; eauto].
    eapply comma_list_no in I; eauto; discriminate.
Qed.

Lemma getDictionary_spec : forall text title l1 l2 body breaks,
  readlines text = title :: l1 :: l2 :: body ->
  count_line (S (length breaks)) l1 -> breaks_line breaks l2 -> breaks <> [] -> ascending 0 breaks ->
  exists d, getDictionary (Some text) = Ok (Some d) /\
    forall k f, dget str_eqb k d = Some f <-> last_definition breaks body k f.
Proof.
  intros text title l1 l2 body breaks R C B NE A.
  exists (fold_left (put breaks) body []). split; [|intros; apply puts_last].
  unfold getDictionary. rewrite R. cbn [nth_error].
  rewrite (count_line_int _ _ C). cbn [of_option bind].
  rewrite (breaks_line_ints breaks l2 NE B). cbn [bind].
  rewrite (fold_res_fold_left _ _ _ (put breaks)).
  - reflexivity.
  - intros. now rewrite dict_line_def.
Qed.

(** * Element tables *)

Lemma find_Some_iff : forall (A K : Type) (key : A -> K) (eqb : K -> K -> bool),
  (forall a b, eqb a b = true <-> a = b) -> forall l, NoDup (map key l) ->
  forall k x, find (fun i => eqb (key i) k) l = Some x <-> In x l /\ key x = k.
Proof.
  intros A K key eqb H l ND k x. induction l as [|y l IH]; cbn.
  - split; [discriminate|now intros [[] _]].
  - inversion ND; subst. destruct (eqb (key y) k) eqn:E.
    + apply H in E. split.
      * intro E'. injection E' as <-. auto.
      * intros [[->|I] Hk]; auto. exfalso. apply H2. rewrite E, <- Hk. now apply in_map.
    + rewrite IH by auto. split; [intros [I Hk]; auto|].
      intros [[->|I] Hk]; auto. apply H in Hk. congruence.
Qed.

Lemma find_None_iff : forall (A K : Type) (key : A -> K) (eqb : K -> K -> bool),
  (forall a b, eqb a b = true <-> a = b) -> forall l k,
  find (fun i => eqb (key i) k) l = None <-> ~ In k (map key l).
Proof.
  intros A K key eqb H l k. induction l as [|y l IH]; cbn; [tauto|].
  destruct (eqb (key y) k) eqn:E.
  - apply H in E. split; [discriminate|]. intro N. exfalso. auto.
  - rewrite IH. assert (key y <> k) by (intro X; apply H in X; congruence). tauto.
Qed.

Fixpoint nodupb {A} (eqb : A -> A -> bool) (l : list A) : bool :=
  match l with [] => true | x :: l' => negb (existsb (eqb x) l') && nodupb eqb l' end.

Lemma nodupb_NoDup : forall (A : Type) (eqb : A -> A -> bool),
  (forall a b, eqb a b = true <-> a = b) -> forall l, nodupb eqb l = true -> NoDup l.
Proof.
  intros A eqb H l. induction l as [|x l IH]; intro E; [constructor|]. cbn in E.
  apply andb_true_iff in E. destruct E as [E1 E2]. constructor; auto.
  intro I. apply negb_true_iff in E1. assert (existsb (eqb x) l = true); [|congruence].
  apply existsb_exists. exists x. split; auto. now apply H.
Qed.

Lemma symbols_NoDup : NoDup (map (fun i => snd (fst i)) endl_ZLabels).
Proof. apply (nodupb_NoDup _ str_eqb str_eqb_eq). vm_compute. reflexivity. Qed.

Lemma charges_eq : map (fun i => fst (fst i)) endl_ZLabels = map Z.of_nat (seq 0 119).
Proof. vm_compute. reflexivity. Qed.

Lemma charges_NoDup : NoDup (map (fun i => fst (fst i)) endl_ZLabels).
Proof. apply (nodupb_NoDup _ Z.eqb Z.eqb_eq). vm_compute. reflexivity. Qed.

Lemma charges_range : forall z, In z (map (fun i => fst (fst i)) endl_ZLabels) <-> (0 <= z < 119)%Z.
Proof.
  intro z. rewrite charges_eq, in_map_iff. split.
  - intros (n & <- & I). apply in_seq in I. lia.
  - intros H. exists (Z.to_nat z). split; [lia|]. apply in_seq. lia.
Qed.

Lemma ZSymbol_In : forall z s, endl_ZSymbol z = Some s <-> exists l, In (z, s, l) endl_ZLabels.
Proof.
  intros z s. unfold endl_ZSymbol.
  assert (F := find_Some_iff _ _ (fun i : Z * str * str => fst (fst i)) Z.eqb Z.eqb_eq endl_ZLabels charges_NoDup z).
  cbv beta in F. set (o := find _ _) in *.
  split.
  - destruct o as [[[z' s'] l']|]; [|discriminate]. intro H. injection H as <-.
    destruct (proj1 (F _) eq_refl) as [I X]. cbn in X. subst. eauto.
  - intros (l & I). rewrite (proj2 (F (z, s, l)) (conj I eq_refl)). reflexivity.
Qed.

Lemma SymbolZ_In : forall z s, endl_SymbolZ s = Some z <-> exists l, In (z, s, l) endl_ZLabels.
Proof.
  intros z s. unfold endl_SymbolZ.
  assert (F := find_Some_iff _ _ (fun i : Z * str * str => snd (fst i)) str_eqb str_eqb_eq endl_ZLabels symbols_NoDup s).
  cbv beta in F. set (o := find _ _) in *.
  split.
  - destruct o as [[[z' s'] l']|]; [|discriminate]. intro H. injection H as <-.
    destruct (proj1 (F _) eq_refl) as [I X]. cbn in X. subst. eauto.
  - intros (l & I). rewrite (proj2 (F (z, s, l)) (conj I eq_refl)). reflexivity.
Qed.

Lemma symbols_inverse : forall z s, endl_ZSymbol z = Some s <-> endl_SymbolZ s = Some z.
Proof. intros. now rewrite ZSymbol_In, SymbolZ_In. Qed.

Lemma ZSymbol_known : forall z, (exists s, endl_ZSymbol z = Some s) <-> (0 <= z < 119)%Z.
Proof.
  intro z. rewrite <- charges_range. unfold endl_ZSymbol. split.
  - intros (s & H). destruct (find _ _) as [x|] eqn:E; [|discriminate].
    apply find_some in E. destruct E as [I E]. apply Z.eqb_eq in E. subst. now apply (in_map (fun i => fst (fst i))).
  - intro I. destruct (find (fun i => (fst (fst i) =? z)%Z) endl_ZLabels) eqn:E; [cbn; eauto|].
    exfalso. apply (find_None_iff _ _ (fun i => fst (fst i)) Z.eqb Z.eqb_eq) in E. contradiction.
Qed.

(** * Dictionary names *)

Lemma dict_numbers_NoDup : NoDup (map fst DictionaryNames).
Proof. apply (nodupb_NoDup _ Z.eqb Z.eqb_eq). vm_compute. reflexivity. Qed.
Lemma dict_names_NoDup : NoDup (map snd DictionaryNames).
Proof. apply (nodupb_NoDup _ str_eqb str_eqb_eq). vm_compute. reflexivity. Qed.

Lemma find_number : forall n name, In (n, name) DictionaryNames ->
  find (fun i => Z.eqb (fst i) n) DictionaryNames = Some (n, name).
Proof.
  intros. apply (find_Some_iff _ _ fst Z.eqb Z.eqb_eq _ dict_numbers_NoDup). auto.
Qed.
Lemma find_name : forall n name, In (n, name) DictionaryNames ->
  find (fun i => str_eqb (snd i) name) DictionaryNames = Some (n, name).
Proof.
  intros. apply (find_Some_iff _ _ snd str_eqb str_eqb_eq _ dict_names_NoDup). auto.
Qed.

Lemma dictionary_lookup : forall n name, In (n, name) DictionaryNames ->
  getDictionaryName (DInt n) = Some name /\ getDictionaryIndex (DName name) = Some n /\
  getDictionaryFilename (DInt n) = getDictionaryFilename (DName name) /\
  forall dir, server_getDictionary dir (DInt n) = server_getDictionary dir (DName name).
Proof.
  intros n name I. unfold server_getDictionary, getDictionaryName, getDictionaryIndex, getDictionaryFilename.
  rewrite (find_number n name I), (find_name n name I). repeat split.
Qed.

Lemma dictionary_inverse : forall n name,
  getDictionaryName (DInt n) = Some name <-> getDictionaryIndex (DName name) = Some n.
Proof.
  intros n name. split; intro H.
  - unfold getDictionaryName in H. destruct (find _ DictionaryNames) as [[n' s]|] eqn:E; [|discriminate].
    apply find_some in E. destruct E as [I E]. apply Z.eqb_eq in E. cbn [fst snd option_map] in E, H. subst.
    injection H as ->. now apply dictionary_lookup.
  - unfold getDictionaryIndex in H. destruct (find _ DictionaryNames) as [[n' s]|] eqn:E; [|discriminate].
    apply find_some in E. destruct E as [I E]. apply str_eqb_eq in E. cbn [fst snd option_map] in E, H. subst.
    injection H as ->. now apply dictionary_lookup.
Qed.

Lemma dictionary_unknown : forall x,
  (forall n name, In (n, name) DictionaryNames -> x <> DInt n /\ x <> DName name) ->
  getDictionaryName x = None /\ getDictionaryIndex x = None /\ getDictionaryFilename x = None /\
  forall dir, server_getDictionary dir x = Raise TypeError.
Proof.
  intros x H.
  assert (F : getDictionaryFilename x = None).
  { destruct x as [n|s|]; auto; cbn [getDictionaryFilename];
      (destruct (find _ DictionaryNames) as [[n' s']|] eqn:E; auto; exfalso;
       apply find_some in E; destruct E as [I E]; destruct (H n' s' I) as [H1 H2]).
    - apply Z.eqb_eq in E. cbn [fst snd] in E. subst. now apply H1.
    - apply str_eqb_eq in E. cbn [fst snd] in E. subst. now apply H2. }
  repeat split; auto.
  - destruct x; auto. cbn [getDictionaryName getDictionaryFilename] in *. destruct (find _ _); [discriminate|reflexivity].
  - destruct x; auto. cbn [getDictionaryIndex getDictionaryFilename] in *. destruct (find _ _); [discriminate|reflexivity].
  - intro dir. unfold server_getDictionary. now rewrite F.
Qed.

(** Distinct advertised dictionaries live in distinct files. *)
Lemma dict_files_distinct : NoDup (map (fun i => getDictionaryFilename (DInt (fst i))) DictionaryNames).
Proof.
  apply (nodupb_NoDup _ (fun a b => match a, b with
                                    | Some x, Some y => str_eqb x y | None, None => true | _, _ => false end)).
  - intros [a|] [b|]; split; intro H; try discriminate; auto.
    + apply str_eqb_eq in H. congruence.
    + injection H as ->. apply str_eqb_refl.
  - vm_compute. reflexivity.
Qed.

Lemma all_dictionaries_gen : forall dir l d0 m, NoDup (map snd l) ->
  fold_res (fun dictmap i =>
              tmp <- server_getDictionary dir (DInt (fst i)) ;;
              match tmp with
              | None => Ok dictmap
              | Some d => Ok (dset str_eqb (snd i) d dictmap)
              end) l d0 = Ok m ->
  (forall n name, In (n, name) l -> exists o, server_getDictionary dir (DInt n) = Ok o /\
     (forall d, o = Some d -> dget str_eqb name m = Some d) /\
     (o = None -> dget str_eqb name m = dget str_eqb name d0)) /\
  (forall name, ~ In name (map snd l) -> dget str_eqb name m = dget str_eqb name d0).
Proof.
  intros dir. induction l as [|[n0 s0] l IH]; intros d0 m ND H.
  - cbn in H. injection H as <-. split; [intros n name []|auto].
  - cbn [map snd] in ND. apply NoDup_cons_iff in ND. destruct ND as [N ND].
    cbn [fold_res fst snd] in H. destruct (server_getDictionary dir (DInt n0)) as [o|e] eqn:E; [|discriminate].
    cbn [bind] in H.
    destruct o as [d|]; cbn [bind] in H.
    + destruct (IH _ _ ND H) as [I1 I2]. split.
      * intros n name [X|I].
        -- injection X as -> ->. exists (Some d). split; [exact E|]. split; [|discriminate].
           intros d' X. injection X as <-. rewrite I2 by auto. apply (dget_dset_same str_eqb str_eqb_eq).
        -- destruct (I1 n name I) as (o & E' & A & B). exists o. repeat split; auto.
           intro X. rewrite B by auto. apply (dget_dset_other str_eqb str_eqb_eq).
           intros ->. apply N. now apply (in_map snd) in I.
      * intros name NI. rewrite I2 by (intro; apply NI; now right).
        apply (dget_dset_other str_eqb str_eqb_eq). intros ->. apply NI. now left.
    + destruct (IH _ _ ND H) as [I1 I2]. split.
      * intros n name [X|I].
        -- injection X as -> ->. exists None. repeat split; auto; discriminate.
        -- destruct (I1 n name I) as (o & E' & A & B). exists o. repeat split; auto.
      * intros name NI. apply I2. intro; apply NI; now right.
Qed.

Lemma all_dictionaries : forall dir m, getAllDictionaries dir = Ok m ->
  forall name d, dget str_eqb name m = Some d <-> server_getDictionary dir (DName name) = Ok (Some d).
Proof.
  intros dir m H name d. unfold getAllDictionaries in H.
  destruct (all_dictionaries_gen dir _ _ _ dict_names_NoDup H) as [A B].
  destruct (in_dec (list_eq_dec Ascii.ascii_dec) name (map snd DictionaryNames)) as [I|NI].
  - apply in_map_iff in I. destruct I as ([n name'] & X & I). cbn in X. subst name'.
    destruct (A n name I) as (o & E & A1 & A2).
    destruct (dictionary_lookup n name I) as (_ & _ & _ & L). rewrite <- L, E. split.
    + intro G. destruct o as [d'|].
      * rewrite (A1 d' eq_refl) in G. congruence.
      * rewrite A2 in G by auto. discriminate.
    + intro G. injection G as ->. now apply A1.
  - rewrite B by auto. cbn [dget]. split; [discriminate|]. intro G.
    unfold server_getDictionary, getDictionaryFilename in G.
    destruct (find _ DictionaryNames) as [[n' s']|] eqn:E; [|discriminate].
    apply find_some in E. destruct E as [I E]. apply str_eqb_eq in E. cbn in E. subst.
    exfalso. apply NI. now apply (in_map snd) in I.
Qed.

(** * endlZA names *)

Lemma za_inj : forall z a z' a' x y,
  is_digits z -> is_digits a -> is_digits z' -> is_digits a' ->
  length z <= 3 -> length a <= 3 -> length z' <= 3 -> length a' <= 3 ->
  za (digits_text z) (digits_text a) ++ x = za (digits_text z') (digits_text a') ++ y ->
  value10 z = value10 z' /\ value10 a = value10 a' /\ x = y.
Proof.
  intros z a z' a' x y Dz Da Dz' Da' Lz La Lz' La' E. unfold za in E.
  rewrite !zfill_digits in E by auto. rewrite <- !app_assoc in E. apply app_inv_head in E.
  assert (P : forall ds, is_digits ds -> length ds <= 3 ->
     is_digits (repeat 0%N (3 - length ds) ++ ds) /\ length (digits_text (repeat 0%N (3 - length ds) ++ ds)) = 3).
  { intros ds D L. split.
    - apply Forall_app. split; auto. apply Forall_forall. intros n I. apply repeat_spec in I. subst. reflexivity.
    - unfold digits_text. rewrite map_length, app_length, repeat_length. lia. }
  assert (Q : forall (p q r s : str), length p = length q -> p ++ r = q ++ s -> p = q /\ r = s).
  { induction p as [|c p IH]; intros [|d q] r s L H; try discriminate; auto.
    cbn in H. injection H as -> H. destruct (IH q r s) as [-> ->]; auto. }
  apply Q in E; [|now rewrite (proj2 (P z Dz Lz)), (proj2 (P z' Dz' Lz'))].
  destruct E as [E1 E2].
  apply Q in E2; [|now rewrite (proj2 (P a Da La)), (proj2 (P a' Da' La'))].
  destruct E2 as [E2 E3].
  apply digits_text_inj in E1; [|apply P; auto|apply P; auto].
  apply digits_text_inj in E2; [|apply P; auto|apply P; auto].
  split; [|split; auto].
  - rewrite <- (value10_zeros (3 - length z) z), <- (value10_zeros (3 - length z') z'). now rewrite E1.
  - rewrite <- (value10_zeros (3 - length a) a), <- (value10_zeros (3 - length a') a'). now rewrite E2.
Qed.

(** A string of one to three digits. *)
Lemma short_digits : forall s, forallb is_dig s = true -> exists ds, s = digits_text ds /\ is_digits ds.
Proof.
  induction s as [|c s IH]; intro H.
  - exists []. split; auto. constructor.
  - cbn in H. apply andb_true_iff in H. destruct H as [H1 H2]. destruct (IH H2) as (ds & -> & D).
    destruct (dig_digit c H1) as (d & Hd & ->). exists (d :: ds). split; auto. constructor; auto.
Qed.

(** * Years *)

Lemma digits_isdigit : forall ds, is_digits ds -> ds <> [] -> str_isdigit (digits_text ds) = true.
Proof.
  intros ds D NE. unfold str_isdigit. destruct (digits_text ds) eqn:E; [destruct ds; [contradiction|discriminate]|].
  rewrite <- E. apply forallb_forall. intros c I. pose proof (digits_forallb ds D) as F.
  rewrite forallb_forall in F. unfold is_digit_py. now rewrite F.
Qed.

Lemma firstn_digits : forall n ds, firstn n (digits_text ds) = digits_text (firstn n ds).
Proof. intros. unfold digits_text. apply firstn_map. Qed.

Lemma year_general : forall ds, is_digits ds -> ds <> [] ->
  parseX4Year (digits_text ds) =
  let year := match length ds with 6 => firstn 4 ds | 8 => firstn 4 ds | _ => ds end in
  match year with
  | [a; b; c; d] =>
      if ((a =? 1) && (b =? 9) || (a =? 2) && (b =? 0))%N then Ok (digits_text year)
      else Ok ((if (10 <? value10 [a; b])%N then lit "19" else lit "20") ++ digits_text [a; b])
  | [a; b] => Ok ((if (10 <? value10 [a; b])%N then lit "19" else lit "20") ++ digits_text [a; b])
  | _ => Ok (digits_text year)
  end.
Proof.
  intros ds D NE. unfold parseX4Year.
  assert (NP : replace_char ")"%char [] (digits_text ds) = digits_text ds).
  { apply replace_char_notin. intro I. pose proof (digits_forallb ds D) as F. rewrite forallb_forall in F.
    apply F in I. discriminate. }
  rewrite NP, digits_isdigit by auto. cbn [negb].
  assert (L : length (digits_text ds) = length ds) by (unfold digits_text; apply map_length).
  assert (TWO : forall a b, (a < 10)%N -> (b < 10)%N ->
    (n <- of_option ValueError (int_of_str (digits_text [a; b])) ;;
     Ok (if (10 <? n)%Z then lit "19" ++ digits_text [a; b] else lit "20" ++ digits_text [a; b]))
    = Ok ((if (10 <? value10 [a; b])%N then lit "19" else lit "20") ++ digits_text [a; b])).
  { intros a b Ha Hb.
    pose proof (int_of_digits [] [a; b] [] (Forall_nil _) (Forall_nil _)) as I.
    cbn [app] in I. rewrite app_nil_r in I. rewrite I; [|repeat constructor; auto|discriminate].
    cbn [of_option bind].
    replace (10 <? Z.of_N (value10 [a; b]))%Z with (10 <? value10 [a; b])%N
      by (destruct (N.ltb_spec 10 (value10 [a; b])), (Z.ltb_spec 10 (Z.of_N (value10 [a; b]))); auto; lia).
    destruct (10 <? value10 [a; b])%N; reflexivity. }
  assert (FOUR : forall a b c d, (a < 10)%N -> (b < 10)%N ->
     str_eqb (firstn 2 (digits_text [a; b; c; d])) (lit "19") || str_eqb (firstn 2 (digits_text [a; b; c; d])) (lit "20")
     = ((a =? 1) && (b =? 9) || (a =? 2) && (b =? 0))%N).
  { intros a b c d Ha Hb. cbn [digits_text map firstn].
    change (lit "19") with (digits_text [1; 9]%N). change (lit "20") with (digits_text [2; 0]%N).
    assert (X : forall x y, (x < 10)%N -> (y < 10)%N ->
       str_eqb [digit_char a; digit_char b] (digits_text [x; y]) = ((a =? x) && (b =? y))%N).
    { intros x y Hx Hy. apply Bool.eq_iff_eq_true. rewrite str_eqb_eq, andb_true_iff, !N.eqb_eq. split.
      - intro E. change [digit_char a; digit_char b] with (digits_text [a; b]) in E.
        apply digits_text_inj in E; [|repeat constructor; auto|repeat constructor; auto]. injection E. auto.
      - intros [-> ->]. reflexivity. }
    now rewrite !X. }
  assert (CASE4 : forall a b c d, (a < 10)%N -> (b < 10)%N ->
    let year := digits_text [a; b; c; d] in
    (if (length year =? 4) && (str_eqb (firstn 2 year) (lit "19") || str_eqb (firstn 2 year) (lit "20"))
     then Ok year
     else let year := if length year =? 4 then firstn 2 year else year in
      if length year =? 2 then
        n <- of_option ValueError (int_of_str year) ;;
        Ok (if (10 <? n)%Z then lit "19" ++ year else lit "20" ++ year)
      else Ok year)
    = if ((a =? 1) && (b =? 9) || (a =? 2) && (b =? 0))%N then Ok (digits_text [a; b; c; d])
      else Ok ((if (10 <? value10 [a; b])%N then lit "19" else lit "20") ++ digits_text [a; b])).
  { intros a b c d Ha Hb. cbv zeta. rewrite FOUR by auto.
    change (length (digits_text [a; b; c; d])) with 4. cbn [Nat.eqb andb].
    destruct ((a =? 1) && (b =? 9) || (a =? 2) && (b =? 0))%N; auto.
    change (firstn 2 (digits_text [a; b; c; d])) with (digits_text [a; b]).
    change (length (digits_text [a; b]) =? 2) with true. cbv iota. now apply TWO. }
  cbv zeta.
  destruct ds as [|a [|b [|c [|d [|e [|f [|g [|h [|i ds]]]]]]]]]; [contradiction| | | | | | | | |];
    unfold is_digits in D; repeat match goal with H : Forall _ (_ :: _) |- _ => apply Forall_cons_iff in H; destruct H as [? H] end.
  - reflexivity.
  - change (length (digits_text [a; b])) with 2. cbn [Nat.eqb andb].
    change (length (digits_text [a; b]) =? 2) with true. cbv iota. now apply TWO.
  - reflexivity.
  - apply (CASE4 a b c d); auto.
  - reflexivity.
  - change (drop_last_n 2 (digits_text [a; b; c; d; e; f])) with (digits_text [a; b; c; d]).
    apply (CASE4 a b c d); auto.
  - reflexivity.
  - change (drop_last_n 4 (digits_text [a; b; c; d; e; f; g; h])) with (digits_text [a; b; c; d]).
    apply (CASE4 a b c d); auto.
  - reflexivity.
Qed.

Lemma year_century : forall ds, is_digits ds -> In (length ds) [4; 6; 8] ->
  firstn 2 ds = [1; 9]%N \/ firstn 2 ds = [2; 0]%N ->
  parseX4Year (digits_text ds) = Ok (digits_text (firstn 4 ds)).
Proof.
  intros ds D L F. rewrite year_general; [|auto|destruct ds; [cbn in L; lia|discriminate]].
  destruct ds as [|a [|b [|c [|d [|e [|f [|g [|h [|i ds]]]]]]]]]; cbn in L; try lia; cbn in F;
    (destruct F as [F|F]; injection F as -> ->; reflexivity).
Qed.

Lemma year_short : forall ds, is_digits ds -> In (length ds) [2; 4; 6; 8] ->
  (length ds = 2 \/ firstn 2 ds <> [1; 9]%N /\ firstn 2 ds <> [2; 0]%N) ->
  parseX4Year (digits_text ds)
  = Ok ((if (10 <? value10 (firstn 2 ds))%N then lit "19" else lit "20") ++ digits_text (firstn 2 ds)).
Proof.
  intros ds D L F. rewrite year_general; [|auto|destruct ds; [cbn in L; lia|discriminate]].
  destruct ds as [|a [|b [|c [|d [|e [|f [|g [|h [|i ds]]]]]]]]]; cbn in L; try lia; cbn [firstn length] in *; auto;
    (destruct F as [F|[F1 F2]]; [discriminate|]; cbv zeta beta iota;
     destruct (N.eqb_spec a 1); destruct (N.eqb_spec b 9); destruct (N.eqb_spec a 2);
       destruct (N.eqb_spec b 0); subst; cbn [andb orb]; congruence || reflexivity).
Qed.

Lemma year_other : forall ds, is_digits ds -> ds <> [] -> ~ In (length ds) [2; 4; 6; 8] ->
  parseX4Year (digits_text ds) = Ok (digits_text ds).
Proof.
  intros ds D NE L. rewrite year_general by auto.
  destruct ds as [|a [|b [|c [|d [|e [|f [|g [|h [|i ds]]]]]]]]]; cbn in L; try tauto; reflexivity.
Qed.

Lemma year_parens : forall s, parseX4Year s = parseX4Year (replace_char ")"%char [] s).
Proof.
  intro s. unfold parseX4Year.
  assert (E : replace_char ")"%char [] (replace_char ")"%char [] s) = replace_char ")"%char [] s).
  { apply replace_char_notin. intro I. unfold replace_char in I. apply in_flat_map in I.
    destruct I as (x & _ & I). destruct (Ascii.eqb_spec x ")"%char); [destruct I|].
    destruct I as [->|[]]. congruence. }
  now rewrite E.
Qed.

Lemma year_junk : forall s c, In c s -> c <> ")"%char -> is_digit_py c = false ->
  parseX4Year s = Raise TypeError.
Proof.
  intros s c I N D. unfold parseX4Year.
  apply (replace_char_keeps ")"%char c []) in I; auto.
  destruct (str_isdigit (replace_char ")"%char [] s)) eqn:E; auto.
  exfalso. unfold str_isdigit in E. destruct (replace_char ")"%char [] s) eqn:R; [discriminate|].
  rewrite <- R in *. rewrite forallb_forall in E. apply E in I. congruence.
Qed.

(** Four digits beginning with 19 or 20 come out whenever the date has a supported length. *)
Lemma year_four : forall ds, is_digits ds -> In (length ds) [2; 4; 6; 8] ->
  exists a b, parseX4Year (digits_text ds) = Ok (lit "19" ++ digits_text [a; b]) \/
              parseX4Year (digits_text ds) = Ok (lit "20" ++ digits_text [a; b]).
Proof.
  intros ds D L.
  assert (C : In (length ds) [4; 6; 8] /\ (firstn 2 ds = [1; 9]%N \/ firstn 2 ds = [2; 0]%N)
              \/ (length ds = 2 \/ firstn 2 ds <> [1; 9]%N /\ firstn 2 ds <> [2; 0]%N)).
  { destruct (list_eq_dec N.eq_dec (firstn 2 ds) [1; 9]%N) as [E|E];
      destruct (list_eq_dec N.eq_dec (firstn 2 ds) [2; 0]%N) as [E'|E'];
      destruct (Nat.eq_dec (length ds) 2); auto; left; (split; [cbn in L |- *; lia|auto]). }
  destruct C as [[L' F]|F].
  - rewrite year_century by auto.
    destruct ds as [|a [|b [|c [|d ds]]]]; cbn in L'; try lia. exists c, d. cbn in F.
    destruct F as [F|F]; injection F as -> ->; [left|right]; reflexivity.
  - rewrite year_short by auto. destruct ds as [|a [|b ds]]; cbn in L; try lia. exists a, b. cbn [firstn].
    destruct (10 <? value10 [a; b])%N; auto.
Qed.

(** * endlZA names of particles *)

Lemma endlZA_names : forall p q z a z' a',
  nucleus_name p = Some (digits_text z, digits_text a) ->
  nucleus_name q = Some (digits_text z', digits_text a') ->
  is_digits z -> is_digits a -> is_digits z' -> is_digits a' ->
  1 <= length z <= 3 -> 1 <= length a <= 3 -> 1 <= length z' <= 3 -> 1 <= length a' <= 3 ->
  endlZAStyle p = endlZAStyle q -> getZ p = getZ q /\ getA p = getA q.
Proof.
  intros p q z a z' a' Hp Hq Dz Da Dz' Da' Lz La Lz' La' E.
  assert (S : forall p z a, nucleus_name p = Some (z, a) -> exists x, endlZAStyle p = Ok (Some (za z a ++ x)) /\
    getZ p = of_option ValueError (int_of_str z) /\ getA p = of_option ValueError (int_of_str a)).
  { intros r z0 a0 H. destruct r; cbn in H; try discriminate; injection H as <- <-; cbn [endlZAStyle getZ getA].
    - exists []. now rewrite app_nil_r.
    - destruct (single_one isomers); eauto. }
  destruct (S p _ _ Hp) as (x & Ex & Zp & Ap). destruct (S q _ _ Hq) as (y & Ey & Zq & Aq).
  rewrite Ex, Ey in E.
  assert (E' : za (digits_text z) (digits_text a) ++ x = za (digits_text z') (digits_text a') ++ y) by congruence.
  clear E. rename E' into E.
  apply za_inj in E; try lia; auto. destruct E as (E1 & E2 & _).
  assert (I : forall ds, is_digits ds -> 1 <= length ds -> int_of_str (digits_text ds) = Some (Z.of_N (value10 ds))).
  { intros ds D L. pose proof (int_of_digits [] ds [] (Forall_nil _) (Forall_nil _) D) as I.
    cbn [app] in I. rewrite app_nil_r in I. apply I. destruct ds; [cbn in L; lia|discriminate]. }
  rewrite Zp, Ap, Zq, Aq, !I, E1, E2 by (auto; lia). auto.
Qed.

Lemma below_thousand : forall n, (n < 1000)%N -> 1 <= length (n_to_str n) <= 3.
Proof.
  intros n H.
  assert (F : forallb (fun k => let l := length (n_to_str (N.of_nat k)) in (1 <=? l) && (l <=? 3)) (seq 0 1000) = true)
    by (vm_compute; reflexivity).
  rewrite forallb_forall in F. specialize (F (N.to_nat n)).
  rewrite N2Nat.id in F. assert (I : In (N.to_nat n) (seq 0 1000)) by (apply in_seq; lia).
  specialize (F I). cbv zeta in F. apply andb_true_iff in F. destruct F as [F1 F2].
  apply Nat.leb_le in F1, F2. auto.
Qed.

Lemma endlZA_numbers : forall Z1 s1 A1 Z2 s2 A2,
  (Z1 < 1000)%N -> (A1 < 1000)%N -> (Z2 < 1000)%N -> (A2 < 1000)%N ->
  endlZAStyle (PNucleus (n_to_str Z1) s1 (n_to_str A1)) = endlZAStyle (PNucleus (n_to_str Z2) s2 (n_to_str A2)) ->
  Z1 = Z2 /\ A1 = A2.
Proof.
  intros Z1 s1 A1 Z2 s2 A2 H1 H2 H3 H4 E.
  pose proof (below_thousand _ H1) as L1. pose proof (below_thousand _ H2) as L2.
  pose proof (below_thousand _ H3) as L3. pose proof (below_thousand _ H4) as L4.
  pose proof (int_of_n_to_str Z1) as I1. pose proof (int_of_n_to_str Z2) as I2.
  pose proof (int_of_n_to_str A1) as I3. pose proof (int_of_n_to_str A2) as I4.
  destruct (n_to_str_spec Z1) as (d1 & E1 & D1 & _ & _). destruct (n_to_str_spec A1) as (d2 & E2 & D2 & _ & _).
  destruct (n_to_str_spec Z2) as (d3 & E3 & D3 & _ & _). destruct (n_to_str_spec A2) as (d4 & E4 & D4 & _ & _).
  rewrite E1, E2, E3, E4 in *. unfold digits_text in L1, L2, L3, L4. rewrite map_length in L1, L2, L3, L4.
  apply (endlZA_names _ _ d1 d2 d3 d4) in E; auto.
  cbn [getZ getA] in E. rewrite I1, I2, I3, I4 in E. cbn in E. destruct E as [EZ EA].
  injection EZ as EZ. injection EA as EA. lia.
Qed.

(** The part of the name that tells the states. *)
Definition state_name (iso : list str) : str :=
  if single_one iso then lit "m"
  else concat (map (fun i => if str_eqb i (lit "0") then lit "g" else lit "m" ++ i) iso).
Lemma digits_prefix : forall a b x y, is_digits a -> is_digits b ->
  (forall c t, x = c :: t -> is_dig c = false) -> (forall c t, y = c :: t -> is_dig c = false) ->
  digits_text a ++ x = digits_text b ++ y -> a = b /\ x = y.
Proof.
  induction a as [|d a IH]; intros [|e b] x y Da Db X Y E; cbn [digits_text map app] in E.
  - auto.
  - exfalso. inversion Db as [|? ? D _]; subst. specialize (X _ _ eq_refl). rewrite (digit_is_dig _ D) in X. discriminate.
  - exfalso. inversion Da as [|? ? D _]; subst. specialize (Y _ _ eq_refl). rewrite (digit_is_dig _ D) in Y. discriminate.
  - injection E as E1 E2. inversion Da as [|? ? D1 D2]; inversion Db as [|? ? D3 D4]; subst.
    assert (H : [d] = [e]).
    { apply (digits_text_inj [d] [e]); [now constructor|now constructor|]. cbn. now f_equal. }
    injection H as ->. destruct (IH b x y D2 D4 X Y E2) as [-> ->]. auto.
Qed.
Definition states_ok (iso : list str) : Prop := Forall state_number iso.
Lemma states_concat : forall l l', states_ok l -> states_ok l' ->
  concat (map (fun i => if str_eqb i (lit "0") then lit "g" else lit "m" ++ i) l) =
  concat (map (fun i => if str_eqb i (lit "0") then lit "g" else lit "m" ++ i) l') -> l = l'.
Proof.
  set (f := fun i => if str_eqb i (lit "0") then lit "g" else lit "m" ++ i).
  assert (HD : forall l c t, concat (map f l) = c :: t -> is_dig c = false).
  { intros [|i l] c t E; [discriminate|]. cbn [map concat] in E. unfold f at 1 in E. destruct (str_eqb i (lit "0")); cbn in E; injection E as <- _; reflexivity. }
  induction l as [|i l IH]; intros [|j l'] S S' E.
  - reflexivity.
  - exfalso. cbn [map concat] in E. unfold f at 1 in E. destruct (str_eqb j (lit "0")); discriminate.
  - exfalso. cbn [map concat] in E. unfold f at 1 in E. destruct (str_eqb i (lit "0")); discriminate.
  - inversion S as [|? ? (di & Ei & Di & Ni) S1]; inversion S' as [|? ? (dj & Ej & Dj & Nj) S2]; subst.
    cbn [map concat] in E. unfold f at 1 3 in E.
    destruct (str_eqb (digits_text di) (lit "0")) eqn:Z1; destruct (str_eqb (digits_text dj) (lit "0")) eqn:Z2; cbn [lit list_ascii_of_string app] in E.
    + injection E as E. apply str_eqb_eq in Z1, Z2. rewrite Z1, Z2. f_equal. now apply IH.
    + discriminate.
    + discriminate.
    + injection E as E. destruct (digits_prefix di dj _ _ Di Dj (HD l) (HD l') E) as [-> E']. f_equal. now apply IH.
Qed.
Lemma state_name_inj : forall l l', states_ok l -> states_ok l' -> state_name l = state_name l' -> l = l'.
Proof.
  intros l l' S S' E. unfold state_name in E.
  assert (ONE : forall l, single_one l = true -> l = [lit "1"]).
  { intros [|i [|]] H; try discriminate. cbn in H. apply str_eqb_eq in H. now subst. }
  assert (NOT : forall l, states_ok l ->
    concat (map (fun i => if str_eqb i (lit "0") then lit "g" else lit "m" ++ i) l) <> lit "m").
  { intros [|i k] K H; [discriminate|]. inversion K as [|? ? (d & -> & D & N) _]; subst. cbn [map concat] in H.
    destruct (str_eqb (digits_text d) (lit "0")); [discriminate|]. destruct d as [|d0 d]; [contradiction|].
    cbn in H. discriminate. }
  destruct (single_one l) eqn:O1; destruct (single_one l') eqn:O2.
  - now rewrite (ONE _ O1), (ONE _ O2).
  - exfalso. now apply (NOT l').
  - exfalso. now apply (NOT l).
  - now apply states_concat.
Qed.
Lemma endlZA_states : forall p q z a z' a',
  nucleus_name p = Some (digits_text z, digits_text a) ->
  nucleus_name q = Some (digits_text z', digits_text a') ->
  is_digits z -> is_digits a -> is_digits z' -> is_digits a' ->
  1 <= length z <= 3 -> 1 <= length a <= 3 -> 1 <= length z' <= 3 -> 1 <= length a' <= 3 ->
  Forall state_number (nucleus_states p) -> Forall state_number (nucleus_states q) ->
  endlZAStyle p = endlZAStyle q -> nucleus_states p = nucleus_states q.
Proof.
  intros p q z a z' a' Hp Hq Dz Da Dz' Da' Lz La Lz' La' Sp Sq E.
  assert (S : forall p z a, nucleus_name p = Some (z, a) -> endlZAStyle p = Ok (Some (za z a ++ state_name (nucleus_states p)))).
  { intros r z0 a0 H. destruct r; cbn in H; try discriminate; injection H as <- <-; cbn [endlZAStyle nucleus_states].
    - now rewrite app_nil_r.
    - unfold state_name. destruct (single_one isomers); reflexivity. }
  rewrite (S p _ _ Hp), (S q _ _ Hq) in E.
  assert (E' : za (digits_text z) (digits_text a) ++ state_name (nucleus_states p)
    = za (digits_text z') (digits_text a') ++ state_name (nucleus_states q)) by congruence.
  clear E. rename E' into E. apply za_inj in E; try lia; auto. destruct E as (_ & _ & E).
  apply state_name_inj; auto.
Qed.

Lemma dict_filenames : forall n name, In (n, name) DictionaryNames ->
  exists a b, is_digits [a; b] /\ Z.of_N (value10 [a; b]) = n /\
    getDictionaryFilename (DInt n) = Some (lit "dict" ++ digits_text [a; b] ++ lit ".txt").
Proof.
  intros n name H.
  assert (F : Forall (fun i => exists a b, (a < 10)%N /\ (b < 10)%N /\ Z.of_N (value10 [a; b]) = fst i /\
    getDictionaryFilename (DInt (fst i)) = Some (lit "dict" ++ digits_text [a; b] ++ lit ".txt")) DictionaryNames).
  { assert (G : Forall (fun i : Z * str => let a := (Z.to_N (fst i) / 10)%N in let b := (Z.to_N (fst i) mod 10)%N in
      (a < 10)%N /\ (b < 10)%N /\ Z.of_N (value10 [a; b]) = fst i /\
      getDictionaryFilename (DInt (fst i)) = Some (lit "dict" ++ digits_text [a; b] ++ lit ".txt")) DictionaryNames).
    { unfold DictionaryNames. repeat (apply Forall_cons; [repeat split; vm_compute; reflexivity|]). apply Forall_nil. }
    eapply Forall_impl; [|exact G]. intros i (A & B & C & D). eauto 8. }
  rewrite Forall_forall in F. destruct (F _ H) as (a & b & A & B & C & D). exists a, b.
  split; [repeat constructor; assumption|]. auto.
Qed.
