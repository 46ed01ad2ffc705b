(** A checker for the references of a field. *)
From Coq Require Import String List Ascii NArith ZArith Bool Arith Lia.
From Verif.Model Require Import Py Particle Dicts Field.
From Verif.Spec Require Import Text Exfor Names References.
From Verif.Proofs Require Import StrLemmas ShippedLemmas CommaLemmas ReferenceLemmas NamesExamples.
Import ListNotations.
Local Open Scope string_scope.
Local Open Scope list_scope.
Local Open Scope nat_scope.

(** ** Guessing *)

Definition blankc (c : ascii) : bool := cmem c [sp; nl].
Definition digit_value (c : ascii) : N := (N_of_ascii c - 48)%N.
(** The text up to the parenthesis that closes, and what follows it. *)
Fixpoint body_of (depth : nat) (s : str) : str * str :=
  match s with
  | [] => ([], [])
  | c :: s' => if Ascii.eqb c ")" then match depth with O => ([], s') | S d => let (a, b) := body_of d s' in (c :: a, b) end
               else let (a, b) := body_of (if Ascii.eqb c "(" then S depth else depth) s' in (c :: a, b)
  end.
Definition ref_of (comment body : str) : ref :=
  match split_char ","%char (filter (fun c => negb (blankc c)) body) with
  | [t] :: name :: more => mkRefText t name (removelast more) (map digit_value (last more [])) comment
  | _ => mkRefText sp [] [] [] comment
  end.
(** = and the next code, as often as they come: the blanks around the sign, and the code. *)
Fixpoint more_codes (fuel : nat) (s : str) : list (str * str * str) * str :=
  match fuel with
  | O => ([], s)
  | S n => let (w, r) := cut blankc s in
      match r with
      | e :: r1 => let (v, r2) := cut blankc r1 in
          match r2 with
          | p :: r3 => if Ascii.eqb e "=" && Ascii.eqb p "(" then
                         let (b, r4) := body_of 0 r3 in let (l, rest) := more_codes n r4 in ((w, v, b) :: l, rest)
                       else ([], s)
          | [] => ([], s)
          end
      | [] => ([], s)
      end
  end.
(** The lines that go on, and the references after them. *)
Definition twiceb (l : str) : bool := match l with a :: b :: _ => Ascii.eqb a "(" && Ascii.eqb b "(" | _ => false end.
Definition closingb (l : str) : bool := contains (lit "))") l.
Fixpoint ref_groups (inside : bool) (ls : list str) : list str * list (str * list str) :=
  match ls with
  | [] => ([], [])
  | l :: ls' =>
      if twiceb l then let (m, gs) := ref_groups (negb (closingb l)) ls' in ([], (l, m) :: gs)
      else if negb inside && negb (lineb l) then let (m, gs) := ref_groups false ls' in ([], (l, m) :: gs)
      else let (m, gs) := ref_groups (inside && negb (closingb l)) ls' in (l :: m, gs)
  end.

(** ** Checking *)

Definition markedb (r : ref) : bool :=
  forallb (forallb is_mark) (rt_name r :: rt_details r) && negb (length (rt_date r) =? 0) && forallb (fun d => (d <? 10)%N) (rt_date r).
Fixpoint codes_render (l : list (str * str * str)) (w : str) : str :=
  match l with
  | [] => w
  | (g, v, b) :: l' => g ++ "="%char :: v ++ "("%char :: b ++ ")"%char :: codes_render l' w
  end.
Definition refs_of (text : str) : option (list ref) :=
  if twiceb text then
    let (b, r0) := body_of 0 (skipn 2 text) in let (l, r1) := more_codes (length r0) r0 in let (w, r2) := cut blankc r1 in
    let comment := tl r2 in let rs := map (fun x => ref_of comment (snd x)) l in let r := ref_of comment b in
    if str_eqb text ("("%char :: "("%char :: b ++ ")"%char :: codes_render l w ++ ")"%char :: comment) && negb (length l =? 0) && gapb w &&
       forallb (fun x => gapb (fst (fst x)) && gapb (snd (fst x)) && blanksb false (ref_code (ref_of comment (snd x))) (snd x)) l &&
       blanksb false (ref_code r) b && few_quotesb text && negb (cmem (ascii_of_N 9) text) && forallb markedb (r :: rs)
    then Some (r :: rs) else None
  else
    let (b, comment) := body_of 0 (tl text) in let r := ref_of comment b in
    if str_eqb text ("("%char :: b ++ ")"%char :: rt_comment r) &&
       (blanksb false (ref_code r) b && few_quotesb text && negb (cmem (ascii_of_N 9) text) &&
        forallb (forallb is_mark) (rt_name r :: rt_details r) && negb (length (rt_date r) =? 0) && forallb (fun d => (d <? 10)%N) (rt_date r))
    then Some [r] else None.
Fixpoint goes_onb (inside : bool) (ls : list str) : bool :=
  match ls with
  | [] => negb inside
  | l :: ls' => if inside then negb (twiceb l) && goes_onb (negb (closingb l)) ls' else lineb l && goes_onb false ls'
  end.
Definition groupb (g : str * list str) : bool :=
  if twiceb (fst g) then goes_onb (negb (closingb (fst g))) (snd g)
  else Ascii.eqb (hd sp (fst g)) "(" && lineb (tl (fst g)) && forallb lineb (snd g).
Definition group_text (g : str * list str) : str := fst g ++ concat (snd g).
Definition all_refs (texts : list str) : list ref := flat_map (fun t => match refs_of t with Some rs => rs | None => [] end) texts.
Definition refs_guess (ls : list str) : list ref := all_refs (map group_text (snd (ref_groups false ls))).
Definition ref_linesb (ls : list str) : bool :=
  let (m, gs) := ref_groups false ls in let texts := map group_text gs in
  (length m =? 0) && forallb groupb gs && forallb (fun t => match refs_of t with Some _ => true | None => false end) texts &&
  (negb (existsb twiceb texts) || forallb (fun t => twiceb t || negb (cmem "="%char t)) texts) &&
  forallb (fun r => cmem (rt_type r) (publication_types ++ numbered_types)) (all_refs texts).

(** ** What passes is right *)

Lemma twiceb_is : forall l, twiceb l = true <-> twice l.
Proof.
  intros l. split; [|now intros (s & ->)]. destruct l as [|a [|b l]]; try discriminate. cbn [twiceb]. intros H. apply andb_true_iff in H. destruct H as [A B].
  apply Ascii.eqb_eq in A, B. subst. now exists l.
Qed.
Lemma not_twiceb : forall l, twiceb l = false -> ~ twice l.
Proof. intros l H T. apply twiceb_is in T. congruence. Qed.
Lemma not_closingb : forall l, closingb l = false -> ~ closing l.
Proof. intros l H T. apply closing_is in T. unfold closingb in H. congruence. Qed.
Lemma ref_groups_concat : forall ls inside, let (m, gs) := ref_groups inside ls in m ++ concat (map (fun g => fst g :: snd g) gs) = ls.
Proof.
  induction ls as [|l ls IH]; intros inside; [reflexivity|]. cbn [ref_groups]. destruct (twiceb l).
  - specialize (IH (negb (closingb l))). destruct (ref_groups (negb (closingb l)) ls) as [m gs]. cbn [map concat fst snd app]. now rewrite IH.
  - destruct (negb inside && negb (lineb l)).
    + specialize (IH false). destruct (ref_groups false ls) as [m gs]. cbn [map concat fst snd app]. now rewrite IH.
    + specialize (IH (inside && negb (closingb l))). destruct (ref_groups _ ls) as [m gs]. cbn [app]. now rewrite IH.
Qed.
Lemma goes_onb_ok : forall ls inside, goes_onb inside ls = true -> goes_on inside ls.
Proof.
  induction ls as [|l ls IH]; intros inside H.
  - destruct inside; [discriminate|constructor].
  - cbn [goes_onb] in H. destruct inside; apply andb_true_iff in H; destruct H as [A B]; apply IH in B.
    + apply negb_true_iff, not_twiceb in A. destruct (closingb l) eqn:C.
      * apply goes_closing; [exact A|now apply closing_is|exact B].
      * apply goes_open; [exact A|now apply not_closingb|exact B].
    + apply goes_comment; [now apply lineb_ok|exact B].
Qed.
Lemma groups_ok : forall gs, forallb groupb gs = true -> one_by_one (concat (map (fun g => fst g :: snd g) gs)) (map group_text gs).
Proof.
  induction gs as [|[f m] gs IH]; intros H; [constructor|]. cbn [forallb] in H. apply andb_true_iff in H. destruct H as [A B]. specialize (IH B).
  unfold groupb in A. cbn [fst snd] in A. unfold group_text. cbn [map concat fst snd app]. destruct (twiceb f) eqn:T.
  - apply one_by_one_same; [now apply twiceb_is| |exact IH]. apply goes_onb_ok in A.
    destruct (closingb f) eqn:C; [left; split; [now apply closing_is|exact A]|right; split; [now apply not_closingb|exact A]].
  - apply andb_true_iff in A. destruct A as [A F]. apply andb_true_iff in A. destruct A as [A L]. destruct f as [|c f]; [discriminate|].
    cbn [hd tl] in *. apply Ascii.eqb_eq in A. subst c. apply one_by_one_cons; [now apply lineb_ok| |exact IH].
    rewrite forallb_forall in F. apply Forall_forall. intros x X. apply lineb_ok, F, X.
Qed.
Lemma markedb_ok : forall r, markedb r = true -> ref_marks r.
Proof.
  intros r H. unfold markedb in H. rewrite !andb_true_iff, !negb_true_iff in H. destruct H as [[D F] G]. split; [|split; [intro X; rewrite X in F; discriminate|]].
  - apply Forall_forall. intros w W. rewrite forallb_forall in D. specialize (D w W). apply Forall_forall. intros c K. rewrite forallb_forall in D.
    apply mark_is, D, K.
  - apply Forall_forall. intros d K. rewrite forallb_forall in G. apply N.ltb_lt, G, K.
Qed.
Lemma ref_of_comment : forall comment body, rt_comment (ref_of comment body) = comment.
Proof. intros comment body. unfold ref_of. destruct (split_char _ _) as [|[|t [|? ?]] [|? ?]]; reflexivity. Qed.
Lemma refs_of_ok : forall text rs, refs_of text = Some rs -> refs_text rs text.
Proof.
  intros text rs H. unfold refs_of in H. destruct (twiceb text) eqn:T.
  - right. destruct (body_of 0 (skipn 2 text)) as [b r0]. destruct (more_codes (length r0) r0) as [l r1]. destruct (cut blankc r1) as [w r2].
    cbv zeta in H. set (comment := tl r2) in *.
    match type of H with (if ?B then _ else _) = _ => destruct B eqn:Q; [|discriminate] end.
    assert (rs = ref_of comment b :: map (fun x => ref_of comment (snd x)) l) as -> by congruence. clear H.
    rewrite !andb_true_iff in Q. destruct Q as [[[[[[[Q1 Q2] Q3] Q4] Q5] Q6] Q7] Q8]. apply str_eqb_eq in Q1.
    exists (ref_of comment b), (map (fun x => ref_of comment (snd x)) l), b, (codes_render l w), comment. split; [reflexivity|].
    split; [intros E; apply map_eq_nil in E; rewrite E in Q2; discriminate|]. split; [now apply blanksb_ok|]. split.
    { clear Q1 Q2 Q8. induction l as [|[[g v] y] l IH]; [constructor; now apply gapb_ok|]. cbn [forallb fst snd] in Q4. rewrite !andb_true_iff in Q4.
      destruct Q4 as [[[A B] C] D]. cbn [map codes_render snd]. constructor; [now apply gapb_ok|now apply gapb_ok|now apply blanksb_ok|now apply IH]. }
    split; [exact Q1|]. split; [now apply few_quotesb_ok|]. split; [now apply no_tabsb_ok, negb_true_iff|].
    rewrite forallb_forall in Q8. apply Forall_forall. intros r I. split; [|exact (markedb_ok r (Q8 r I))].
    destruct I as [<-|I]; [apply ref_of_comment|]. apply in_map_iff in I. destruct I as (x & <- & _). apply ref_of_comment.
  - left. destruct (body_of 0 (tl text)) as [b comment]. cbv zeta in H.
    match type of H with (if ?B then _ else _) = _ => destruct B eqn:Q; [|discriminate] end.
    exists (ref_of comment b). split; [congruence|]. apply andb_true_iff in Q. destruct Q as [Q1 Q2]. apply str_eqb_eq in Q1. exact (ref_ok _ b _ Q1 Q2).
Qed.
Lemma ref_linesb_ok : forall ls, ref_linesb ls = true ->
  pointer_refs (refs_guess ls) ls /\ Forall (fun r => In (rt_type r) (publication_types ++ numbered_types)) (refs_guess ls).
Proof.
  intros ls H. unfold ref_linesb in H. unfold refs_guess. pose proof (ref_groups_concat ls false) as CC. destruct (ref_groups false ls) as [m gs]. cbn [snd].
  cbv zeta in H. rewrite !andb_true_iff in H. destruct H as [[[[H1 H2] H3] H4] H5]. destruct m as [|? ?]; [|discriminate]. cbn [app] in CC.
  split.
  - apply groups_ok in H2. rewrite CC in H2. exists (map group_text gs), (map (fun t => match refs_of t with Some rs => rs | None => [] end) (map group_text gs)).
    split; [exact H2|]. split; [|split].
    + clear H2 H4 H5 CC. generalize dependent (map group_text gs). intros texts H3. induction texts as [|t texts IH]; [constructor|].
      cbn [forallb] in H3. apply andb_true_iff in H3. destruct H3 as [A B]. cbn [map]. constructor; [|now apply IH].
      destruct (refs_of t) as [rs|] eqn:E; [|discriminate]. now apply refs_of_ok.
    + unfold all_refs. apply flat_map_concat_map.
    + intros X. apply orb_true_iff in H4. destruct H4 as [H4|H4].
      * exfalso. apply negb_true_iff in H4. apply Exists_exists in X. destruct X as (t & I & T).
        assert (Y : existsb twiceb (map group_text gs) = true) by (apply existsb_exists; exists t; split; [exact I|now apply twiceb_is]). congruence.
      * rewrite forallb_forall in H4. apply Forall_forall. intros t I. specialize (H4 t I). apply orb_true_iff in H4.
        destruct H4 as [A|A]; [left; now apply twiceb_is|right]. now apply notinb_ok, negb_true_iff.
  - rewrite forallb_forall in H5. apply Forall_forall. intros r I. apply cmem_In, H5, I.
Qed.
