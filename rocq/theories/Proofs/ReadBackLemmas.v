(** Printed subentries are read as the same sections. *)
From Coq Require Import String List Ascii NArith ZArith Bool Arith Lia Permutation Sorted.
From Verif.Model Require Import Py PyFloat Utilities Dicts Particle Reaction Field Section Entry.
From Verif.Spec Require Import Text Exfor Codes Document ReadBack.
From Verif.Proofs Require Import StrLemmas UtilLemmas NumLemmas IntLemmas DictLemmas ReactionLemmas FieldLemmas BibLemmas.
Import ListNotations.
Local Open Scope string_scope.
Local Open Scope list_scope.
Local Open Scope nat_scope.

(** ** The order of the pointers *)

Definition absent (K : list ascii) (p : ascii) : bool := negb (existsb (Ascii.eqb p) K).

Lemma put_keys : forall p v (d : list (ascii * list str)),
  dkeys (dset Ascii.eqb p v d) = if existsb (Ascii.eqb p) (dkeys d) then dkeys d else dkeys d ++ [p].
Proof.
  intros p v. induction d as [|[q w] d IH]; [reflexivity|]. cbn [dset dkeys map fst existsb].
  destruct (Ascii.eqb p q) eqn:E; cbn [orb map fst]; [apply Ascii.eqb_eq in E; now subst|].
  unfold dkeys in IH. rewrite IH. now destruct (existsb (Ascii.eqb p) (map fst d)).
Qed.

Lemma filter_filter : forall (A : Type) (f g : A -> bool) l, filter f (filter g l) = filter (fun x => g x && f x) l.
Proof.
  intros A f g. induction l as [|x l IH]; [reflexivity|]. cbn [filter]. destruct (g x); cbn [andb filter]; rewrite IH; reflexivity.
Qed.

Lemma fold_keys : forall lines cur d,
  dkeys (snd (fold_left plain_step lines (cur, d))) = dkeys d ++ filter (absent (dkeys d)) (appearing (marks cur lines)).
Proof.
  induction lines as [|l ls IH]; intros cur d; [cbn; now rewrite app_nil_r|].
  cbn [fold_left]. rewrite plain_step_eq. cbv zeta. rewrite IH. cbn [marks]. change (" "%char) with sp.
  set (q := if Ascii.eqb (column11 l) sp then cur else column11 l). cbn [appearing filter]. unfold put_line. rewrite put_keys.
  unfold absent at 2. destruct (existsb (Ascii.eqb q) (dkeys d)) eqn:E; cbn [negb].
  - f_equal. rewrite filter_filter. apply filter_ext. intro p. unfold absent.
    destruct (Ascii.eqb q p) eqn:Q; [|reflexivity]. apply Ascii.eqb_eq in Q. subst p. now rewrite E.
  - rewrite <- app_assoc. cbn [app]. f_equal. f_equal. rewrite filter_filter. apply filter_ext. intro p. unfold absent.
    rewrite existsb_app. cbn [existsb]. rewrite orb_false_r, negb_orb, (Ascii.eqb_sym p q). apply andb_comm.
Qed.

Lemma plain_order : forall lines f, X4PlainField lines = Ok f -> dkeys (f_dict f) = appearing (marks sp lines).
Proof.
  intros lines f H. destruct (plain_ok lines f H) as (l & ls & _ & _ & D). rewrite D, fold_keys. cbn [dkeys map app].
  rewrite <- (filter_ext (fun _ => true)) by reflexivity. induction (appearing (marks sp lines)) as [|x m IH]; [reflexivity|].
  cbn [filter]. now rewrite IH.
Qed.

Lemma csort_id : forall l, StronglySorted (fun p q => (code p < code q)%N) l -> csort l = l.
Proof.
  induction 1 as [|x l S IH F]; [reflexivity|]. cbn [csort]. rewrite IH. destruct l as [|y l]; [reflexivity|].
  inversion F; subst. cbn [cinsert]. assert (code x <=? code y = true)%N as -> by (apply N.leb_le; lia). reflexivity.
Qed.

Lemma appearing_absent : forall q l, ~ In q l -> filter (fun p => negb (Ascii.eqb q p)) l = l.
Proof.
  induction l as [|x l IH]; intro N; [reflexivity|]. cbn [filter]. destruct (Ascii.eqb q x) eqn:E.
  - apply Ascii.eqb_eq in E. subst. exfalso. apply N. now left.
  - cbn [negb]. f_equal. apply IH. intro I. apply N. now right.
Qed.
Lemma appearing_repeat : forall n p m, ~ In p (appearing m) -> appearing (repeat p (S n) ++ m) = p :: appearing m.
Proof.
  induction n as [|n IH]; intros p m N.
  - cbn [repeat app appearing]. now rewrite appearing_absent.
  - cbn [repeat app appearing] in *. rewrite IH by exact N. cbn [filter]. rewrite (proj2 (aeq p p) eq_refl). cbn [negb].
    now rewrite appearing_absent.
Qed.
Lemma appearing_groups : forall (n : ascii -> nat) ks, NoDup ks -> (forall p, In p ks -> 0 < n p) ->
  appearing (concat (map (fun p => repeat p (n p)) ks)) = ks.
Proof.
  induction ks as [|k ks IH]; intros ND P; [reflexivity|]. cbn [map concat]. inversion ND; subst.
  assert (Pk := P k (or_introl eq_refl)). destruct (n k) as [|m] eqn:E; [lia|].
  assert (IH' : appearing (concat (map (fun p => repeat p (n p)) ks)) = ks) by (apply IH; [auto|intros; apply P; now right]).
  rewrite appearing_repeat by now rewrite IH'. now rewrite IH'.
Qed.

Lemma same_dict : forall (d d' : list (ascii * list str)), NoDup (dkeys d) -> dkeys d' = dkeys d ->
  (forall p, dget Ascii.eqb p d' = dget Ascii.eqb p d) -> d' = d.
Proof.
  induction d as [|[k v] d IH]; intros [|[k' v'] d'] ND K G; try discriminate; [reflexivity|].
  cbn in K. injection K as -> K. inversion ND as [|? ? NI ND']; subst.
  assert (v' = v). { specialize (G k). cbn in G. rewrite (proj2 (aeq k k) eq_refl) in G. congruence. } subst v'.
  f_equal. apply IH; auto. intro p. specialize (G p). cbn in G. destruct (Ascii.eqb p k) eqn:E; auto.
  apply Ascii.eqb_eq in E. subst p.
  destruct (dget Ascii.eqb k d') eqn:A; [apply dget_some_key in A; unfold dkeys in A; rewrite K in A; contradiction|].
  destruct (dget Ascii.eqb k d) eqn:B; [apply dget_some_key in B; contradiction|]. reflexivity.
Qed.

(** The pointers of the written lines. *)
Lemma written_marks : forall f tag, good_plain f -> length tag <= 10 ->
  (In sp (dkeys (f_dict f)) -> forall p, In p (dkeys (f_dict f)) -> (32 <= code p)%N) ->
  marks sp (repr_lines tag f) = concat (map (fun p => repeat p (length (plain_get f p))) (plain_keys f)).
Proof.
  intros f tag G LT B.
  assert (LJ : length (ljust 10 tag) = 10) by (rewrite ljust_length; lia).
  assert (NK : NoDup (plain_keys f)) by apply (Permutation_NoDup (Permutation_sym (csort_perm _))), G.
  destruct (read_groups f (plain_keys f) sp G) as [R1 R2]; auto.
  { intros p. apply in_plain_keys. }
  { intro I. split; auto. apply in_plain_keys in I. unfold plain_keys. apply csort_head; auto.
    intros y Iy E. now apply code_inj. }
  rewrite <- R1. unfold repr_lines. destruct (concat_groups_first f G) as (p0 & t0 & ls & C).
  rewrite C. cbn [retag]. apply column11_marks. unfold column11. rewrite !app_nth2 by (rewrite ?LJ, ?repeat_length; lia).
  now rewrite LJ, repeat_length.
Qed.

Lemma marks_no_space : forall lines cur, cur <> sp -> ~ In sp (marks cur lines).
Proof.
  induction lines as [|l ls IH]; intros cur N I; [destruct I|]. cbn [marks] in I. change (" "%char) with sp in I.
  assert (Q : (if Ascii.eqb (column11 l) sp then cur else column11 l) <> sp).
  { destruct (Ascii.eqb (column11 l) sp) eqn:E; auto. intro X. rewrite X, (proj2 (aeq sp sp) eq_refl) in E. discriminate. }
  destruct I as [I|I]; [contradiction|]. now apply IH in I.
Qed.
Lemma appearing_in : forall q l, In q (appearing l) -> In q l.
Proof.
  induction l as [|x l IH]; intro I; [destruct I|]. cbn [appearing] in I. destruct I as [->|I]; [now left|].
  apply filter_In in I. right. apply IH, I.
Qed.
Lemma ascending_blank : forall fld, pointers_ascending fld -> In sp (appearing (marks sp fld)) ->
  forall p, In p (appearing (marks sp fld)) -> (32 <= code p)%N.
Proof.
  intros [|l ls] A I p J; [destruct J|]. unfold pointers_ascending in A. change (" "%char) with sp in A. cbn [marks] in *.
  change (" "%char) with sp in *.
  destruct (Ascii.eqb (column11 l) sp) eqn:E.
  - cbn [appearing] in *. inversion A as [|? ? S F]; subst. destruct J as [<-|J]; [now vm_compute|].
    rewrite Forall_forall in F. apply F in J. change (N_of_ascii sp) with 32%N in J. unfold code. lia.
  - exfalso. cbn [appearing] in I. assert (column11 l <> sp) as N.
    { intro X. rewrite X, (proj2 (aeq sp sp) eq_refl) in E. discriminate. }
    destruct I as [I|I]; [contradiction|]. apply filter_In in I. destruct I as [I _]. apply appearing_in in I.
    now apply marks_no_space in I.
Qed.

(** The lines written for a field are read as the same field, if the pointers were in order. *)
Lemma field_again : forall fld f kw, X4PlainField fld = Ok f -> good_plain f -> f_tag f = Some kw -> strip kw = kw -> length kw <= 10 -> ~ In nl kw ->
  pointers_ascending fld ->
  X4PlainField (repr_lines kw f) = Ok f.
Proof.
  intros fld f kw P G T S L N A.
  assert (B : In sp (dkeys (f_dict f)) -> forall p, In p (dkeys (f_dict f)) -> (32 <= code p)%N)
    by (rewrite (plain_order _ _ P); now apply ascending_blank).
  destruct (plain_roundtrip f kw G T S L N B) as (s & f' & R & P' & T' & D & _).
  rewrite (plain_repr_lines _ _ G T) in R. injection R as <-. rewrite split_repr_lines in P' by auto.
  rewrite P'. f_equal. destruct f as [t d], f' as [t' d']. cbn [f_tag f_dict] in *. subst t'. f_equal.
  apply same_dict; [apply G| |exact D].
  change d' with (f_dict (mkPlain t d')). rewrite (plain_order _ _ P'). rewrite (written_marks _ kw G L B).
  assert (K : plain_keys (mkPlain t d) = dkeys d).
  { unfold plain_keys. cbn [f_dict]. apply csort_id. change d with (f_dict (mkPlain t d)). rewrite (plain_order _ _ P). exact A. }
  rewrite K. apply appearing_groups; [apply G|]. intros p I.
  destruct (plain_get_ok _ p G I) as (NE & _). destruct (plain_get (mkPlain t d) p); [contradiction|]. cbn. lia.
Qed.

(** ** Authors are still given *)

Lemma marked_map : forall (A B : Type) (g : A -> B) p ps xs, marked p ps (map g xs) = map g (marked p ps xs).
Proof.
  intros A B g p. induction ps as [|q ps IH]; intros [|x xs]; try reflexivity. cbn [marked map].
  rewrite IH. now destruct (Ascii.eqb p q).
Qed.
Lemma marked_first : forall p lines cur l ls, p <> cur -> marked p (marks cur lines) lines = l :: ls -> column11 l = p.
Proof.
  intros p. induction lines as [|x lines IH]; intros cur l ls N H; [discriminate|]. cbn [marks marked] in H.
  change (" "%char) with sp in H. destruct (Ascii.eqb (column11 x) sp) eqn:E.
  - destruct (Ascii.eqb p cur) eqn:Q; [apply Ascii.eqb_eq in Q; contradiction|]. now apply (IH cur l ls).
  - destruct (Ascii.eqb p (column11 x)) eqn:Q.
    + injection H as <- _. apply Ascii.eqb_eq in Q. auto.
    + apply (IH (column11 x) l ls); auto. intros ->. rewrite (proj2 (aeq (column11 x) (column11 x)) eq_refl) in Q. discriminate.
Qed.

Lemma plain_sources : forall fld f p t ts, X4PlainField fld = Ok f -> plain_get f p = t :: ts ->
  (exists l, In l fld /\ t = line_text l /\ (p <> sp -> column11 l = p)) /\
  (forall u, In u ts -> exists l, In l fld /\ u = line_text l).
Proof.
  intros fld f p t ts P E. destruct (plain_ok fld f P) as (_ & _ & _ & _ & D).
  unfold plain_get in E. rewrite D, fold_plain in E. change (dget Ascii.eqb p []) with (@None (list str)) in E. cbv iota in E.
  rewrite marked_map in E. unfold of_marked in E.
  destruct (marked p (marks sp fld) fld) as [|l ls] eqn:M; [discriminate|]. cbn [map] in E. injection E as <- <-.
  assert (IN : forall x, In x (l :: ls) -> In x fld) by (intros x I; rewrite <- M in I; now apply marked_In in I).
  split.
  - exists l. split; [apply IN; now left|]. split; [reflexivity|]. intro N. now apply (marked_first p fld sp l ls).
  - intros u I. apply in_map_iff in I. destruct I as (x & <- & I). exists x. split; [apply IN; now right|reflexivity].
Qed.

Lemma line_text_prefix : forall l, exists b, skipn 11 l = line_text l ++ b.
Proof.
  intro l. unfold line_text, slice. change (66 - 11) with 55.
  destruct (rstrip_decomp (firstn 55 (skipn 11 l))) as (b & E & _). exists (b ++ skipn 55 (skipn 11 l)).
  rewrite app_assoc, <- E. symmetry. apply firstn_skipn.
Qed.
Lemma mentions_text : forall l w, mentions (line_text l) w -> mentions l w.
Proof.
  intros l w (a & b & E). destruct (line_text_prefix l) as (c & Q). exists (firstn 11 l ++ a), (b ++ c).
  rewrite <- (firstn_skipn 11 l) at 1. rewrite Q, E. now rewrite <- !app_assoc.
Qed.
Lemma mentions_pointed : forall l w p, p <> sp -> column11 l = p -> mentions (p :: line_text l) w -> mentions l w.
Proof.
  intros l w p N C (a & b & E). destruct (line_text_prefix l) as (c & Q). exists (firstn 10 l ++ a), (b ++ c).
  assert (L : 10 < length l).
  { destruct (Nat.lt_ge_cases 10 (length l)); auto. unfold column11 in C. rewrite nth_overflow in C by lia. now subst. }
  assert (S10 : skipn 10 l = p :: skipn 11 l).
  { clear - C L. unfold column11 in C. revert C L. generalize 10. intros n. revert l.
    induction n as [|n IH]; intros [|x l] C L; cbn [length] in L; try lia; cbn in *; [now subst|]. apply IH; auto. lia. }
  rewrite <- (firstn_skipn 10 l) at 1. rewrite S10, Q, app_comm_cons, E. now rewrite <- !app_assoc.
Qed.

Lemma mentions_tail : forall w pre s c0 w0, w = c0 :: w0 -> ~ In c0 pre -> mentions (pre ++ s) w -> mentions s w.
Proof.
  intros w pre s c0 w0 -> N (a & b & E). revert a E. induction pre as [|x pre IH]; intros a E; [exists a, b; exact E|].
  destruct a as [|y a].
  - cbn in E. injection E as -> _. exfalso. apply N. now left.
  - cbn in E. injection E as _ E. apply (IH (fun I => N (or_intror I)) a E).
Qed.

Definition no_name (w : str) : Prop := w = lit "No author given" \/ w = lit ".NOT GIVEN.".
Lemma mentions_padded : forall w pre s, no_name w -> pre = ljust 10 (lit "AUTHOR") \/ pre = repeat sp 10 \/ pre = repeat sp 11 ->
  mentions (pre ++ s) w -> mentions s w.
Proof.
  intros w pre s [-> | ->] P M; revert M.
  - apply (mentions_tail _ pre s "N"%char (lit "o author given") eq_refl).
    destruct P as [->|[->| ->]]; vm_compute; intuition discriminate.
  - apply (mentions_tail _ pre s "."%char (lit "NOT GIVEN.") eq_refl).
    destruct P as [->|[->| ->]]; vm_compute; intuition discriminate.
Qed.

Lemma mentions_source : forall w l p, no_name w -> (p <> sp -> column11 l = p) -> mentions (p :: line_text l) w -> mentions l w.
Proof.
  intros w l p W C M. destruct (Ascii.eqb p sp) eqn:E.
  - apply Ascii.eqb_eq in E. subst p. apply mentions_text.
    destruct W as [-> | ->]; revert M;
      [apply (mentions_tail _ [sp] (line_text l) "N"%char (lit "o author given") eq_refl)
      |apply (mentions_tail _ [sp] (line_text l) "."%char (lit "NOT GIVEN.") eq_refl)]; vm_compute; intuition discriminate.
  - assert (N : p <> sp) by (intros ->; discriminate). now apply (mentions_pointed l w p N (C N)).
Qed.

Lemma authors_still : forall fld f w l, X4PlainField fld = Ok f -> good_plain f -> no_name w ->
  In l (repr_lines (lit "AUTHOR") f) -> mentions l w -> exists l0, In l0 fld /\ mentions l0 w.
Proof.
  intros fld f w l P G W I M.
  assert (K : forall x, In x (concat (map (fun p => group p (plain_get f p)) (plain_keys f))) ->
            exists p l0, In l0 fld /\ (x = repeat sp 10 ++ p :: line_text l0) /\ (p <> sp -> column11 l0 = p)).
  { intros x J. apply in_concat in J. destruct J as (g & Jg & Jx). apply in_map_iff in Jg. destruct Jg as (p & <- & _).
    destruct (plain_get f p) as [|t ts] eqn:E; [destruct Jx|].
    destruct (plain_sources fld f p t ts P E) as ((l0 & I0 & E0 & C0) & R). cbn [group] in Jx. destruct Jx as [<-|Jx].
    - exists p, l0. rewrite E0. auto.
    - apply in_map_iff in Jx. destruct Jx as (u & <- & Ju). destruct (R u Ju) as (l1 & I1 & ->). exists sp, l1.
      split; auto. split; [reflexivity|]. congruence. }
  unfold repr_lines in I. destruct (concat _) as [|x ls] eqn:C; [destruct I|]. cbn [retag] in I.
  destruct I as [<-|I].
  - destruct (K x (or_introl eq_refl)) as (p & l0 & I0 & -> & Q). exists l0. split; auto.
    apply (mentions_source w l0 p W Q). change (skipn 10 (repeat sp 10 ++ p :: line_text l0)) with (p :: line_text l0) in M.
    apply (mentions_padded w (ljust 10 (lit "AUTHOR"))); auto.
  - destruct (K l (or_intror I)) as (p & l0 & I0 & -> & Q). exists l0. split; auto.
    apply (mentions_source w l0 p W Q). apply (mentions_padded w (repeat sp 10)); auto.
Qed.
