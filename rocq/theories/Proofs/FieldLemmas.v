(** Lemmas about plain fields and BIB sections. *)
From Coq Require Import String List Ascii NArith ZArith Bool Arith Lia Permutation.
From Verif.Model Require Import Py Dicts Particle Reaction Field.
From Verif.Spec Require Import Text Exfor.
From Verif.Proofs Require Import StrLemmas DictLemmas ReactionLemmas.
Import ListNotations.
Local Open Scope list_scope.
Local Open Scope nat_scope.

Lemma rstrip_right_trimmed : forall s, right_trimmed s (rstrip s).
Proof.
  intro s. destruct (rstrip_decomp s) as (b & E & B). exists b. repeat split; auto.
  intros c t H. apply not_space_white. eapply rstrip_last; eauto.
Qed.

Lemma right_trimmed_unique : forall s c, right_trimmed s c -> rstrip s = c.
Proof.
  intros s c (b & -> & B & L). rewrite rstrip_blank by auto. apply rstrip_id.
  intros t x H. apply not_space_white. eauto.
Qed.

Lemma rstrip_iff : forall s c, rstrip s = c <-> right_trimmed s c.
Proof. split; [intros <-; apply rstrip_right_trimmed | apply right_trimmed_unique]. Qed.

Lemma firstn_repeat_blank : forall n m, blank (firstn n (repeat sp m)).
Proof.
  intros. unfold blank. apply Forall_forall. intros x H.
  assert (In x (repeat sp m)) as I by (rewrite <- (firstn_skipn n); apply in_or_app; auto).
  apply repeat_spec in I. subst. apply is_space_white. reflexivity.
Qed.
Lemma skipn_repeat_blank : forall n m, blank (skipn n (repeat sp m)).
Proof.
  intros. unfold blank. apply Forall_forall. intros x H.
  assert (In x (repeat sp m)) as I by (rewrite <- (firstn_skipn n); apply in_or_app; auto).
  apply repeat_spec in I. subst. apply is_space_white. reflexivity.
Qed.
Lemma blank_firstn : forall n s, blank s -> blank (firstn n s).
Proof.
  intros n s B. unfold blank in *. rewrite Forall_forall in *. intros x H. apply B.
  rewrite <- (firstn_skipn n). apply in_or_app; auto.
Qed.

(** Padding does not show in a right-stripped slice. *)
Lemma rstrip_slice_ljust : forall n s i j, rstrip (slice (ljust n s) i j) = rstrip (slice s i j).
Proof.
  intros. unfold slice, ljust. rewrite skipn_app, firstn_app.
  apply rstrip_blank. apply blank_firstn. apply skipn_repeat_blank.
Qed.
Lemma strip_slice_ljust : forall n s i j, strip (slice (ljust n s) i j) = strip (slice s i j).
Proof.
  intros. unfold slice, ljust. rewrite skipn_app, firstn_app.
  rewrite <- (app_nil_l (_ ++ _)). rewrite strip_surround; auto; [constructor|].
  apply blank_firstn, skipn_repeat_blank.
Qed.

Lemma nth_ljust : forall n s i, nth i (ljust n s) sp = nth i s sp.
Proof.
  intros. unfold ljust. destruct (Nat.lt_ge_cases i (length s)) as [L|G].
  - now rewrite app_nth1.
  - rewrite app_nth2 by auto. rewrite (nth_overflow s) by auto. apply nth_repeat.
Qed.

Definition line_text (line : str) : str := rstrip (slice line 11 66).

(** ** Plain fields *)

Definition put_line (d : list (ascii * list str)) (p : ascii) (t : str) : list (ascii * list str) :=
  dset Ascii.eqb p (match dget Ascii.eqb p d with Some l => l | None => [] end ++ [t]) d.

Lemma plain_step_eq : forall cur d line,
  plain_step (cur, d) line
  = let p := if Ascii.eqb (column11 line) sp then cur else column11 line in (p, put_line d p (line_text line)).
Proof.
  intros. unfold plain_step. rewrite nth_ljust, rstrip_slice_ljust. reflexivity.
Qed.

Lemma aeq : forall a b, Ascii.eqb a b = true <-> a = b.
Proof. apply Ascii.eqb_eq. Qed.

Lemma dget_dset : forall (K V : Type) (eqb : K -> K -> bool), (forall a b, eqb a b = true <-> a = b) ->
  forall k k' (v : V) d, dget eqb k (dset eqb k' v d) = if eqb k k' then Some v else dget eqb k d.
Proof.
  intros K V eqb H k k' v d. induction d as [|[q w] d IH]; cbn.
  - destruct (eqb k k'); auto.
  - destruct (eqb k' q) eqn:E; cbn.
    + apply H in E. subst q. destruct (eqb k k'); auto.
    + destruct (eqb k q) eqn:F; auto. apply H in F. subst q.
      destruct (eqb k k') eqn:G; auto. apply H in G. subst k'.
      rewrite (proj2 (H k k) eq_refl) in E. discriminate.
Qed.

Definition of_marked (l : list str) : option (list str) := match l with [] => None | _ => Some l end.

Lemma fold_plain : forall lines cur d,
  let d' := snd (fold_left plain_step lines (cur, d)) in
  forall p, dget Ascii.eqb p d'
  = match dget Ascii.eqb p d with
    | Some l => Some (l ++ marked p (marks cur lines) (map line_text lines))
    | None => of_marked (marked p (marks cur lines) (map line_text lines))
    end.
Proof.
  induction lines as [|l ls IH]; intros cur d d' p.
  - cbn. destruct (dget _ p d); auto. now rewrite app_nil_r.
  - subst d'. cbn [fold_left]. rewrite plain_step_eq. cbv zeta. rewrite IH.
    cbn [marks map]. change (" "%char) with sp.
    set (q := if Ascii.eqb (column11 l) sp then cur else column11 l). cbn [marked]. unfold put_line.
    rewrite dget_dset by apply aeq. destruct (Ascii.eqb p q) eqn:E.
    + apply Ascii.eqb_eq in E. subst p. destruct (dget Ascii.eqb q d); cbn; auto.
      now rewrite <- app_assoc.
    + reflexivity.
Qed.

Lemma put_line_len : forall d p t,
  list_sum (map (@length str) (dvals (put_line d p t))) = S (list_sum (map (@length str) (dvals d))).
Proof.
  intros d p t. unfold put_line. induction d as [|[q w] d IH]; [reflexivity|].
  cbn [dset dget]. destruct (Ascii.eqb p q) eqn:E.
  - cbn. rewrite app_length. cbn. lia.
  - change (length w + list_sum (map (@length str) (dvals (put_line d p t)))
            = S (length w + list_sum (map (@length str) (dvals d)))).
    unfold put_line. rewrite IH. lia.
Qed.

Lemma fold_plain_len : forall lines cur d,
  list_sum (map (@length str) (dvals (snd (fold_left plain_step lines (cur, d)))))
  = list_sum (map (@length str) (dvals d)) + length lines.
Proof.
  induction lines as [|l ls IH]; intros cur d; cbn [fold_left]; [cbn [length snd]; lia|].
  rewrite plain_step_eq. cbv zeta. rewrite IH, put_line_len. cbn [length]. lia.
Qed.

Lemma put_line_keys : forall d p t q, In q (dkeys (put_line d p t)) <-> q = p \/ In q (dkeys d).
Proof.
  intros d p t q. unfold put_line. generalize (match dget Ascii.eqb p d with Some l => l | None => [] end ++ [t]).
  intro v. induction d as [|[r w] d IH]; cbn.
  - intuition congruence.
  - destruct (Ascii.eqb p r) eqn:E; cbn.
    + apply Ascii.eqb_eq in E. subst r. intuition congruence.
    + cbn in IH. rewrite IH. intuition congruence.
Qed.

Lemma put_line_NoDup : forall d p t, NoDup (dkeys d) -> NoDup (dkeys (put_line d p t)).
Proof.
  intros d p t. unfold put_line. generalize (match dget Ascii.eqb p d with Some l => l | None => [] end ++ [t]).
  intro v. induction d as [|[r w] d IH]; cbn; intro N.
  - constructor; auto.
  - inversion N as [|? ? N1 N2]; subst. destruct (Ascii.eqb p r) eqn:E; cbn.
    + constructor; auto.
    + constructor; auto. intro I.
      assert (K : forall d' : list (ascii * list str), In r (dkeys (dset Ascii.eqb p v d')) -> r = p \/ In r (dkeys d')).
      { induction d' as [|[u x] d' IH']; cbn; [intuition|]. destruct (Ascii.eqb p u); cbn; intuition. }
      apply K in I. destruct I as [->|I]; [|contradiction].
      rewrite (proj2 (aeq p p) eq_refl) in E. discriminate.
Qed.

Lemma fold_plain_NoDup : forall lines st, NoDup (dkeys (snd st)) ->
  NoDup (dkeys (snd (fold_left plain_step lines st))).
Proof.
  induction lines as [|l ls IH]; intros [cur d] N; cbn [fold_left]; auto.
  rewrite plain_step_eq. cbv zeta. apply IH. cbn. now apply put_line_NoDup.
Qed.

Lemma plain_ok : forall lines f, X4PlainField lines = Ok f ->
  exists l ls, lines = l :: ls /\ f_tag f = Some (strip (slice l 0 10)) /\
    f_dict f = snd (fold_left plain_step lines (sp, [])).
Proof.
  intros [|l ls] f H; [discriminate|]. exists l, ls. unfold X4PlainField in H.
  change (idx (l :: ls) 0) with (Ok l) in H. cbn [bind] in H.
  destruct (fold_left plain_step (l :: ls) (sp, [])) as [p d]. injection H as <-. auto.
Qed.

Lemma plain_field_spec : forall lines f, X4PlainField lines = Ok f ->
  (exists l ls tag, lines = l :: ls /\ f_tag f = Some tag /\ has_keyword l tag) /\
  (exists texts, Forall2 right_trimmed (map (columns 11 66) lines) texts /\
     forall p, dget Ascii.eqb p (f_dict f)
       = match marked p (marks " " lines) texts with [] => None | l => Some l end) /\
  plain_total_len f = length lines.
Proof.
  intros lines f H. destruct (plain_ok lines f H) as (l & ls & E & T & D). repeat split.
  - exists l, ls, (strip (slice l 0 10)). repeat split; auto. apply strip_trimmed.
  - exists (map line_text lines). split.
    + clear. induction lines; constructor; auto. apply rstrip_right_trimmed.
    + intro p. rewrite D. rewrite fold_plain. change (dget Ascii.eqb p []) with (@None (list str)).
      cbv iota. change (" "%char) with sp. unfold of_marked. now destruct (marked p _ _).
  - unfold plain_total_len. rewrite D, fold_plain_len. reflexivity.
Qed.

Lemma plain_field_total : forall lines, lines <> [] -> exists f, X4PlainField lines = Ok f.
Proof.
  intros [|l ls] H; [contradiction|]. unfold X4PlainField.
  change (idx (l :: ls) 0) with (Ok l). cbn [bind].
  destruct (fold_left plain_step (l :: ls) (sp, [])). eauto.
Qed.

(** ** Round trip of plain fields *)


Lemma cinsert_perm : forall x l, Permutation (cinsert x l) (x :: l).
Proof.
  induction l as [|y l IH]; cbn; auto. destruct (code x <=? code y)%N; auto.
  rewrite IH. apply perm_swap.
Qed.
Lemma csort_perm : forall l, Permutation (csort l) l.
Proof. induction l; cbn; auto. rewrite cinsert_perm. auto. Qed.

Lemma csort_head : forall x l, In x l -> (forall y, In y l -> (code x <= code y)%N) ->
  (forall y, In y l -> code y = code x -> y = x) ->
  exists l', csort l = x :: l'.
Proof.
  intros x l. induction l as [|y l IH]; intros I M U; [destruct I|]. cbn [csort].
  destruct (ascii_dec y x) as [->|N].
  - destruct (csort l) as [|z l'] eqn:E; cbn; eauto.
    assert (In z l) as Iz by (apply (Permutation_in _ (csort_perm l)); rewrite E; now left).
    assert (C : (code x <= code z)%N) by (apply M; now right).
    apply N.leb_le in C. rewrite C. eauto.
  - destruct I as [->|I]; [contradiction|]. destruct IH as (l' & E); auto.
    + intros; apply M; now right.
    + intros; apply U; auto; now right.
    + rewrite E. cbn. assert (C : (code y <=? code x)%N = false).
      { apply N.leb_gt. assert (code x <= code y)%N by (apply M; now left).
        assert (code y <> code x) by (intro; apply N; apply U; auto; now left). lia. }
      rewrite C. eauto.
Qed.

Lemma code_inj : forall a b, code a = code b -> a = b.
Proof. intros a b H. rewrite <- (ascii_N_embedding a), <- (ascii_N_embedding b). unfold code in H. now rewrite H. Qed.

Lemma join_cons : forall sep x l, l <> [] -> join sep (x :: l) = x ++ sep ++ join sep l.
Proof. intros sep x [|y l] H; [contradiction|]. reflexivity. Qed.

Lemma join_app : forall sep a b, a <> [] -> b <> [] -> join sep (a ++ b) = join sep a ++ sep ++ join sep b.
Proof.
  intros sep a b Ha Hb. induction a as [|x a IH]; [contradiction|]. destruct a as [|y a].
  - cbn [app]. now rewrite join_cons.
  - change ((x :: y :: a) ++ b) with (x :: ((y :: a) ++ b)). rewrite join_cons by discriminate.
    rewrite IH by discriminate. rewrite (join_cons sep x (y :: a)) by discriminate.
    now rewrite <- !app_assoc.
Qed.

Lemma join_concat : forall sep (gs : list (list str)), (forall g, In g gs -> g <> []) ->
  join sep (map (join sep) gs) = join sep (concat gs).
Proof.
  intros sep gs H. induction gs as [|g gs IH]; auto. cbn [map concat].
  destruct gs as [|h gs].
  - cbn. now rewrite app_nil_r.
  - rewrite join_cons by discriminate. rewrite IH by (intros; apply H; now right).
    rewrite join_app; auto.
    + apply H. now left.
    + cbn. intro E. apply app_eq_nil in E. destruct E as [E _]. apply (H h); auto. right; now left.
Qed.

(** The lines written for one pointer. *)
Definition group (p : ascii) (ts : list str) : list str :=
  match ts with
  | [] => []
  | t :: ts' => (repeat sp 10 ++ p :: t) :: map (fun x => repeat sp 11 ++ x) ts'
  end.

Lemma pointer_block : forall p ts, ts <> [] ->
  slice_to (subfield_repr ts) 10 ++ [p] ++ slice_from (subfield_repr ts) 11 = join [nl] (group p ts).
Proof.
  intros p [|t ts] H; [contradiction|]. unfold subfield_repr, slice_to, slice_from, group.
  destruct ts as [|t' ts]; [reflexivity|].
  cbn [map]. rewrite !join_cons by discriminate. reflexivity.
Qed.

Definition retag (tag : str) (lines : list str) : list str :=
  match lines with [] => [] | l :: ls => (ljust 10 tag ++ skipn 10 l) :: ls end.

Lemma retag_join : forall tag lines, lines <> [] -> (forall l, hd_error lines = Some l -> 10 <= length l) ->
  ljust 10 tag ++ slice_from (join [nl] lines) 10 = join [nl] (retag tag lines).
Proof.
  intros tag [|l ls] H L; [contradiction|]. unfold retag, slice_from.
  specialize (L l eq_refl). destruct ls as [|l' ls]; [reflexivity|].
  rewrite (join_cons [nl] l (l' :: ls)), (join_cons [nl] (_ ++ _) (l' :: ls)) by discriminate.
  rewrite skipn_app.
  replace (10 - length l) with 0 by lia. rewrite skipn_O. now rewrite <- app_assoc.
Qed.

Definition good_text (t : str) : Prop := length t <= 55 /\ rstrip t = t /\ ~ In nl t.

Record good_plain (f : plain) : Prop := {
  gp_keys : NoDup (dkeys (f_dict f));
  gp_some : f_dict f <> [];
  gp_texts : forall p ts, dget Ascii.eqb p (f_dict f) = Some ts -> ts <> [] /\ Forall good_text ts;
  gp_nl : ~ In nl (dkeys (f_dict f)) }.

Lemma dget_key : forall (V : Type) p (d : list (ascii * V)), In p (dkeys d) -> exists v, dget Ascii.eqb p d = Some v.
Proof.
  intros V p d. induction d as [|[q v] d IH]; intro H; [destruct H|]. cbn in *.
  destruct (Ascii.eqb p q) eqn:E; eauto. destruct H as [->|H]; auto.
  rewrite (proj2 (aeq p p) eq_refl) in E. discriminate.
Qed.
Lemma dget_some_key : forall (V : Type) p (d : list (ascii * V)) v, dget Ascii.eqb p d = Some v -> In p (dkeys d).
Proof.
  intros V p d. induction d as [|[q w] d IH]; cbn; intros v H; [discriminate|].
  destruct (Ascii.eqb p q) eqn:E; eauto. apply Ascii.eqb_eq in E. auto.
Qed.

Lemma plain_get_ok : forall f p, good_plain f -> In p (dkeys (f_dict f)) ->
  plain_get f p <> [] /\ Forall good_text (plain_get f p) /\ dget Ascii.eqb p (f_dict f) = Some (plain_get f p).
Proof.
  intros f p G I. unfold plain_get. destruct (dget_key _ p _ I) as (v & E). rewrite E.
  destruct (gp_texts f G p v E). auto.
Qed.

Lemma in_plain_keys : forall f p, In p (plain_keys f) <-> In p (dkeys (f_dict f)).
Proof.
  intros. unfold plain_keys. split; apply Permutation_in; [|apply Permutation_sym]; apply csort_perm.
Qed.

Definition repr_lines (tag : str) (f : plain) : list str :=
  retag tag (concat (map (fun p => group p (plain_get f p)) (plain_keys f))).

Lemma group_nonempty : forall p ts, ts <> [] -> group p ts <> [].
Proof. intros p [|t ts] H; [contradiction|]. discriminate. Qed.

Lemma plain_keys_nonempty : forall f, good_plain f -> plain_keys f <> [].
Proof.
  intros f G E. assert (P := csort_perm (dkeys (f_dict f))). unfold plain_keys in E. rewrite E in P.
  apply Permutation_nil in P. apply (gp_some f G). destruct (f_dict f); [auto|discriminate].
Qed.

Lemma concat_groups_first : forall f, good_plain f -> exists p t ls,
  concat (map (fun p => group p (plain_get f p)) (plain_keys f)) = (repeat sp 10 ++ p :: t) :: ls.
Proof.
  intros f G. destruct (plain_keys f) as [|p ks] eqn:E; [now apply plain_keys_nonempty in E|].
  destruct (plain_get_ok f p G) as (N & _ & _).
  { apply in_plain_keys. rewrite E. now left. }
  cbn [map concat]. destruct (plain_get f p) as [|t ts] eqn:E1; [contradiction|].
  exists p, t. cbn [group app]. eauto.
Qed.

Lemma plain_repr_lines : forall f tag, good_plain f -> f_tag f = Some tag ->
  plain_repr f = Ok (join [nl] (repr_lines tag f)).
Proof.
  intros f tag G T. unfold plain_repr. rewrite T. cbn [of_option bind]. f_equal.
  assert (E : map (fun p => slice_to (subfield_repr (plain_get f p)) 10 ++ [p] ++ slice_from (subfield_repr (plain_get f p)) 11) (plain_keys f)
              = map (join [nl]) (map (fun p => group p (plain_get f p)) (plain_keys f))).
  { rewrite map_map. apply map_ext_in. intros p I. apply pointer_block.
    apply in_plain_keys in I. now apply plain_get_ok in I. }
  cbv zeta. rewrite E, join_concat.
  - unfold repr_lines. destruct (concat_groups_first f G) as (p & t & ls & C). rewrite C.
    apply retag_join; [discriminate|]. intros l H. inversion H. cbn [length]. lia.
  - intros g I. apply in_map_iff in I. destruct I as (p & <- & I). apply group_nonempty.
    apply in_plain_keys in I. now apply plain_get_ok in I.
Qed.

Lemma sp_not_nl : forall n, ~ In nl (repeat sp n).
Proof. intros n H. apply repeat_spec in H. discriminate. Qed.

Lemma group_no_nl : forall p ts l, p <> nl -> Forall good_text ts -> In l (group p ts) -> ~ In nl l.
Proof.
  intros p [|t ts] l Np F I; [destruct I|]. inversion F as [|? ? (_ & _ & Nt) F']; subst.
  unfold group in I. destruct I as [<-|I].
  - intro H. apply in_app_or in H. destruct H as [H|[H|H]]; [now apply sp_not_nl in H|congruence|contradiction].
  - apply in_map_iff in I. destruct I as (x & <- & I). rewrite Forall_forall in F'. apply F' in I.
    destruct I as (_ & _ & Nx). intro H. apply in_app_or in H. destruct H as [H|H]; [now apply sp_not_nl in H|contradiction].
Qed.

Lemma repr_lines_no_nl : forall f tag, good_plain f -> ~ In nl tag -> forall l, In l (repr_lines tag f) -> ~ In nl l.
Proof.
  intros f tag G NT l I.
  assert (K : forall l, In l (concat (map (fun p => group p (plain_get f p)) (plain_keys f))) -> ~ In nl l).
  { intros x H. apply in_concat in H. destruct H as (g & Ig & Ix). apply in_map_iff in Ig.
    destruct Ig as (p & <- & Ip). apply in_plain_keys in Ip. destruct (plain_get_ok f p G Ip) as (_ & F & _).
    apply (group_no_nl p (plain_get f p)); auto. intros ->. now apply (gp_nl f G). }
  unfold repr_lines in I. destruct (concat _) as [|x ls]; [destruct I|]. cbn [retag] in I.
  destruct I as [<-|I]; [|apply K; now right].
  intro H. apply in_app_or in H. destruct H as [H|H].
  - unfold ljust in H. apply in_app_or in H. destruct H as [H|H]; [contradiction|now apply sp_not_nl in H].
  - apply (K x (or_introl eq_refl)). rewrite <- (firstn_skipn 10 x). apply in_or_app. auto.
Qed.

Lemma split_repr_lines : forall f tag, good_plain f -> ~ In nl tag ->
  split_char nl (join [nl] (repr_lines tag f)) = repr_lines tag f.
Proof.
  intros f tag G NT. apply split_comma.
  - unfold repr_lines. destruct (concat_groups_first f G) as (p & t & ls & ->). discriminate.
  - now apply repr_lines_no_nl.
Qed.

(** Reading the lines back. *)
Lemma read_first : forall pre p t, length pre = 10 -> good_text t ->
  column11 (pre ++ p :: t) = p /\ line_text (pre ++ p :: t) = t /\ slice (pre ++ p :: t) 0 10 = pre.
Proof.
  intros pre p t L (Lt & R & _). repeat split.
  - unfold column11. rewrite app_nth2 by lia. now rewrite L, Nat.sub_diag.
  - unfold line_text, slice. rewrite skipn_app, L. rewrite (skipn_all2 pre) by lia. cbn [app].
    replace (11 - 10) with 1 by lia. cbn [skipn]. rewrite firstn_all2 by lia. exact R.
  - unfold slice. rewrite skipn_O. rewrite firstn_app, L. cbn [Nat.sub]. rewrite firstn_all2 by lia.
    rewrite firstn_O. apply app_nil_r.
Qed.

Lemma read_group : forall p ts cur tail, Forall good_text ts -> (p = sp -> cur = sp) ->
  marks cur (group p ts ++ tail) = repeat p (length ts) ++ marks (match ts with [] => cur | _ => p end) tail /\
  map line_text (group p ts) = ts.
Proof.
  intros p [|t ts] cur tail F C; [split; reflexivity|].
  inversion F as [|? ? G F']; subst.
  destruct (read_first (repeat sp 10) p t (repeat_length _ _) G) as (R1 & R2 & _).
  unfold group. split.
  - cbn [app marks]. rewrite R1. change (" "%char) with sp.
    assert (E : (if Ascii.eqb p sp then cur else p) = p).
    { destruct (Ascii.eqb p sp) eqn:E; auto. apply Ascii.eqb_eq in E. rewrite E. auto. }
    rewrite E. cbn [length repeat app]. f_equal. clear - F'.
    induction F' as [|x ts G F IH]; [reflexivity|].
    destruct (read_first (repeat sp 10) sp x (repeat_length _ _) G) as (S1 & _ & _).
    cbn [repeat app] in S1. cbn [map app marks repeat]. rewrite S1.
    change (Ascii.eqb sp " ") with true. cbv iota. cbn [length repeat app]. f_equal. exact IH.
  - cbn [map]. rewrite R2. f_equal. rewrite map_map. rewrite <- map_id. apply map_ext_in.
    intros x I. rewrite Forall_forall in F'. apply F' in I.
    now destruct (read_first (repeat sp 10) sp x (repeat_length _ _) I) as (_ & S2 & _).
Qed.

Lemma marked_app : forall (A : Type) p a b (x y : list A), length a = length x ->
  marked p (a ++ b) (x ++ y) = marked p a x ++ marked p b y.
Proof.
  intros A p a. induction a as [|q a IH]; intros b [|u x] y L; try discriminate; auto.
  cbn in *. injection L as L. rewrite IH by auto. destruct (Ascii.eqb p q); auto.
Qed.
Lemma marked_repeat : forall (A : Type) p q (x : list A),
  marked p (repeat q (length x)) x = if Ascii.eqb p q then x else [].
Proof.
  intros A p q x. induction x as [|u x IH]; cbn; [now destruct (Ascii.eqb p q)|].
  rewrite IH. destruct (Ascii.eqb p q); auto.
Qed.

Lemma marks_nil_cur : forall ks, marks ks [] = [].
Proof. reflexivity. Qed.

Lemma read_groups : forall (f : plain) ks cur, good_plain f ->
  (forall p, In p ks -> In p (dkeys (f_dict f))) -> NoDup ks ->
  (In sp ks -> cur = sp /\ exists ks', ks = sp :: ks') ->
  let gs := concat (map (fun p => group p (plain_get f p)) ks) in
  marks cur gs = concat (map (fun p => repeat p (length (plain_get f p))) ks) /\
  map line_text gs = concat (map (plain_get f) ks).
Proof.
  intros f ks. induction ks as [|k ks IH]; intros cur G K N S; [split; reflexivity|].
  cbv zeta. cbn [map concat]. inversion N as [|? ? N1 N2]; subst.
  destruct (plain_get_ok f k G (K k (or_introl eq_refl))) as (NE & F & _).
  destruct (read_group k (plain_get f k) cur (concat (map (fun p => group p (plain_get f p)) ks)) F) as [R1 R2].
  { intros ->. now destruct (S (or_introl eq_refl)). }
  destruct (IH k) as [I1 I2]; auto.
  { intros p I. apply K. now right. }
  { intro I. destruct (S (or_intror I)) as (_ & ks' & E). injection E as -> ->. contradiction. }
  split.
  - rewrite R1. f_equal. destruct (plain_get f k) eqn:E; [contradiction|]. exact I1.
  - rewrite map_app, R2. now rewrite I2.
Qed.

Lemma marked_groups : forall (f : plain) ks, NoDup ks -> forall q,
  marked q (concat (map (fun p => repeat p (length (plain_get f p))) ks)) (concat (map (plain_get f) ks))
  = if existsb (Ascii.eqb q) ks then plain_get f q else [].
Proof.
  intros f ks N q. induction N as [|k ks NI N IH]; auto. cbn [map concat existsb].
  rewrite marked_app by apply repeat_length. rewrite marked_repeat, IH.
  destruct (Ascii.eqb q k) eqn:E; cbn [orb]; auto.
  apply Ascii.eqb_eq in E. subst k. destruct (existsb (Ascii.eqb q) ks) eqn:X; [|apply app_nil_r].
  apply existsb_exists in X. destruct X as (y & I & Y). apply Ascii.eqb_eq in Y. now subst.
Qed.

Lemma column11_marks : forall cur l ls l', column11 l' = column11 l ->
  marks cur (l' :: ls) = marks cur (l :: ls).
Proof. intros. cbn [marks]. now rewrite H. Qed.

Lemma plain_roundtrip : forall f tag, good_plain f -> f_tag f = Some tag -> strip tag = tag ->
  length tag <= 10 -> ~ In nl tag ->
  (In sp (dkeys (f_dict f)) -> forall p, In p (dkeys (f_dict f)) -> (32 <= code p)%N) ->
  exists s f', plain_repr f = Ok s /\ X4PlainField (split_char nl s) = Ok f' /\
    f_tag f' = f_tag f /\ (forall p, dget Ascii.eqb p (f_dict f') = dget Ascii.eqb p (f_dict f)) /\
    length (split_char nl s) = plain_total_len f.
Proof.
  intros f tag G T ST LT NT B.
  rewrite (plain_repr_lines f tag G T). exists (join [nl] (repr_lines tag f)).
  rewrite split_repr_lines by auto.
  assert (LJ : length (ljust 10 tag) = 10) by (rewrite ljust_length; lia).
  assert (NK : NoDup (plain_keys f)).
  { apply (Permutation_NoDup (Permutation_sym (csort_perm _))), G. }
  destruct (read_groups f (plain_keys f) sp G) as [R1 R2]; auto.
  { intros p. apply in_plain_keys. }
  { intro I. split; auto. apply in_plain_keys in I. unfold plain_keys. apply csort_head; auto.
    intros y Iy E. now apply code_inj. }
  destruct (concat_groups_first f G) as (p0 & t0 & ls & C).
  assert (GT : good_text t0).
  { destruct (plain_keys f) as [|p ks] eqn:E; [now apply plain_keys_nonempty in E|].
    destruct (plain_get_ok f p G) as (N & F & _).
    { apply in_plain_keys. rewrite E. now left. }
    cbn [map concat] in C. destruct (plain_get f p) as [|t ts]; [contradiction|].
    cbn [group app] in C. inversion C; subst. now inversion F. }
  assert (RL : repr_lines tag f = (ljust 10 tag ++ p0 :: t0) :: ls).
  { unfold repr_lines. rewrite C. reflexivity. }
  destruct (plain_field_total (repr_lines tag f)) as (f' & P); [rewrite RL; discriminate|].
  exists f'. split; [reflexivity|]. split; auto.
  destruct (plain_ok _ _ P) as (l & ls' & E & T' & D').
  destruct (read_first (ljust 10 tag) p0 t0 LJ GT) as (A1 & A2 & A3).
  destruct (read_first (repeat sp 10) p0 t0 (repeat_length _ _) GT) as (B1 & B2 & B3).
  assert (M1 : marks sp (repr_lines tag f) = concat (map (fun p => repeat p (length (plain_get f p))) (plain_keys f))).
  { rewrite <- R1. rewrite RL, C. apply column11_marks. now rewrite A1, B1. }
  assert (M2 : map line_text (repr_lines tag f) = concat (map (plain_get f) (plain_keys f))).
  { rewrite <- R2. rewrite RL, C. cbn [map]. now rewrite A2, B2. }
  assert (DG : forall p, dget Ascii.eqb p (f_dict f') = dget Ascii.eqb p (f_dict f)).
  { intro p. rewrite D', fold_plain. change (dget Ascii.eqb p []) with (@None (list str)). cbv iota.
    rewrite M1, M2, marked_groups by auto.
    destruct (existsb (Ascii.eqb p) (plain_keys f)) eqn:X.
    - apply existsb_exists in X. destruct X as (q & I & Y). apply Ascii.eqb_eq in Y. subst q.
      apply in_plain_keys in I. destruct (plain_get_ok f p G I) as (NE & _ & ->).
      destruct (plain_get f p); [contradiction|reflexivity].
    - destruct (dget Ascii.eqb p (f_dict f)) eqn:Y; auto. apply dget_some_key in Y.
      apply in_plain_keys in Y. exfalso. assert (existsb (Ascii.eqb p) (plain_keys f) = true); [|congruence].
      apply existsb_exists. exists p. split; auto. now apply aeq. }
  repeat split; auto.
  - rewrite T', T. f_equal. rewrite RL in E. injection E as <- _. rewrite A3.
    unfold ljust. rewrite <- (app_nil_l (tag ++ _)), strip_surround; auto; [constructor|apply blank_repeat_sp].
  - rewrite <- (map_length line_text), M2. unfold plain_total_len.
    transitivity (list_sum (map (fun p => length (plain_get f p)) (plain_keys f))).
    + clear. induction (plain_keys f); auto. cbn [map concat]. rewrite app_length, IHl. reflexivity.
    + assert (PM : Permutation (map (fun p => length (plain_get f p)) (plain_keys f))
                               (map (fun p => length (plain_get f p)) (dkeys (f_dict f)))).
      { apply Permutation_map. apply csort_perm. }
      assert (LS : forall a b, Permutation a b -> list_sum a = list_sum b).
      { clear. induction 1; cbn; unfold list_sum in *; cbn in *; lia. }
      rewrite (LS _ _ PM). f_equal. unfold dvals, dkeys. rewrite !map_map. apply map_ext_in.
      intros [p ts] I. cbn. unfold plain_get.
      enough (E1 : dget Ascii.eqb p (f_dict f) = Some ts) by now rewrite E1.
      pose proof (gp_keys f G) as ND. clear - I ND. induction (f_dict f) as [|[q w] d IH]; [destruct I|].
      cbn in *. inversion ND; subst. destruct I as [I|I].
      * injection I as -> ->. now rewrite (proj2 (aeq p p) eq_refl).
      * destruct (Ascii.eqb p q) eqn:E; auto. apply Ascii.eqb_eq in E. subst q.
        exfalso. apply H1. apply in_map_iff. exists (p, ts). auto.
Qed.

(** A parsed field of lines without newlines is good. *)
Lemma marked_In : forall (A : Type) p ps (xs : list A) x, In x (marked p ps xs) -> In x xs.
Proof.
  intros A p ps. induction ps as [|q ps IH]; intros [|y xs] x H; try destruct H.
  cbn in H. destruct (Ascii.eqb p q); [destruct H; [left|right]; eauto|right; eauto].
Qed.

Lemma in_slice : forall c s i j, In c (slice s i j) -> In c s.
Proof.
  intros c s i j H. unfold slice in H.
  assert (In c (skipn i s)) by (rewrite <- (firstn_skipn (j - i)); apply in_or_app; auto).
  rewrite <- (firstn_skipn i s). apply in_or_app. auto.
Qed.
Lemma in_rstrip : forall c s, In c (rstrip s) -> In c s.
Proof. intros c s H. destruct (rstrip_decomp s) as (b & E & _). rewrite E. apply in_or_app. auto. Qed.
Lemma in_strip : forall c s, In c (strip s) -> In c s.
Proof.
  intros c s H. destruct (strip_trimmed s) as (a & b & E & _). rewrite E.
  apply in_or_app. right. apply in_or_app. auto.
Qed.
Lemma rstrip_rstrip : forall s, rstrip (rstrip s) = rstrip s.
Proof. intro s. apply rstrip_id. intros. eapply rstrip_last; eauto. Qed.

Lemma marks_In : forall lines cur p, In p (marks cur lines) -> p = cur \/ exists l, In l lines /\ p = column11 l.
Proof.
  induction lines as [|l ls IH]; intros cur p H; [destruct H|]. cbn [marks] in H.
  set (q := if Ascii.eqb (column11 l) " " then cur else column11 l) in *.
  assert (Q : q = cur \/ q = column11 l) by (unfold q; destruct (Ascii.eqb _ _); auto).
  destruct H as [H|H].
  - subst p. destruct Q as [Q|Q]; rewrite Q; auto. right. exists l. split; auto. now left.
  - apply IH in H. destruct H as [->|(x & I & ->)].
    + destruct Q as [Q|Q]; rewrite Q; auto. right. exists l. split; auto. now left.
    + right. exists x. split; auto. now right.
Qed.

Lemma marked_nonempty : forall (A : Type) p ps (xs : list A), marked p ps xs <> [] -> In p ps.
Proof.
  intros A p ps. induction ps as [|q ps IH]; intros [|y xs] H; try (cbn in H; contradiction).
  cbn in H. destruct (Ascii.eqb p q) eqn:E; [apply Ascii.eqb_eq in E; left; auto|right; eauto].
Qed.

Lemma parsed_good : forall lines f, X4PlainField lines = Ok f -> (forall l, In l lines -> ~ In nl l) -> good_plain f.
Proof.
  intros lines f P NN. destruct (plain_ok lines f P) as (l & ls & E & T & D).
  assert (DG : forall p ts, dget Ascii.eqb p (f_dict f) = Some ts ->
             ts = marked p (marks sp lines) (map line_text lines) /\ ts <> []).
  { intros p ts H. rewrite D, fold_plain in H. change (dget Ascii.eqb p []) with (@None (list str)) in H.
    cbv iota in H. unfold of_marked in H. destruct (marked p _ _); [discriminate|]. injection H as <-. split; auto. discriminate. }
  constructor.
  - rewrite D. apply fold_plain_NoDup. constructor.
  - intro Z. assert (K := fold_plain_len lines sp []). rewrite <- D, Z in K. cbn in K. rewrite E in K. discriminate.
  - intros p ts H. apply DG in H. destruct H as [-> NE]. split; auto.
    apply Forall_forall. intros t I. apply marked_In in I. apply in_map_iff in I. destruct I as (x & <- & I).
    unfold line_text. repeat split.
    + etransitivity; [apply rstrip_length|]. rewrite slice_length. lia.
    + apply rstrip_rstrip.
    + intro H. apply in_rstrip, in_slice in H. now apply NN in H.
  - intro I. apply dget_key in I. destruct I as (v & I). apply DG in I. destruct I as [-> NE].
    apply marked_nonempty, marks_In in NE. destruct NE as [NE|(x & I & NE)]; [discriminate|].
    unfold column11 in NE. destruct (nth_in_or_default 10 x " "%char) as [J|J].
    + rewrite <- NE in J. now apply NN in J.
    + rewrite J in NE. discriminate.
Qed.

Lemma field_roundtrip : forall lines f, X4PlainField lines = Ok f -> (forall l, In l lines -> ~ In nl l) ->
  (In sp (dkeys (f_dict f)) -> forall p, In p (dkeys (f_dict f)) -> (32 <= code p)%N) ->
  exists s f', plain_repr f = Ok s /\ X4PlainField (split_char nl s) = Ok f' /\
    f_tag f' = f_tag f /\ (forall p, dget Ascii.eqb p (f_dict f') = dget Ascii.eqb p (f_dict f)) /\
    length (split_char nl s) = plain_total_len f.
Proof.
  intros lines f P NN B. assert (G := parsed_good lines f P NN).
  destruct (plain_ok lines f P) as (l & ls & E & T & D).
  apply (plain_roundtrip f _ G T); auto.
  - apply strip_strip.
  - etransitivity; [apply strip_length|]. rewrite slice_length. lia.
  - intro I. apply in_strip, in_slice in I. apply (NN l); auto. rewrite E. now left.
Qed.
