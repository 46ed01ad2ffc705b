(** Reaction patterns with percent signs and underscores. *)
From Coq Require Import String List Ascii NArith ZArith Bool Arith Lia Sorted.
From Verif.Model Require Import Py Utilities Sql Manager.
From Verif.Spec Require Import Text Query Wildcards.
From Verif.Proofs Require Import StrLemmas UtilLemmas NumLemmas ManagerLemmas.
Import ListNotations.
Local Open Scope list_scope.

Lemma like_wild : forall p s, sql_like (unstar p) s = true <-> wild p s.
Proof.
  induction p as [|c p IH]; intros s.
  - cbn. destruct s; split; intro H; try discriminate; try constructor. inversion H.
  - unfold unstar, replace_char. cbn [flat_map]. fold (replace_char "*"%char ["%"%char] p). fold (unstar p).
    assert (A : c = "*"%char \/ c = "%"%char -> (exists x y, s = x ++ y /\ sql_like (unstar p) y = true) <-> wild (c :: p) s).
    { intros C. split.
      - intros (x & y & -> & H). apply wild_any; [exact C|]. now apply IH.
      - intros H. inversion H; subst.
        + destruct C; contradiction.
        + destruct C; discriminate.
        + exists x, s0. split; [reflexivity|]. now apply IH. }
    destruct (Ascii.eqb_spec c "*"%char) as [->|N1].
    + cbn [app sql_like]. change (Ascii.eqb "%"%char "%"%char) with true. cbv iota. rewrite like_any. apply A. now left.
    + cbn [app sql_like]. destruct (Ascii.eqb_spec c "%"%char) as [->|N2]; [rewrite like_any; apply A; now right|].
      destruct s as [|d s].
      { split; intro H; [discriminate|]. inversion H; subst. match goal with K : _ \/ _ |- _ => destruct K; contradiction end. }
      destruct (Ascii.eqb_spec c "_"%char) as [->|N3]; cbn [orb andb].
      * rewrite IH. split; intro H; [now constructor|]. inversion H; subst; [contradiction|assumption|].
        match goal with K : _ \/ _ |- _ => destruct K; discriminate end.
      * rewrite andb_true_iff, same_letter_iff, IH. split.
        -- intros [H1 H2]. now constructor.
        -- intro H. inversion H; subst; [now split|contradiction|]. match goal with K : _ \/ _ |- _ => destruct K; contradiction end.
Qed.
Lemma glob_wild : forall p s, glob p s -> wild p s.
Proof.
  intros p s G. induction G as [|c d p s N L G IH|p x s G IH]; [constructor| |apply wild_any; [now left|exact IH]].
  destruct (Ascii.eqb_spec c "%"%char) as [->|N2]; [apply (wild_any _ p [d] s); [now right|exact IH]|].
  destruct (Ascii.eqb_spec c "_"%char) as [->|N3]; [now constructor|now constructor].
Qed.
Lemma wild_glob : forall p s, ~ In "%"%char p -> ~ In "_"%char p -> wild p s -> glob p s.
Proof. intros p s N1 N2 W. apply (like_glob p s N1 N2). now apply like_wild. Qed.

Section Found.
Context (c : criteria) (P : Forall plain_text (used_values c)).

Lemma rest_clean : clean_criteria (without_reaction c).
Proof.
  split; [|discriminate]. rewrite Forall_forall in *. intros v I. apply P. unfold used_values, without_reaction in *.
  cbn [c_author c_target c_reaction c_projectile c_quantity c_SUBENT c_ENTRY opt_list app] in I.
  rewrite !in_app_iff in *. tauto.
Qed.
Definition reaction_crit (c : criteria) : list crit :=
  opt_list (option_map
    (fun a => if cmem "*"%char a
              then ("reaction", "LIKE", (upper (replace_char "*"%char ["%"%char] a)))%string
              else ("reaction", "=", (upper a))%string) (c_reaction c)).
Lemma crits_in : forall x, In x (crits c) <-> In x (reaction_crit c) \/ In x (crits (without_reaction c)).
Proof.
  intros x. unfold crits, without_reaction. cbn [c_author c_target c_reaction c_projectile c_quantity c_SUBENT c_ENTRY option_map opt_list app].
  unfold reaction_crit. rewrite !in_app_iff. tauto.
Qed.
Lemma found_ok : Forall (fun x => let '(col, op, v) := x in
     In col cols /\ (op = "="%string \/ op = "LIKE"%string) /\ ~ In sql_quote v /\ ~ In (ch 0) v) (crits c).
Proof.
  pose proof (crits_ok _ rest_clean) as R. rewrite Forall_forall in *. intros x I. apply crits_in in I. destruct I as [I|I]; [|exact (R x I)].
  unfold reaction_crit in I. apply in_opt_map in I. destruct I as (a & E & ->).
  assert (U : plain_text a) by (apply P; unfold used_values; rewrite !in_app_iff; right; right; left; exact (in_opt _ _ _ E)).
  destruct U as [N1 N2]. change (ascii_of_N 39) with sql_quote in N1. change (ascii_of_N 0) with (ch 0) in N2. fold (unstar a).
  destruct (cmem "*"%char a); (split; [cbn; auto 10|]); (split; [tauto|]);
    rewrite !in_upper by (try (now right); left; cbn; auto 10); split; auto; intro K; apply in_unstar in K; auto; discriminate.
Qed.
Lemma found_match : forall r, forallb (cmp_true r) (map crit_to_cmp (crits c)) = true <-> row_found c r.
Proof.
  intros r. rewrite forallb_map'.
  assert (S : forallb (fun a => cmp_true r (crit_to_cmp a)) (crits c) = true <->
              forallb (fun a => cmp_true r (crit_to_cmp a)) (reaction_crit c) = true /\
              forallb (fun a => cmp_true r (crit_to_cmp a)) (crits (without_reaction c)) = true).
  { rewrite !forallb_forall. split.
    - intros H. split; intros x I; apply H; apply crits_in; tauto.
    - intros [H1 H2] x I. apply crits_in in I. destruct I; auto. }
  rewrite S. pose proof (crits_match _ r rest_clean) as R. rewrite forallb_map' in R. rewrite R. clear S R.
  unfold row_found, reaction_crit. rewrite forallb_opt_map.
  rewrite (forall_some_iff _ (c_reaction c) (fun v =>
     (~ In "*"%char v -> r_reaction r = Some (upper v)) /\
     (In "*"%char v -> exists t, r_reaction r = Some t /\ wild (upper v) t))); [tauto|].
  intros v Ev. destruct (cmem "*"%char v) eqn:E.
  - apply cmem_In in E. rewrite cmp_like_iff. fold (unstar v). rewrite upper_unstar. split.
    + intros (t & Ht & K). split; [contradiction|]. intros _. exists t. split; [exact Ht|]. now apply like_wild.
    + intros [_ K]. destruct (K E) as (t & Ht & K2). exists t. split; [exact Ht|]. now apply like_wild.
  - assert (~ In "*"%char v) as N by (intro K; apply cmem_In in K; congruence).
    rewrite cmp_eq_iff. split; [intro K; split; [auto|contradiction]|]. intros [K _]. now apply K.
Qed.
Lemma query_found : forall table, used_values c <> [] ->
  exists m, query table c = Ok m /\ grouping (fun s => exists r, In r table /\ row_found c r /\ r_subent r = s) m.
Proof.
  intros table U. eexists. split.
  - unfold query. rewrite crits_text. rewrite (proj2 (str_eqb_neq _ _) (cond_not_nil _ (crits_not_nil c U))).
    rewrite select_crits; [reflexivity|now apply crits_not_nil|exact found_ok].
  - eapply grouping_ext; [|apply grouping_of]. intro s. cbv beta. rewrite in_map_iff. split.
    + intros (r & E & H). apply filter_In in H. destruct H as [H1 H2]. exists r. split; [exact H1|]. split; [now apply found_match|exact E].
    + intros (r & H1 & H2 & E). exists r. split; [exact E|]. apply filter_In. split; [exact H1|]. now apply found_match.
Qed.
End Found.

Lemma matches_found : forall c r, row_matches c r -> row_found c r.
Proof.
  intros c r (M1 & M2 & M3 & M4 & M5 & M6 & M7). split.
  - repeat split; auto; cbn [without_reaction c_reaction] in *; discriminate.
  - intros v E. destruct (M3 v E) as [A B]. split; [exact A|]. intros I. destruct (B I) as (t & T & G). exists t. split; [exact T|now apply glob_wild].
Qed.
Lemma nothing_missed : forall table c m r, Forall plain_text (used_values c) -> used_values c <> [] -> query table c = Ok m ->
  In r table -> row_matches c r -> exists l, In (firstn 5 (r_subent r), l) m /\ In (r_subent r) l.
Proof.
  intros table c m r P U Q I M. destruct (query_found c P table U) as (m' & Q' & G). rewrite Q in Q'. injection Q' as <-.
  eapply grouping_listed; [exact G|]. exists r. split; [exact I|]. split; [now apply matches_found|reflexivity].
Qed.
