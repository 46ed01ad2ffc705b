(** Printed subentries are read as the same sections: sections and whole subentries. *)
From Coq Require Import String List Ascii NArith ZArith Bool Arith Lia Permutation Sorted.
From Verif.Model Require Import Py PyFloat Utilities Dicts Particle Reaction Field Section Entry.
From Verif.Spec Require Import Text Exfor Codes Document ReadBack.
From Verif.Proofs Require Import StrLemmas UtilLemmas NumLemmas IntLemmas DictLemmas ReactionLemmas FieldLemmas BibLemmas ReadBackLemmas.
Import ListNotations.
Local Open Scope string_scope.
Local Open Scope list_scope.
Local Open Scope nat_scope.

(** ** BIB *)

Lemma make_field_again : forall e k fld g f, make_field e k fld = Ok f -> X4PlainField fld = X4PlainField g ->
  (k = Some (lit "AUTHOR") -> ~ no_author fld /\ ~ no_author g) -> make_field e k g = Ok f.
Proof.
  intros e k fld g f M P A. rewrite <- M. unfold make_field. cbv zeta.
  unfold X4ReactionField, X4MonitorField, X4ReferenceField, X4InstituteField. rewrite P.
  destruct (tag_eqb k (Some (lit "REACTION"))); [reflexivity|].
  destruct (tag_eqb k (Some (lit "MONITOR"))); [reflexivity|].
  destruct (tag_eqb k (Some (lit "REFERENCE"))); [reflexivity|].
  destruct (tag_eqb k (Some (lit "AUTHOR"))) eqn:EA; [|reflexivity].
  apply tag_eqb_eq in EA. destruct (A EA) as [A1 A2]. unfold X4AuthorField. cbv zeta. rewrite P.
  assert (K : forall x, ~ no_author x -> contains (lit "No author given") (join [nl] x) || contains (lit ".NOT GIVEN.") (join [nl] x) = false).
  { intros x N. apply not_true_iff_false. intro O. apply N. apply orb_true_iff in O. exact O. }
  now rewrite (K fld A1), (K g A2).
Qed.

Lemma fold_bib_make : forall e kws gs fs, Forall2 field_keyword kws gs -> NoDup kws ->
  Forall2 (fun kf f => make_field e (key_of (fst kf)) (snd kf) = Ok f) (combine kws gs) fs ->
  forall b, (forall kw, In kw kws -> ~ In (key_of kw) (dkeys (b_dict b))) ->
  fold_res (bib_add e) gs b = Ok (mkBib (b_dict b ++ combine (map key_of kws) (map Some fs)) (b_keys b ++ map key_of kws)).
Proof.
  intros e kws gs fs F. revert fs. induction F as [|kw g kws gs K F IH]; intros fs ND M b N.
  - cbn in *. inversion M; subst. cbn. rewrite !app_nil_r. now destruct b.
  - cbn [combine] in M. inversion M as [|? f ? fs' M1 M2]; subst. cbn [fst snd] in M1. inversion ND as [|? ? N1 N2]; subst.
    cbn [fold_res]. unfold bib_add at 1. rewrite (field_type_spec kw g K). cbn [bind]. rewrite M1. cbn [bind].
    rewrite (dset_absent _ _ tag_eqb tag_eqb_eq) by (apply N; now left).
    rewrite (IH fs' N2 M2).
    + cbn [b_dict b_keys map combine]. now rewrite <- !app_assoc.
    + cbn [b_dict]. intros k I J. unfold dkeys in J. rewrite map_app in J. apply in_app_or in J.
      destruct J as [J|[J|[]]]; [apply (N k); auto; now right|]. cbn in J. apply key_of_inj in J. subst. contradiction.
Qed.

Lemma END_head : forall (kw b : str), firstn 3 (kw ++ b) = lit "END" -> blank b -> starts_with_END kw.
Proof.
  intros kw b E B. assert (W : forall c r, b = c :: r -> In c (lit "END") -> False).
  { intros c r -> I. inversion B as [|? ? W _]; subst. unfold white in W. 
    destruct I as [<-|[<-|[<-|[]]]]; vm_compute in W; intuition discriminate. }
  destruct kw as [|x [|y [|z r]]]; cbn [app firstn] in E.
  - destruct b as [|c r]; [discriminate|]. exfalso. cbn in E. injection E as -> _. apply (W _ _ eq_refl). now left.
  - destruct b as [|c r]; [discriminate|]. exfalso. cbn in E. injection E as -> -> _. apply (W _ _ eq_refl). right; now left.
  - destruct b as [|c r]; [discriminate|]. exfalso. cbn in E. injection E as -> -> ->. apply (W _ _ eq_refl). right; right; now left.
  - cbn in E. injection E as -> -> ->. exists r. reflexivity.
Qed.
Lemma keyword_END : forall l kw, has_keyword l kw -> columns 0 3 l = lit "END" -> starts_with_END kw.
Proof.
  intros l kw (a & b & E & A & B & _) Q.
  assert (firstn 3 (columns 0 10 l) = lit "END") as Q'.
  { rewrite <- Q. unfold columns. rewrite !skipn_O, firstn_firstn. reflexivity. }
  rewrite E in Q'. destruct a as [|c a]; [now apply (END_head kw b)|].
  exfalso. cbn in Q'. injection Q' as -> _. inversion A as [|? ? W _]; subst. vm_compute in W. intuition discriminate.
Qed.
Lemma continuation_END : forall l, continuation l -> columns 0 3 l <> lit "END".
Proof.
  intros l C Q. apply (keyword_END l []) in Q; [destruct Q as (r & Q); discriminate|].
  exists (columns 0 10 l), []. repeat split; auto; try constructor; try discriminate.
  - now rewrite app_nil_r.
  - intros c t E. destruct t; discriminate.
Qed.

Lemma bib_again : forall e lines b, X4BibSection e lines = Ok b -> (forall l, In l lines -> ~ In nl l) -> plain_bib lines ->
  exists s header body footer, bib_repr b = Ok s /\ split_char nl s = header :: body ++ [footer] /\
    columns 0 11 header = ljust 11 (lit "BIB") /\ columns 0 11 footer = ljust 11 (lit "ENDBIB") /\
    Forall (fun l => columns 0 3 l <> lit "END") body /\ X4BibSection e (split_char nl s) = Ok b.
Proof.
  intros e lines b H NN (fs0 & kws & (first & rest & -> & O & KF & Om) & F2 & ND & NE & AS & NA & LL).
  pose proof (bib_chunkify_fields _ _ _ O KF Om) as CH. rewrite <- CH in *.
  destruct (bib_repr_full e lines b kws H F2 ND NN NA LL)
    as (s & h & gs & ft & R & SP & _ & _ & _ & _ & _ & CG & _ & (C1 & C2) & fs & EG & EB & FM & PF).
  exists s, h, (concat gs), ft. repeat (split; [assumption|]).
  assert (KB : Forall2 (fun kw fld => field_keyword kw fld /\ ~ starts_with_END kw) kws (bib_chunkify lines)).
  { clear - F2 NE. induction F2; inversion NE; subst; constructor; auto. }
  assert (ALL : Forall2 field_keyword kws gs /\
     Forall2 (fun kf f => make_field e (key_of (fst kf)) (snd kf) = Ok f) (combine kws gs) fs /\
     Forall (fun l => columns 0 3 l <> lit "END") (concat gs)).
  { clear SP CG EB R. subst gs. clear - KB AS NA FM PF. revert fs FM PF AS NA.
    induction KB as [|kw fld kws flds [K NE] KB IH]; intros fs FM PF AS NA.
    - inversion PF; subst. repeat split; constructor.
    - inversion PF as [|? f ? fs' (kw' & K' & P & G & T & S & L & N & _ & _) PF']; subst.
      cbn [combine] in FM. inversion FM as [|? ? ? ? M FM']; subst. cbn [fst snd] in M.
      inversion AS as [|? ? A1 A2]; subst. rewrite (field_keyword_fun _ _ _ K' K) in *. clear K' kw'.
      destruct (IH fs' FM' PF' A2) as (I1 & I2 & I3); [intros x Ix; apply NA; now right|].
      assert (BL : block_of f = repr_lines kw (field_plain f)) by (unfold block_of; now rewrite T).
      destruct (repr_lines_field _ _ G S L) as (l & ls & EL & HK & CT).
      cbn [map combine concat]. split; [|split].
      + constructor; auto. rewrite BL. exists l, ls. auto.
      + constructor; auto. cbn [fst snd]. apply (make_field_again e _ fld); auto.
        * rewrite P, BL. symmetry. now apply (field_again fld).
        * intro A. apply key_of_inj with (b := lit "AUTHOR") in A. subst kw.
          assert (NM : ~ author_missing fld) by (apply NA; [now left|exact K]).
          split; intro Z; apply no_author_missing in Z; [contradiction|].
          destruct Z as (x & Ix & Mx). rewrite BL in Ix. apply NM.
          destruct Mx as [Mx|Mx]; (eapply authors_still in Mx; [|exact P|exact G| |exact Ix]);
            try (destruct Mx as (l0 & I0 & M0); exists l0; auto); [now left|now right].
      + apply Forall_app. split; auto. rewrite BL, EL. constructor.
        * intro Q. apply NE. now apply (keyword_END l).
        * apply Forall_forall. intros x Ix. rewrite Forall_forall in CT. now apply continuation_END, CT. }
  destruct ALL as (A1 & A2 & A3). split; [exact A3|].
  rewrite bib_section_fold, CG. rewrite (fold_bib_make e kws gs fs A1 ND A2) by (intros kw _ []).
  cbn [b_dict b_keys app]. now rewrite EB.
Qed.

