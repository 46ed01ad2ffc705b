(** The frame of reference of data sets. *)
From Coq Require Import String List Ascii NArith ZArith Bool Arith Lia.
From Verif.Model Require Import Py PyFloat Utilities Dicts Particle Reaction Field Section Entry Columns Dataset Repr Print.
From Verif.Spec Require Import Text Exfor Tables Merging Frames.
From Verif.Proofs Require Import StrLemmas ReactionLemmas DatasetLemmas ProgLemmas SimplifyLemmas EntryDataLemmas PrintLemmas BibLemmas MonitorLemmas.
Import ListNotations.
Local Open Scope string_scope.
Local Open Scope list_scope.
Local Open Scope nat_scope.

Lemma frame_of_stated : forall labels, frame_stated labels (frame_of labels).
Proof.
  intros labels. unfold frame_stated, frame_of.
  assert (H : existsb (contains (lit "-CM")) labels = true <-> says_cm labels).
  { rewrite existsb_exists. split; intros (l & I & M); exists l; (split; [exact I|]).
    - apply contains_mentions, M.
    - apply contains_intro, M. }
  destruct (existsb _ labels); split; intros S; try reflexivity.
  - contradict S. apply H. reflexivity.
  - apply H in S. discriminate.
Qed.

Lemma class_frame : forall c labels,
  frame_right c labels (match c with AngularDist | EnergyDist => Some (frame_of labels) | _ => None end).
Proof.
  intros c labels. split.
  - intros [->| ->]; exists (frame_of labels); (split; [reflexivity|apply frame_of_stated]).
  - intros N. destruct c; try reflexivity; contradict N; [left|right]; reflexivity.
Qed.

Lemma factory_frame : forall nm quant meta common reaction mon data pointer d,
  X4DataSetFactory nm quant meta common reaction mon data pointer = Ok d ->
  frame_right (ds_class_of d) (t_labels (ds_table d)) (ds_frame d).
Proof.
  intros nm quant meta common reaction mon data pointer d E. apply factory_ok in E. destruct E as (q & t & _ & _ & ->).
  cbn [ds_class_of ds_table ds_frame t_labels]. apply class_frame.
Qed.

Lemma simplified_with_frame : forall acos pm cn mk fl d d', simplified_with acos pm cn mk fl d = Ok d' ->
  ds_frame d' = ds_frame d /\ ds_class_of d' = ds_class_of d.
Proof.
  intros acos pm cn mk fl d d' H. unfold simplified_with in H.
  destruct (ds_simplified d); [injection H as <-; auto|]. destruct pm as [pm|]; [|injection H as <-; auto].
  destruct (existsb _ _); [discriminate|]. apply bind_ok in H. destruct H as (cols & _ & H).
  apply bind_ok in H. destruct H as (t & _ & H). injection H as <-. auto.
Qed.
Lemma simplified_frame : forall acos mk fl d s d', fst (run (getSimplified acos mk fl d) s) = Ok d' ->
  ds_frame d' = ds_frame d /\ ds_class_of d' = ds_class_of d.
Proof.
  intros acos mk fl d s d' H. rewrite run_getSimplified in H. unfold simplified in H.
  destruct (ds_class_of d) eqn:C; try discriminate; try (injection H as <-; auto); rewrite <- C; eapply simplified_with_frame; exact H.
Qed.

Lemma tried_frame : forall nm n s1 s s' p d, tried nm n s1 s s' p = Some (Ok d) ->
  frame_right (ds_class_of d) (t_labels (ds_table d)) (ds_frame d).
Proof.
  intros nm n s1 s s' p d H. unfold tried in H. destruct (sub_data s "DATA") as [data|]; [|discriminate].
  destruct (dget Ascii.eqb p (reactions_of s')) as [r|]; [|discriminate].
  apply (f_equal (fun x => match x with Some r => r | None => Raise KeyError end)) in H. cbv beta iota in H.
  eapply factory_frame. exact H.
Qed.
Lemma last_of_two : forall (A : Type) (x y : option A) a, last_some [x; y] = Some a -> x = Some a \/ y = Some a.
Proof. intros A [x|] [y|] a H; cbn in H; auto. Qed.

Lemma dataSets_frame : forall e raw nm n errs ds errs' n', X4Entry e raw = Ok n -> getDataSets nm n errs = Ok (ds, errs', n') ->
  forall k d, dget key_eqb k ds = Some d -> frame_right (ds_class_of d) (t_labels (ds_table d)) (ds_frame d).
Proof.
  intros e raw nm n errs ds errs' n' H E [[acc sub] p] d D.
  destruct (dataSets_values _ _ _ _ _ _ _ _ H E) as (s1 & _ & V & W).
  destruct (list_eq_dec ascii_dec acc (n_accnum n)) as [->|Na]; [|destruct (W acc sub p (or_introl Na)) as [W1 _]; congruence].
  assert (Dec : forall a b : option str, {a = b} + {a <> b}) by (repeat decide equality).
  destruct (in_dec Dec sub (dkeys (n_subs n))) as [I|Ni]; [|destruct (W (n_accnum n) sub p (or_intror Ni)) as [W1 _]; congruence].
  unfold dkeys in I. apply in_map_iff in I. destruct I as ([sub' s] & Es & I). cbn [fst] in Es. subst sub'.
  destruct (V sub s p I) as [V1 _]. rewrite D in V1. symmetry in V1. apply last_of_two in V1.
  assert (G : forall x, ok_of (tried nm n s1 s x p) = Some d -> frame_right (ds_class_of d) (t_labels (ds_table d)) (ds_frame d)).
  { intros x G. destruct (tried nm n s1 s x p) as [[d0|]|] eqn:T; try discriminate. injection G as ->. eapply tried_frame, T. }
  destruct V1 as [V1|V1]; eapply G; exact V1.
Qed.

Lemma simplifiedDataSets_frame : forall e raw nm acos mk n errs s ds' errs' n' s', X4Entry e raw = Ok n ->
  getSimplifiedDataSets nm acos mk n errs s = Ok (ds', errs', n', s') ->
  exists ds errs0, getDataSets nm n errs = Ok (ds, errs0, n') /\
    forall k d', dget key_eqb k ds' = Some d' -> exists d, dget key_eqb k ds = Some d /\
      ds_class_of d' = ds_class_of d /\ frame_right (ds_class_of d') (t_labels (ds_table d)) (ds_frame d').
Proof.
  intros e raw nm acos mk n errs s ds' errs' n' s' H E.
  destruct (simplifiedDataSets_spec _ _ _ _ _ _ _ _ _ _ _ _ H E) as (ds & errs0 & G & K & V & _).
  exists ds, errs0. split; [exact G|]. intros k d' D.
  assert (X : exists d, dget key_eqb k ds = Some d).
  { destruct (dget key_eqb k ds) as [d|] eqn:X; [exists d; reflexivity|]. exfalso.
    apply (dget_None _ key_eqb_eq) in X. apply X. rewrite <- K. apply (dget_Some_keys _ key_eqb_eq). exists d'. exact D. }
  destruct X as (d & X). exists d. split; [exact X|].
  pose proof (dataSets_frame _ _ _ _ _ _ _ _ H G k d X) as F.
  destruct (V k d X) as [(d1 & R & D1 & _)|(x & _ & _ & D1 & _)].
  - assert (d1 = d') by congruence. subst d1. apply simplified_frame in R. destruct R as [R1 R2]. rewrite R1, R2. auto.
  - assert (d = d') by congruence. subst d'. auto.
Qed.

Lemma frame_printed : forall nm d text, dataset_str nm d = Ok text -> distribution (ds_class_of d) ->
  exists f before after, ds_frame d = Some f /\
    text = before ++ [nl] ++ lit "#  Frame:     " ++ f ++ [nl] ++ after.
Proof.
  intros nm d text H C. unfold dataset_str in H. apply bind_ok in H. destruct H as (h & Hh & H). apply Ok_inj in H. subst text.
  unfold strHeader in Hh. apply bind_ok in Hh. destruct Hh as (out & _ & Hh).
  assert (G : (f <- of_option AttributeError (ds_frame d) ;; Ok (out ++ [nl] ++ lit "#  Frame:     " ++ f)) = Ok h) by (destruct C as [C|C]; rewrite C in Hh; exact Hh).
  apply bind_ok in G. destruct G as (f & F & G). apply Ok_inj in G. subst h. destruct (ds_frame d) as [f0|]; [|discriminate].
  apply Ok_inj in F. subst f0. unfold table_str. exists f, out. eexists. split; [reflexivity|]. rewrite <- !app_assoc. reflexivity.
Qed.
