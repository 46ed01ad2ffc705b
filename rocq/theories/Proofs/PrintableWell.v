(** What cannot be printed is improper, and nothing in a well-written entry is. *)
From Coq Require Import String List Ascii NArith ZArith Bool Arith Lia.
From Verif.Model Require Import Py Dicts Particle Pyparsing Grammars Reaction Field Section Entry Columns Dataset Repr Print.
From Verif.Spec Require Import Tables GeneralKnown WellWritten Printable Merging.
From Verif.Proofs Require Import StrLemmas ReactionLemmas DictLemmas KnownLemmas GeneralLemmas BibLemmas EntryDataLemmas WellLemmas UnitsGiven PrintableLemmas.
Import ListNotations.
Local Open Scope string_scope.
Local Open Scope list_scope.
Local Open Scope nat_scope.

Lemma part_counted : forall cs p t, part_str cs p = Ok t -> counted p.
Proof. intros cs p t H sym z a ->. cbn in H. discriminate H. Qed.
Lemma joined_words : forall sep l t, join_toks sep l = Ok t -> forall q, In q l -> exists w, q = PTok w.
Proof.
  intros sep l t H. unfold join_toks in H. apply bind_ok in H. destruct H as (ss & M & _). revert ss M.
  induction l as [|x l IH]; intros ss M q I; [destruct I|]. cbn [map_res] in M. apply bind_ok in M. destruct M as (y & Y & M).
  apply bind_ok in M. destruct M as (ys & YS & _). destruct I as [->|I]; [|exact (IH _ YS _ I)]. destruct q; [eauto|discriminate].
Qed.
Lemma str_proper : forall cs qd md r t, reaction_str cs qd md r = Ok t -> proper r.
Proof.
  intros cs qd md r t H. unfold reaction_str in H. apply bind_ok in H. destruct H as (ty & TY & H). apply bind_ok in H. destruct H as (p & P & _).
  unfold getReactionType in TY. apply bind_ok in TY. destruct TY as (q & Q & _).
  unfold process_str in P. apply bind_ok in P. destruct P as (a & A & P). apply bind_ok in P. destruct P as (b & B & P). apply bind_ok in P. destruct P as (x & X & _).
  constructor.
  - exact (joined_words _ _ _ Q).
  - exact (part_counted _ _ _ A).
  - exact (part_counted _ _ _ B).
  - destruct (truthy (p_residual (r_process r))) eqn:TR; [exact (part_counted _ _ _ X)|]. intros sym z n E. rewrite E in TR. discriminate.
Qed.
Fixpoint element_proper cs qd md (x : element) {struct x} : forall t, element_str cs qd md x = Ok t -> forall r, In r (element_reactions x) -> proper r.
Proof.
  destruct x as [op|rx|data]; intros t H r I.
  - destruct I.
  - destruct I as [<-|[]]. exact (str_proper _ _ _ _ _ H).
  - cbn [element_reactions] in I. cbn [element_str] in H. revert t H I. induction data as [|y data IH]; intros t H I; [destruct I|].
    apply bind_ok in H. destruct H as (u & U & H). apply bind_ok in H. destruct H as (v & V & _).
    cbn [flat_map] in I. apply in_app_or in I. destruct I as [I|I].
    + exact (element_proper cs qd md y u U r I).
    + exact (IH v V I).
Defined.
Lemma measurement_proper : forall nm m t, m_str nm m = Ok t -> forall r, In r (reactions_in m) -> proper r.
Proof.
  intros nm [rx|data|data] t H r I; cbn [reactions_in] in I; unfold m_str, measurement_str in H.
  - destruct I as [<-|[]]. exact (str_proper _ _ _ _ _ H).
  - exact (element_proper _ _ _ (EIso data) _ H r I).
  - exact (element_proper _ _ _ (EIso data) _ H r I).
Qed.
Lemma dataset_proper : forall nm d m line t, ds_reaction d = Some (m, line) -> dataset_str nm d = Ok t -> forall r, In r (reactions_in m) -> proper r.
Proof.
  intros nm d m line t R H. unfold dataset_str, strHeader, X4DataSet_strHeader in H. rewrite R in H.
  apply bind_ok in H. destruct H as (h & H & _). apply bind_ok in H. destruct H as (x & X & _). apply bind_ok in X. destruct X as (y & Y & _).
  apply bind_ok in Y. destruct Y as (z & Z & _). exact (measurement_proper _ _ _ Z).
Qed.
Lemma fair_proper : forall c m r, fair c m -> In r (reactions_in m) -> proper r.
Proof.
  intros c. assert (N : full_rows []) by (intros k row H; discriminate H).
  set (d := map (fun k => (k, [k])) (c_compounds c)).
  assert (ND : has_names (c_compounds c) d).
  { intros k I. assert (K : In k (map fst d)) by (unfold d; rewrite map_map; cbn [fst]; now rewrite map_id).
    destruct (dget str_eqb k d) as [row|] eqn:G.
    - exists row. split; [reflexivity|]. apply (StrLemmas.dget_In _ str_eqb_eq) in G. unfold d in G. apply in_map_iff in G. destruct G as (k' & Q & _).
      assert (row = [k']) by congruence. subst. discriminate.
    - exfalso. apply in_map_iff in K. destruct K as ([k' row] & Q & K). cbn [fst] in Q. subst k'. clear - G K.
      induction d as [|[k' v] d IH]; [destruct K|]. cbn [dget] in G. destruct (str_eqb k k') eqn:E; [discriminate|].
      destruct K as [K|K]; [|now apply IH]. assert (k' = k) by congruence. subst. rewrite str_eqb_refl in E. discriminate. }
  assert (P : forall x, shown c x -> forall rx, In rx (element_reactions x) -> proper rx).
  { intros x S rx I. destruct (S d [] [] ND N N) as (t & T). exact (element_proper _ _ _ x t T rx I). }
  assert (PL : forall data rx, Forall (shown c) data -> In rx (getReactionList data) -> proper rx).
  { intros data rx F I. unfold getReactionList in I. apply in_flat_map in I. destruct I as (x & Ix & I). rewrite Forall_forall in F. exact (P x (F x Ix) rx I). }
  intros [rx|data|data] r F I; cbn [reactions_in fair] in *.
  - exact (P _ F r I).
  - exact (PL _ _ F I).
  - exact (PL _ _ F I).
Qed.

Section Entries.
Context (c : codes) (e : env) (D : well_dictionaries c e).
Lemma monitors_fair : forall s p l, sound_sub c s -> dget Ascii.eqb p (monitors_of s) = Some l -> Forall (fair_monitor c) l.
Proof.
  intros s p r (_ & S) G. unfold monitors_of, bib_of in G. unfold sub_section in S.
  change (list_ascii_of_string "BIB") with (lit "BIB") in G.
  destruct (dget str_eqb (lit "BIB") (s_dict s)) as [[b|]|]; [|discriminate|discriminate].
  destruct (S _ eq_refl) as (b' & Eb & B). assert (b' = b) by congruence. subst b'.
  destruct (bib_field b "MONITOR") as [[f|]|] eqn:BF; [|discriminate|discriminate]. destruct f; try discriminate.
  destruct (B (lit "MONITOR") _ BF) as (f' & Ef & SF). injection Ef as <-. cbn [sound_field] in SF. destruct SF as [_ SF].
  apply (StrLemmas.dget_In _ Ascii.eqb_eq) in G. rewrite Forall_forall in SF. exact (SF _ G).
Qed.
Lemma tried_fair : forall nm n s1 s from p d, sound_sub c from -> tried nm n s1 s from p = Some (Ok d) -> Forall (fair c) (measurements d).
Proof.
  intros nm n s1 s from p d K H. unfold tried in H. destruct (sub_data s "DATA") as [data|]; [|discriminate].
  destruct (dget Ascii.eqb p (reactions_of from)) as [[m t]|] eqn:R; [|discriminate].
  assert (F : X4DataSetFactory nm (m_quantity (fst (m, t))) [metadata_of s1; metadata_of s] [common_of 0 s1; common_of (common_id n s) s] (Some (m, t))
                (dget Ascii.eqb p (monitors_of from)) data (Some p) = Ok d) by congruence. clear H.
  unfold X4DataSetFactory in F. apply bind_ok in F. destruct F as (q & _ & F). unfold make_dataset in F. apply bind_ok in F. destruct F as (tb & _ & F).
  match type of F with Ok ?z = _ => assert (d = z) by congruence end. subst d. unfold measurements. cbn [ds_reaction ds_monitor].
  apply Forall_app. split; [constructor; [exact (reactions_fair c _ _ _ K R)|constructor]|].
  destruct (dget Ascii.eqb p (monitors_of from)) as [l|] eqn:M; [|constructor]. apply (monitors_fair _ _ _ K) in M.
  clear - M. induction M as [|x l X M IH]; [constructor|]. cbn [flat_map].
  apply Forall_app. split; [|exact IH]. destruct (fst (fst x)) as [m|] eqn:E; [constructor; [exact (X _ E)|constructor]|constructor].
Qed.
Lemma well_measurements : forall acc raw n nm errs ds errs' n' k d, well_entry c acc raw -> X4Entry e raw = Ok n ->
  getDataSets nm n errs = Ok (ds, errs', n') -> dget key_eqb k ds = Some d -> Forall (fair c) (measurements d).
Proof.
  intros acc raw n nm errs ds errs' n' k d W X H DG. destruct (entry_total c e D acc raw W) as (n0 & s1 & b1 & E & _ & _ & _ & S).
  assert (n0 = n) by congruence. subst n0.
  destruct (entry_tried e raw n nm errs ds errs' n' X H k d DG) as (? & ? & from & p & key & I & T). exact (tried_fair _ _ _ _ _ _ _ (S _ _ I) T).
Qed.
Context (nm : names) (NM : naming c e nm).
Lemma well_printed : forall acc raw errs, well_entry c acc raw ->
  exists n ds errs' n', X4Entry e raw = Ok n /\ n_accnum n = acc /\ getDataSets nm n errs = Ok (ds, errs', n') /\
    forall k d, dget key_eqb k ds = Some d -> (exists t, dataset_str nm d = Ok t) /\ exists t, dataset_repr nm d = Ok t.
Proof.
  intros acc raw errs W. destruct (data_sets_total c e D nm (naming_compounds _ _ _ NM) (naming_quantities _ _ _ NM) (naming_modifiers _ _ _ NM) acc raw errs W) as (n & ds & errs' & n' & E & A & H).
  exists n, ds, errs', n'. split; [exact E|]. split; [exact A|]. split; [exact H|]. intros k d DG.
  apply (dataset_printed c e nm NM); [exact (entry_sourced c e (naming_grammars _ _ _ NM) raw n nm errs ds errs' n' E H k d DG)|].
  intros m r Im Ir. pose proof (well_measurements acc raw n nm errs ds errs' n' k d W E H DG) as F. rewrite Forall_forall in F.
  exact (fair_proper c _ _ (F _ Im) Ir).
Qed.
Lemma well_simplified_printed : forall acc raw n acos mk errs s ds errs' n' s' k d, well_entry c acc raw -> X4Entry e raw = Ok n ->
  getSimplifiedDataSets nm acos mk n errs s = Ok (ds, errs', n', s') -> dget key_eqb k ds = Some d ->
  (exists t, dataset_str nm d = Ok t) /\ exists t, dataset_repr nm d = Ok t.
Proof.
  intros acc raw n acos mk errs s ds errs' n' s' k d W E H DG.
  apply (dataset_printed c e nm NM); [exact (simplified_sets_sourced c e (naming_grammars _ _ _ NM) raw n nm acos mk errs s ds errs' n' s' E H k d DG)|].
  destruct (simplified_from e raw n nm acos mk errs s ds errs' n' s' E H) as (ds0 & errs0 & H0 & A). destruct (A k d DG) as (d0 & D0 & B).
  pose proof (well_measurements acc raw n nm errs ds0 errs0 n' k d0 W E H0 D0) as F. rewrite Forall_forall in F.
  assert (M : measurements d = measurements d0).
  { destruct B as [->|(fl & s0 & R)]; [reflexivity|]. destruct (simplified_same _ _ _ _ _ _ R) as [->|(_ & R1 & R2 & _)]; [reflexivity|].
    unfold measurements. now rewrite R1, R2. }
  intros m r Im Ir. rewrite M in Im. exact (fair_proper c _ _ (F _ Im) Ir).
Qed.
End Entries.
