(** Columns that have a value have a unit, so every column of a simplified data set has one. *)
From Coq Require Import String List Ascii NArith ZArith Bool Arith Lia.
From Verif.Model Require Import Py PyFloat Utilities Dicts Particle Reaction Field Section Entry Columns Dataset.
From Verif.Proofs Require Import StrLemmas ReactionLemmas DataLemmas ProgLemmas ColumnLemmas ValueLemmas SimplifyLemmas.
Import ListNotations.
Local Open Scope list_scope.
Local Open Scope nat_scope.

Definition blank (l : list (option float)) : Prop := Forall (eq None) l.
Definition united (c : column) : Prop := c_unit c = None -> blank (c_cells c).

Lemma blank_idx : forall l i x, blank l -> idx l i = Ok x -> x = None.
Proof.
  intros l i x B H. unfold idx, of_option in H. destruct (nth_error l i) as [y|] eqn:N; [|discriminate]. assert (y = x) by congruence. subst.
  apply nth_error_In in N. unfold blank in B. rewrite Forall_forall in B. symmetry. now apply B.
Qed.
Lemma blank_nth : forall l i x, blank l -> nth_error l i = Some x -> x = None.
Proof. intros l i x B H. apply (blank_idx l i); [exact B|]. unfold idx. now rewrite H. Qed.
Lemma blank_map_res : forall (A : Type) (f : A -> res (option float)) l ys, map_res f l = Ok ys -> (forall x y, In x l -> f x = Ok y -> y = None) -> blank ys.
Proof.
  intros A f. induction l as [|x l IH]; intros ys H E; cbn [map_res] in H; [assert (ys = []) by congruence; subst; constructor|].
  apply bind_ok in H. destruct H as (y & Y & H). apply bind_ok in H. destruct H as (ys' & YS & H). assert (ys = y :: ys') by congruence. subst.
  constructor; [symmetry; apply (E x); [now left|exact Y]|]. apply (IH ys' YS). intros a b I. apply E. now right.
Qed.
Lemma blank_map : forall (A : Type) (f : A -> option float) l, (forall x, In x l -> f x = None) -> blank (map f l).
Proof. intros A f l H. apply Forall_forall. intros y I. apply in_map_iff in I. destruct I as (x & <- & I). symmetry. now apply H. Qed.
Lemma blank_at : forall l i n, blank l -> length l = n -> In i (seq 0 n) -> at_or_zero l i = None.
Proof.
  intros l i n B L I. apply in_seq in I. unfold at_or_zero. destruct (nth_error l i) as [x|] eqn:N; [exact (blank_nth _ _ _ B N)|].
  apply nth_error_None in N. lia.
Qed.
Lemma dummy_united : forall d, united (dummy_column d).
Proof. intros d _. apply Forall_forall. intros x I. cbn [dummy_column c_cells] in I. apply repeat_spec in I. now subst. Qed.
Lemma some_united : forall l u cells, united (mkColumn l (Some u) cells).
Proof. intros l u cells H. discriminate H. Qed.
Lemma base_united : forall c i d col, base_getColumn c i d = Ok col -> united col.
Proof.
  intros c i d col E. unfold base_getColumn in E. apply bind_ok in E. destruct E as (m & _ & E).
  destruct m; cbn [negb] in E; [|assert (col = dummy_column d) by congruence; subst; apply dummy_united].
  apply bind_ok in E. destruct E as (u & _ & E). apply bind_ok in E. destruct E as ([f can] & _ & E).
  apply bind_ok in E. destruct E as (l & _ & E). apply bind_ok in E. destruct E as (cells & Ec & E).
  assert (col = mkColumn (Some l) (Some can) cells) by congruence. subst. apply some_united.
Qed.
Lemma the_united : forall acos c d col, the_column acos c d = Ok col -> united col.
Proof.
  intros acos c d col E. unfold the_column, getColumn in E. destruct (negb (cp_angle c)); [now apply base_united in E|].
  apply bind_ok in E. destruct E as (l & _ & E). destruct (negb _); [now apply base_united in E|].
  apply bind_ok in E. destruct E as (m & _ & E).
  destruct m; cbn [negb] in E; [|assert (col = dummy_column d) by congruence; subst; apply dummy_united].
  apply bind_ok in E. destruct E as ([f can] & _ & E).
  apply bind_ok in E. destruct E as (cells & Ec & E).
  assert (col = mkColumn (Some l) (Some can) cells) by congruence. subst. apply some_united.
Qed.
Lemma last_two : forall (A : Type) (a b : option A), last_given [a; b] = None -> a = None /\ b = None.
Proof. intros A [a|] [b|] H; try discriminate; auto. Qed.
Lemma last_three : forall (A : Type) (a b c : option A), last_given [a; b; c] = None -> a = None /\ b = None /\ c = None.
Proof. intros A [a|] [b|] [c|] H; try discriminate; auto. Qed.
Lemma three_united : forall f d x y z, united x -> united y -> united z ->
  length (c_cells x) = numrows d -> length (c_cells y) = numrows d -> length (c_cells z) = numrows d -> united (high_mid_low f d x y z).
Proof.
  intros f d x y z Ux Uy Uz Lx Ly Lz H. cbn [high_mid_low c_unit] in H. apply last_three in H. destruct H as (Hx & Hy & Hz).
  cbn [high_mid_low c_cells]. apply blank_map. intros i I. now rewrite (blank_at _ i _ (Ux Hx) Lx I).
Qed.
Lemma value_united : forall acos pr d col, value_of acos pr d = Ok col -> united col.
Proof.
  intros acos pr d col E. unfold value_of, value_of0 in E. apply bind_ok in E. destruct E as ([] & _ & E).
  destruct (match_ok pr d); cbn [negb] in E; [|assert (col = dummy_column d) by congruence; subst; apply dummy_united].
  destruct pr as [c1|c1 c2|c1|c1 c2|c1 c2 c3|c1 c2 c3|c2 c3]; cbn [raw_value] in E; try (now apply the_united in E).
  - apply bind_ok in E. destruct E as (x & X & E). apply bind_ok in E. destruct E as (y & Y & E).
    assert (col = high_low_value d x y) by congruence. subst. intro H. cbn [high_low_value c_unit] in H. apply last_two in H. destruct H as [Hx Hy].
    cbn [high_low_value c_cells]. apply blank_map. intros i I.
    rewrite (blank_at _ i _ (the_united _ _ _ _ X Hx) (the_column_length _ _ _ _ X) I), (blank_at _ i _ (the_united _ _ _ _ Y Hy) (the_column_length _ _ _ _ Y) I). reflexivity.
  - apply bind_ok in E. destruct E as (x & X & E). apply bind_ok in E. destruct E as (y & Y & E). apply bind_ok in E. destruct E as (z & Z & E).
    assert (col = high_mid_low_value d x y z) by congruence. subst. apply three_united; try (eapply the_united; eassumption); eapply the_column_length; eassumption.
  - discriminate E.
Qed.
Lemma abs_united : forall c, united c -> united (absOrNone c).
Proof.
  intros c U H. cbn [absOrNone c_unit c_cells] in *. apply blank_map. intros x I. specialize (U H). unfold blank in U. rewrite Forall_forall in U.
  now rewrite <- (U x I).
Qed.
Lemma bars_united : forall d u a b col, add_bars d u a b = Ok col -> (u = None -> blank a /\ blank b) -> united col.
Proof.
  intros d u a b col A B H. unfold add_bars in A. apply bind_ok in A. destruct A as (cells & C & A).
  assert (col = mkColumn (Some (lit "ERR")) u cells) by congruence. subst col. cbn [c_unit c_cells] in *. destruct (B H) as [Ba Bb].
  eapply blank_map_res; [exact C|]. intros i y _ Y. apply bind_ok in Y. destruct Y as (x2 & X2 & Y). apply bind_ok in Y. destruct Y as (x3 & X3 & Y).
  apply (blank_idx _ _ _ Ba) in X2. apply (blank_idx _ _ _ Bb) in X3. subst. congruence.
Qed.
Lemma raw_united : forall acos pr d col, raw_error no_energy acos pr d = Ok col -> united col.
Proof.
  intros acos pr d col E. destruct pr as [c1|c1 c2|c1|c1 c2|c1 c2 c3|c1 c2 c3|c2 c3]; cbn [raw_error] in E.
  - assert (col = dummy_column d) by congruence. subst. apply dummy_united.
  - apply bind_ok in E. destruct E as (err & E1 & E). destruct (is_percent _).
    + apply bind_ok in E. destruct E as (v & E2 & E). pose proof (the_united _ _ _ _ E2) as U. apply the_column_length in E1, E2.
      unfold percent_error in E. apply bind_ok in E. destruct E as (cells & C & E).
      assert (col = mkColumn (c_label err) (c_unit v) (cells ++ skipn (length (c_cells v)) (c_cells err))) by congruence. subst col.
      intro H. cbn [c_unit c_cells] in *. rewrite skipn_all2 by lia. rewrite app_nil_r. specialize (U H).
      eapply blank_map_res; [exact C|]. intros i y _ Y. apply bind_ok in Y. destruct Y as (x & X & Y). apply (blank_idx _ _ _ U) in X. subst x.
      apply bind_ok in Y. destruct Y as (? & _ & Y). congruence.
    + assert (err = col) by congruence. subst. now apply the_united in E1.
  - apply bind_ok in E. destruct E as (v & E1 & E). match type of E with Ok ?x = _ => assert (col = x) by congruence end. subst col.
    intro H. cbn [c_unit c_cells] in *. pose proof (the_united _ _ _ _ E1 H) as U. unfold blank in U. rewrite Forall_forall in U.
    apply blank_map. intros x I. now rewrite <- (U x I).
  - apply bind_ok in E. destruct E as (x & X & E). apply bind_ok in E. destruct E as (y & Y & E).
    assert (col = high_low_error d x y) by congruence. subst. intro H. cbn [high_low_error c_unit] in H. apply last_two in H. destruct H as [Hx Hy].
    cbn [high_low_error c_cells]. apply blank_map. intros i I.
    now rewrite (blank_at _ i _ (the_united _ _ _ _ X Hx) (the_column_length _ _ _ _ X) I).
  - apply bind_ok in E. destruct E as (x & X & E). apply bind_ok in E. destruct E as (y & Y & E). apply bind_ok in E. destruct E as (z & Z & E).
    assert (col = high_mid_low_error d x y z) by congruence. subst. apply three_united; try (eapply the_united; eassumption); eapply the_column_length; eassumption.
  - apply bind_ok in E. destruct E as (x & X & E). apply bind_ok in E. destruct E as (y & Y & E).
    destruct (_ || _).
    + apply bind_ok in E. destruct E as (v & V & E). eapply bars_united; [exact E|]. intro H. apply (the_united _ _ _ _ V) in H.
      assert (B : forall l, blank (scaled_by_value d (c_cells v) l)).
      { intro l. apply blank_map. intros i I. destruct (nth_error (c_cells v) i) as [w|] eqn:N; [|reflexivity].
        apply (blank_nth _ _ _ H) in N. subst w. now destruct (nth_error l i). }
      auto.
    + eapply bars_united; [exact E|]. intro H. apply last_two in H. destruct H as [Hx Hy].
      split; [exact (the_united _ _ _ _ X Hx)|exact (the_united _ _ _ _ Y Hy)].
  - discriminate E.
Qed.
Lemma error_united : forall acos pr d col, error_of acos pr d = Ok col -> united col.
Proof.
  intros acos pr d col E. unfold error_of, error_of0 in E.
  assert (H : (_ <- set_res pr d ;; if negb (match_ok pr d) then Ok (dummy_column d)
               else col <- raw_error no_energy acos pr d ;; Ok (absOrNone col)) = Ok col -> united col).
  { clear E. intros E. apply bind_ok in E. destruct E as ([] & _ & E).
    destruct (match_ok pr d); cbn [negb] in E; [|assert (col = dummy_column d) by congruence; subst; apply dummy_united].
    apply bind_ok in E. destruct E as (r & Er & E). assert (col = absOrNone r) by congruence. subst. apply abs_united. now apply raw_united in Er. }
  destruct pr; [assert (col = dummy_column d) by congruence; subst; apply dummy_united|..]; exact (H E).
Qed.
Lemma condense_united : forall x y c, united x -> united y -> condenseColumn x y = Ok c -> united c.
Proof.
  intros x y c Ux Uy E. unfold condenseColumn in E. apply bind_ok in E. destruct E as (cells & C & E).
  match type of E with Ok ?z = _ => assert (c = z) by congruence end. subst c. intro H. cbn [c_unit c_cells] in *.
  destruct (c_unit x) eqn:X; [discriminate|]. cbn [or_else] in H. specialize (Ux X). specialize (Uy H).
  eapply blank_map_res; [exact C|]. intros i z _ Z. apply bind_ok in Z. destruct Z as (w & W & Z). apply (blank_idx _ _ _ Ux) in W. subst w.
  exact (blank_idx _ _ _ Uy Z).
Qed.
Lemma reduce_united : forall cols c, Forall united cols -> reduce_res condenseColumn cols = Ok c -> united c.
Proof.
  intros [|x cols] c F E; [discriminate|]. cbn [reduce_res] in E. inversion F as [|? ? Ux F']; subst. clear F. revert x Ux E.
  induction F' as [|y cols Uy F IH]; intros x Ux E; cbn [fold_res] in E; [assert (x = c) by congruence; now subst|].
  apply bind_ok in E. destruct E as (z & Z & E). apply (IH z); [exact (condense_united _ _ _ Ux Uy Z)|exact E].
Qed.
Lemma map_united : forall (A : Type) (f : A -> res column) l cols, (forall x c, f x = Ok c -> united c) -> map_res f l = Ok cols -> Forall united cols.
Proof.
  intros A f l cols U. revert cols. induction l as [|x l IH]; intros cols H; cbn [map_res] in H; [assert (cols = []) by congruence; subst; constructor|].
  apply bind_ok in H. destruct H as (y & Y & H). apply bind_ok in H. destruct H as (ys & YS & H). assert (cols = y :: ys) by congruence. subst.
  constructor; [exact (U _ _ Y)|now apply IH].
Qed.
Definition units_given (t : table) : Prop := forall u, In u (t_units t) -> exists s, u = Some s.
Definition all_united (t : column * column * bool) : Prop :=
  let '(v, e, none) := t in (exists u, c_unit v = Some u) /\ (none = false -> exists u, c_unit e = Some u).
Lemma not_blank : forall c, united c -> all_none (c_cells c) = false -> exists u, c_unit c = Some u.
Proof.
  intros c U H. destruct (c_unit c) as [u|] eqn:E; [eauto|]. exfalso. specialize (U E). unfold all_none in H.
  assert (T : forallb (fun x : option float => match x with None => true | _ => false end) (c_cells c) = true).
  { apply forallb_forall. intros x I. unfold blank in U. rewrite Forall_forall in U. now rewrite <- (U x I). }
  congruence.
Qed.
Lemma columns_united : forall acos t ps r, columns_of acos t ps = Ok r -> all_united r.
Proof.
  intros acos t ps r E. unfold columns_of in E. apply bind_ok in E. destruct E as (vs & V & E). apply bind_ok in E. destruct E as (v & RV & E).
  apply bind_ok in E. destruct E as (es & ES & E). apply bind_ok in E. destruct E as (e & RE & E).
  apply map_united in V; [|intros x c X; exact (value_united _ _ _ _ X)]. apply map_united in ES; [|intros x c X; exact (error_united _ _ _ _ X)].
  apply (reduce_united _ _ V) in RV. apply (reduce_united _ _ ES) in RE.
  destruct (all_none (c_cells v)) eqn:N; [discriminate|]. assert (r = (v, e, all_none (c_cells e))) by congruence. subst r. cbn [all_united].
  split; [now apply not_blank|]. intro H. now apply not_blank.
Qed.
Lemma assemble_units : forall mk fl n cols names t, Forall (fun kc => all_united (snd kc)) cols -> assemble mk fl n cols names = Ok t -> units_given t.
Proof.
  intros mk fl n cols names t F E. unfold assemble in E. apply bind_ok in E. destruct E as (heads & H1 & E). apply bind_ok in E. destruct E as (eheads & H2 & E).
  apply bind_ok in E. destruct E as (rows & _ & E). match type of E with Ok ?z = _ => assert (t = z) by congruence end. subst t. clear E.
  assert (G : forall c v e none, of_option KeyError (dget str_eqb c cols) = Ok (v, e, none) -> all_united (v, e, none)).
  { intros c v e none G. destruct (dget str_eqb c cols) as [x|] eqn:D; [|discriminate]. assert (x = (v, e, none)) by (cbn in G; congruence). subst x.
    apply (StrLemmas.dget_In _ str_eqb_eq) in D. rewrite Forall_forall in F. exact (F _ D). }
  apply ReactionLemmas.map_res_Forall2 in H1, H2. intros u I. cbn [t_units] in I. apply in_app_or in I. destruct I as [I|I].
  - clear H2. induction H1 as [|c h names heads X H1 IH]; [destruct I|]. destruct I as [I|I]; [|now apply IH].
    apply bind_ok in X. destruct X as ([[v e] none] & X & Y). assert (h = (c, c_unit v)) by congruence. subst h. cbn [snd] in I. subst u.
    apply G in X. destruct X as [(s & ->) _]. eauto.
  - clear H1. induction H2 as [|c h names eheads X H2 IH]; [destruct I|]. cbn [concat] in I. rewrite map_app in I. apply in_app_or in I. destruct I as [I|I]; [|now apply IH].
    apply bind_ok in X. destruct X as ([[v e] none] & X & Y). apply G in X. destruct X as [(s & Xv) Xe].
    destruct (negb none || mk); [|assert (h = []) by congruence; subst; destruct I].
    assert (h = [(error_name c, if none then c_unit v else c_unit e)]) by congruence. subst h. cbn [map snd] in I. destruct I as [I|[]].
    destruct none; [subst; eauto|]. destruct (Xe eq_refl) as (s' & X). subst. eauto.
Qed.
Lemma simplified_units : forall acos mk fl d s d', units_given (ds_table d) -> fst (run (getSimplified acos mk fl d) s) = Ok d' -> units_given (ds_table d').
Proof.
  intros acos mk fl d s d' U E. rewrite run_getSimplified in E. unfold simplified in E.
  assert (W : forall pm names, simplified_with acos pm names mk fl d = Ok d' -> units_given (ds_table d')).
  { clear E. intros pm names E. unfold simplified_with in E. destruct (ds_simplified d); [assert (d = d') by congruence; now subst|].
    destruct pm as [pm|]; [|assert (d = d') by congruence; now subst]. destruct (existsb _ _); [discriminate|].
    apply bind_ok in E. destruct E as (cols & C & E). apply bind_ok in E. destruct E as (t & T & E). assert (d' = set_table d t true) by congruence. subst d'.
    cbn [set_table ds_table]. eapply assemble_units; [|exact T]. apply ReactionLemmas.map_res_Forall2 in C.
    clear - C. induction C as [|x y pm cols X C IH]; constructor; [|exact IH].
    apply bind_ok in X. destruct X as (r & R & X). assert (y = (fst x, r)) by congruence. subst y. exact (columns_united _ _ _ _ R). }
  destruct (ds_class_of d); try discriminate E; try (eapply W; exact E). assert (d = d') by congruence. now subst.
Qed.
