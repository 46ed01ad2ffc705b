(** Metadata, kinds of data sets, append. *)
From Coq Require Import String List Ascii NArith ZArith Bool Arith Lia.
From Coq Require Import Floats.SpecFloat.
From Verif.Model Require Import Py PyFloat Utilities Dicts Particle Reaction Field Section Entry Columns Dataset.
From Verif.Spec Require Import Text Tables Exfor DataSets Merging.
From Verif.Proofs Require Import StrLemmas FloatLemmas ReactionLemmas DictLemmas DataLemmas UnitLemmas ValueLemmas MergeLemmas.
Import ListNotations.
Local Open Scope string_scope.
Local Open Scope list_scope.
Local Open Scope nat_scope.

(** ** setData, as stated *)

Lemma Forall2_short : forall l, Forall2 shortened l (map short l).
Proof. induction l as [|x l IH]; constructor; [now apply short_iff|assumption]. Qed.

Lemma set_data : forall data c1 c2 pointer keep,
  section_ok data -> (forall i c, c1 = Some (i, c) -> section_ok c /\ all_own c pointer) ->
  (forall i c, c2 = Some (i, c) -> section_ok c /\ all_own c pointer) -> different c1 c2 ->
  (forall j, keep j = true <-> own_column data pointer j) ->
  exists t us, setData data [c1; c2] pointer = Ok t /\
    Forall2 shortened (common_labels (option_map snd c1) ++ common_labels (option_map snd c2) ++ select keep 0 (d_labels data)) (t_labels t) /\
    t_units t = map Some us /\
    Forall2 shortened (common_units (option_map snd c1) ++ common_units (option_map snd c2) ++ select keep 0 (d_units data)) us /\
    length (t_data t) = length (d_data data) /\
    forall i cells, nth_error (d_data data) i = Some cells ->
      nth_error (t_data t) i = Some (common_row (option_map snd c1) i ++ common_row (option_map snd c2) i ++ map as_cell (select keep 0 cells)).
Proof.
  intros data c1 c2 pointer keep O F1 F2 Df K.
  destruct (setData_spec data c1 c2 pointer keep) as (t & E & L & U & N & R); auto.
  { intros d Ed. destruct c1 as [[i c]|]; [|discriminate]. injection Ed as <-. now apply (F1 i). }
  { intros d Ed. destruct c2 as [[i c]|]; [|discriminate]. injection Ed as <-. now apply (F2 i). }
  exists t, (map short (common_units (option_map snd c1) ++ common_units (option_map snd c2) ++ select keep 0 (d_units data))).
  split; [assumption|]. split; [rewrite L; apply Forall2_short|]. split; [assumption|]. split; [apply Forall2_short|]. auto.
Qed.

Lemma parsed_section_ok : forall tag lines d, X4DataSection tag lines = Ok d -> section_ok d.
Proof.
  intros tag lines d E. destruct (data_shape tag lines d E) as (_ & L & U & D & R & _). repeat split; assumption.
Qed.

Lemma own_decidable : forall d pointer, exists keep : nat -> bool, forall j, keep j = true <-> own_column d pointer j.
Proof. intros d pointer. exists (keep_column d pointer). apply keep_own. Qed.

(** ** Metadata *)


Lemma last_some_snoc : forall (A : Type) (l : list (option A)) x, last_some (l ++ [x]) = match x with Some y => Some y | None => last_some l end.
Proof.
  induction l as [|y l IH]; intros x; cbn [app last_some]; [now destruct x|]. rewrite IH. destruct x; [reflexivity|]. reflexivity.
Qed.

Lemma merged : forall ms, let r := fold_left merge_meta ms no_meta in
  bm_author r = or_default ANone (last_some (map author_slot ms)) /\
  bm_institute r = last_some (map (slot bm_institute) ms) /\
  bm_title r = or_default (lit "None") (last_some (map (text_slot bm_title) ms)) /\
  bm_reference r = last_some (map (slot bm_reference) ms) /\
  bm_pubtype r = or_default (lit "None") (last_some (map (text_slot bm_pubtype) ms)) /\
  bm_year r = or_default (lit "None") (last_some (map (text_slot bm_year) ms)) /\
  bm_subent r = or_default (lit "????????") (last_some (map (text_slot bm_subent) ms)).
Proof.
  assert (G : forall f m (old : str), given (f m) old = match text_slot f (Some m) with Some t => t | None => old end).
  { intros f m old. unfold given, text_slot. change (list_ascii_of_string "None") with (lit "None").
    destruct (list_eq_dec ascii_dec (f m) (lit "None")) as [->|N]; [now rewrite str_eqb_refl|].
    destruct (str_eqb (f m) (lit "None")) eqn:E; [apply str_eqb_eq in E; contradiction|reflexivity]. }
  induction ms as [|m ms IH] using rev_ind; [cbn; repeat split; reflexivity|]. cbv zeta in *. rewrite fold_left_app, !map_app. cbn [fold_left map].
  rewrite !last_some_snoc. destruct IH as (I1 & I2 & I3 & I4 & I5 & I6 & I7). destruct m as [m|]; cbn [merge_meta].
  - cbn [bm_author bm_institute bm_title bm_reference bm_pubtype bm_year bm_subent slot author_slot]. rewrite !G.
    rewrite I1, I2, I3, I4, I5, I6, I7.
    split; [now destruct (bm_author m)|]. split; [now destruct (bm_institute m)|]. split; [now destruct (text_slot bm_title (Some m))|].
    split; [now destruct (bm_reference m)|]. split; [now destruct (text_slot bm_pubtype (Some m))|].
    split; [now destruct (text_slot bm_year (Some m))|]. now destruct (text_slot bm_subent (Some m)).
  - cbn [slot author_slot text_slot]. auto 10.
Qed.

Lemma factory_ok : forall nm quant meta common reaction mon data pointer d,
  X4DataSetFactory nm quant meta common reaction mon data pointer = Ok d ->
  exists q t, settle_quantity nm quant reaction = Ok q /\ setData data common pointer = Ok t /\
    d = mkDS (class_of_quantity q) (fold_left merge_meta meta no_meta) reaction mon t false
           (match reaction with Some (m, _) => is_combination m | None => false end)
           (match class_of_quantity q with AngularDist | EnergyDist => Some (frame_of (t_labels t)) | _ => None end).
Proof.
  intros nm quant meta common reaction mon data pointer d E. unfold X4DataSetFactory in E. apply bind_ok in E. destruct E as (q & Eq & E).
  unfold make_dataset in E. apply bind_ok in E. destruct E as (t & Et & E). injection E as <-. exists q, t. auto.
Qed.

Lemma factory_meta : forall nm quant meta common reaction mon data pointer d,
  X4DataSetFactory nm quant meta common reaction mon data pointer = Ok d ->
  bm_author (ds_meta d) = or_default ANone (last_some (map author_slot meta)) /\
  bm_institute (ds_meta d) = last_some (map (slot bm_institute) meta) /\
  bm_title (ds_meta d) = or_default (lit "None") (last_some (map (text_slot bm_title) meta)) /\
  bm_reference (ds_meta d) = last_some (map (slot bm_reference) meta) /\
  bm_pubtype (ds_meta d) = or_default (lit "None") (last_some (map (text_slot bm_pubtype) meta)) /\
  bm_year (ds_meta d) = or_default (lit "None") (last_some (map (text_slot bm_year) meta)) /\
  bm_subent (ds_meta d) = or_default (lit "????????") (last_some (map (text_slot bm_subent) meta)).
Proof.
  intros nm quant meta common reaction mon data pointer d E. apply factory_ok in E. destruct E as (q & t & _ & _ & ->).
  exact (merged meta).
Qed.

(** ** Kinds *)

Lemma tree_same_eq : forall a b, tree_same a b = true -> a = b.
Proof. intros [s|l] [t|m] E; try discriminate. cbn in E. apply str_eqb_eq in E. now subst. Qed.
Lemma list_same_eq : forall (A : Type) (eqb : A -> A -> bool), (forall a b, eqb a b = true -> a = b) ->
  forall l m, list_same eqb l m = true -> l = m.
Proof.
  intros A eqb H. induction l as [|x l IH]; intros [|y m] E; cbn in E; try discriminate; [reflexivity|].
  apply andb_true_iff in E. destruct E as [E1 E2]. apply H in E1. apply IH in E2. now subst.
Qed.
Lemma same_codes : forall q codes, list_same tree_same q (map (fun s => PTok (lit s)) codes) = true <-> q = map code codes.
Proof.
  intros q codes. split.
  - intros E. apply (list_same_eq _ _ tree_same_eq) in E. exact E.
  - intros ->. induction codes as [|c codes IH]; cbn [map list_same]; [reflexivity|]. rewrite IH.
    unfold code. cbn [tree_same]. change (list_ascii_of_string c) with (lit c). now rewrite str_eqb_refl.
Qed.

Lemma tables_agree : forall codes c, In (codes, c) class_table <-> In (codes, c) exact_quantities.
Proof. intros codes c. unfold class_table, exact_quantities. cbn [In]. tauto. Qed.
Lemma codes_distinct : forall a c b c', In (a, c) exact_quantities -> In (b, c') exact_quantities -> map code a = map code b -> c = c'.
Proof.
  assert (inj : forall a b, map code a = map code b -> a = b).
  { induction a as [|x a IH]; intros [|y b] E; cbn in E; try discriminate; [reflexivity|]. injection E as E1 E2.
    f_equal; [|auto]. rewrite <- (string_of_list_ascii_of_string x), <- (string_of_list_ascii_of_string y). now rewrite E1. }
  intros a c b c' Ia Ib E. apply inj in E. subst b. revert Ib. revert Ia. cbn [In exact_quantities].
  intros Ia Ib.
  repeat (destruct Ia as [Ia|Ia]; [injection Ia as <- <-; repeat (destruct Ib as [Ib|Ib]; [first [discriminate Ib | injection Ib as <-; reflexivity]|]); contradiction|]).
  contradiction.
Qed.

Lemma is_tok_code : forall s q, existsb (is_tok (lit s)) q = true <-> In (code s) q.
Proof.
  intros s q. rewrite existsb_exists. split.
  - intros (x & I & E). destruct x as [t|l]; [|discriminate]. cbn [is_tok] in E. apply str_eqb_eq in E. subst t. exact I.
  - intros I. exists (code s). split; [assumption|]. cbn. apply str_eqb_refl.
Qed.

Lemma kind_of_class : forall q, kind q (class_of_quantity (PGroup q)).
Proof.
  intros q. unfold class_of_quantity.
  assert (Fn : forall l, (forall e, In e l -> In e class_table) -> match find (fun e => quantity_is (PGroup q) (fst e)) l with
     | Some e => known_quantity q (snd e) | None => forall codes c, In (codes, c) l -> q <> map code codes end).
  { induction l as [|e l IH]; intros Sub; cbn [find]; [intros codes c []|]. destruct (quantity_is (PGroup q) (fst e)) eqn:E.
    - cbn [quantity_is] in E. apply same_codes in E. exists (fst e). split; [|assumption]. apply tables_agree. destruct e. apply Sub. now left.
    - specialize (IH (fun e I => Sub e (or_intror I))). destruct (find (fun e0 => quantity_is (PGroup q) (fst e0)) l) as [e'|]; [assumption|].
      intros codes c [->|I]; [|now apply (IH codes c)]. intros Q. apply same_codes in Q. cbn [fst quantity_is] in E. congruence. }
  specialize (Fn class_table (fun e I => I)). destruct (find (fun e => quantity_is (PGroup q) (fst e)) class_table) as [e|].
  { now apply kind_known. }
  assert (K : forall c', ~ known_quantity q c').
  { intros c' (codes & I & E). apply tables_agree in I. now apply (Fn codes c' I). }
  cbn [in_quantity].
  destruct (existsb (is_tok (lit "RI")) q) eqn:E1.
  { eapply (kind_code q []); [assumption|reflexivity|now apply is_tok_code|intros ? ? []]. }
  destruct (existsb (is_tok (lit "POL/DA")) q) eqn:E2.
  { eapply (kind_code q [_]); [assumption|reflexivity|now apply is_tok_code|].
    intros s c [X|[]]. injection X as <- <-. intros I. apply is_tok_code in I. congruence. }
  destruct (existsb (is_tok (lit "DA")) q) eqn:E3.
  { eapply (kind_code q [_; _]); [assumption|reflexivity|now apply is_tok_code|].
    intros s c [X|[X|[]]]; injection X as <- <-; intros I; apply is_tok_code in I; congruence. }
  destruct (existsb (is_tok (lit "NU")) q) eqn:E4.
  { eapply (kind_code q [_; _; _]); [assumption|reflexivity|now apply is_tok_code|].
    intros s c [X|[X|[X|[]]]]; injection X as <- <-; intros I; apply is_tok_code in I; congruence. }
  destruct (existsb (is_tok (lit "DE")) q) eqn:E5.
  { eapply (kind_code q [_; _; _; _]); [assumption|reflexivity|now apply is_tok_code|].
    intros s c [X|[X|[X|[X|[]]]]]; injection X as <- <-; intros I; apply is_tok_code in I; congruence. }
  apply kind_other; [assumption|].
  intros s c [X|[X|[X|[X|[X|[]]]]]]; injection X as <- <-; intros I; apply is_tok_code in I; congruence.
Qed.

Lemma kind_unique : forall q c c', kind q c -> kind q c' -> c = c'.
Proof.
  assert (D : forall q (b b' : list (string * ds_class)) s c a s' c' a', b ++ (s, c) :: a = b' ++ (s', c') :: a' -> In (code s) q -> In (code s') q ->
    (forall x y, In (x, y) b -> ~ In (code x) q) -> (forall x y, In (x, y) b' -> ~ In (code x) q) -> c = c').
  { induction b as [|x b IH]; intros [|y b'] s c a s' c' a' E I I' N N'; cbn in E.
    - now injection E.
    - injection E; intros; subst. exfalso. apply (N' s c); [now left|assumption].
    - injection E; intros; subst. exfalso. apply (N s' c'); [now left|assumption].
    - injection E; intros. eapply IH; eauto; intros; [eapply N; right; eassumption|eapply N'; right; eassumption]. }
  intros q c c' K K'. destruct K as [c K|b s c a K E I N|K N]; destruct K' as [c' K'|b' s' c' a' K' E' I' N'|K' N'].
  - destruct K as (codes & Ic & ->). destruct K' as (codes' & Ic' & Eq). eapply codes_distinct; eassumption.
  - exfalso. now apply (K' c). - exfalso. now apply (K' c). - exfalso. now apply (K c').
  - rewrite E in E'. eapply D; eassumption.
  - exfalso. apply (N' s c); [rewrite E; apply in_or_app; right; now left|assumption].
  - exfalso. now apply (K c').
  - exfalso. apply (N s' c'); [rewrite E'; apply in_or_app; right; now left|assumption].
  - reflexivity.
Qed.
Lemma kind_total : forall q, exists c, kind q c.
Proof. intros q. eexists. apply kind_of_class. Qed.

Lemma unique_single : forall (A : Type) (eqb : A -> A -> bool), (forall a b, eqb a b = true -> a = b) ->
  forall l x, unique eqb l = [x] -> l <> [] /\ Forall (fun y => y = x) l.
Proof.
  intros A eqb H. unfold unique.
  assert (G : forall l acc x, fold_left (fun newl x => if existsb (eqb x) newl then newl else newl ++ [x]) l acc = [x] ->
    (acc = [x] \/ acc = []) /\ Forall (fun y => y = x) l).
  { induction l as [|y l IH]; intros acc x E; cbn [fold_left] in E; [auto|].
    apply IH in E. destruct E as [A1 F]. destruct (existsb (eqb y) acc) eqn:Ex.
    - split; [assumption|]. constructor; [|assumption]. destruct A1 as [->| ->]; [|discriminate].
      cbn in Ex. rewrite orb_false_r in Ex. now apply H in Ex.
    - destruct A1 as [A1|A1]; [|destruct acc; discriminate]. destruct acc as [|a acc].
      + cbn in A1. injection A1 as ->. split; [now right|]. now constructor.
      + exfalso. destruct acc; discriminate. }
  intros l x E. split; [intros ->; discriminate E|]. apply G in E. now destruct E.
Qed.

Definition reactions_in (m : measurement) : list reaction :=
  match m with MRxn r => [r] | MComb data | MIso data => getReactionList data end.

Lemma inside_iff : forall r e, inside r e <-> In r (element_reactions e).
Proof.
  fix IH 2. intros r [s|r'|data]; cbn [element_reactions].
  - split; [intros H; inversion H|intros []].
  - split; [intros H; inversion H; now left|intros [->|[]]; constructor].
  - assert (G : (exists x, In x data /\ inside r x) <-> In r (flat_map element_reactions data)).
    { induction data as [|x data G]; cbn [flat_map In]; [split; [intros (x & [] & _)|intros []]|].
      rewrite in_app_iff, <- G, <- (IH r x). split.
      - intros (y & [->|I] & J); [now left|right; eauto].
      - intros [I|(y & I & J)]; [exists x; auto|exists y; auto]. }
    rewrite <- G. split.
    + intros H. inversion H; subst. eauto.
    + intros (x & I & J). econstructor; eassumption.
Qed.
Lemma part_of_iff : forall r m, part_of r m <-> In r (reactions_in m).
Proof.
  intros r [r'|data|data]; cbn [part_of reactions_in].
  - split; [intros ->; now left|intros [->|[]]; reflexivity].
  - unfold getReactionList. rewrite in_flat_map. split; intros (x & I & J); exists x; (split; [assumption|]); now apply inside_iff.
  - unfold getReactionList. rewrite in_flat_map. split; intros (x & I & J); exists x; (split; [assumption|]); now apply inside_iff.
Qed.
Lemma common_iff : forall m q, common_quantity m q <-> reactions_in m <> [] /\ Forall (fun r => r_quant r = q) (reactions_in m).
Proof.
  intros m q. unfold common_quantity. rewrite Forall_forall. split.
  - intros ((r & P) & H). split; [intros E; apply part_of_iff in P; rewrite E in P; contradiction|]. intros x I. apply H. now apply part_of_iff.
  - intros (N & H). split; [destruct (reactions_in m) as [|r l] eqn:E; [contradiction|]; exists r; apply part_of_iff; rewrite E; now left|].
    intros r P. apply H. now apply part_of_iff.
Qed.

Lemma settled : forall nm m t q, settle_quantity nm (m_quantity m) (Some (m, t)) = Ok q ->
  exists l, q = PGroup l /\ common_quantity m l.
Proof.
  intros nm m t q E. unfold settle_quantity in E. destruct m as [r|data|data]; cbn [m_quantity] in E.
  - injection E as <-. exists (r_quant r). split; [reflexivity|]. apply common_iff. split; [discriminate|]. now constructor.
  - replace (str_eqb (lit "Coupled") (lit "Coupled")) with true in E by (now rewrite str_eqb_refl).
    destruct (unique (list_same tree_same) (map r_quant (getReactionList data))) as [|l [|l' ls]] eqn:U;
      try (apply bind_ok in E; destruct E as (? & _ & E); discriminate).
    injection E as <-. exists l. split; [reflexivity|].
    apply (unique_single _ _ (list_same_eq _ _ tree_same_eq)) in U. destruct U as [N F]. apply common_iff. cbn [reactions_in].
    split; [intros H; rewrite H in N; now destruct N|].
    rewrite Forall_forall in F |- *. intros x I. apply F. now apply in_map.
  - replace (str_eqb (lit "Coupled") (lit "Coupled")) with true in E by (now rewrite str_eqb_refl).
    destruct (unique (list_same tree_same) (map r_quant (getReactionList data))) as [|l [|l' ls]] eqn:U;
      try (apply bind_ok in E; destruct E as (? & _ & E); discriminate).
    injection E as <-. exists l. split; [reflexivity|].
    apply (unique_single _ _ (list_same_eq _ _ tree_same_eq)) in U. destruct U as [N F]. apply common_iff. cbn [reactions_in].
    split; [intros H; rewrite H in N; now destruct N|].
    rewrite Forall_forall in F |- *. intros x I. apply F. now apply in_map.
Qed.

Lemma factory_kind : forall nm m t meta common mon data pointer d,
  X4DataSetFactory nm (m_quantity m) meta common (Some (m, t)) mon data pointer = Ok d ->
  exists q, common_quantity m q /\ kind q (ds_class_of d).
Proof.
  intros nm m t meta common mon data pointer d E. apply factory_ok in E. destruct E as (q & tb & Eq & _ & ->).
  destruct (settled _ _ _ _ Eq) as (l & -> & C). exists l. split; [assumption|]. cbn [ds_class_of]. apply kind_of_class.
Qed.
Lemma factory_same_kind : forall nm nm' m t t' meta meta' common common' mon mon' data data' pointer pointer' d d',
  X4DataSetFactory nm (m_quantity m) meta common (Some (m, t)) mon data pointer = Ok d ->
  X4DataSetFactory nm' (m_quantity m) meta' common' (Some (m, t')) mon' data' pointer' = Ok d' -> ds_class_of d = ds_class_of d'.
Proof.
  intros until d'. intros E E'. apply factory_kind in E, E'. destruct E as (q & C & K). destruct E' as (q' & C' & K').
  assert (q = q'); [|subst q'; eapply kind_unique; eassumption].
  destruct C as ((r & P) & H). destruct C' as (_ & H'). now rewrite <- (H r P), <- (H' r P).
Qed.

(** ** append *)

Lemma ostr_eqb_eq : forall a b, ostr_eqb a b = true <-> a = b.
Proof.
  intros [a|] [b|]; cbn; split; intros H; try discriminate; try reflexivity.
  - apply str_eqb_eq in H. now subst.
  - injection H as ->. apply str_eqb_refl.
Qed.
Lemma list_same_refl : forall (A : Type) (eqb : A -> A -> bool), (forall a, eqb a a = true) -> forall l, list_same eqb l l = true.
Proof. intros A eqb H. induction l as [|x l IH]; cbn; [reflexivity|]. now rewrite H, IH. Qed.

Lemma append_spec : forall nm same self other r, append nm same self other = Ok r ->
  (empty_set self -> ds_table r = ds_table other /\ ds_reaction r = ds_reaction other /\ ds_monitor r = ds_monitor other /\
     ds_simplified r = ds_simplified other /\ ds_class_of r = ds_class_of self /\ ds_meta r = ds_meta self) /\
  (~ empty_set self ->
     (t_labels (ds_table self) = t_labels (ds_table other) /\ t_units (ds_table self) = t_units (ds_table other) /\ texts_agree nm self other /\
      t_labels (ds_table r) = t_labels (ds_table self) /\ t_units (ds_table r) = t_units (ds_table self) /\
      t_data (ds_table r) = t_data (ds_table self) ++ t_data (ds_table other) /\
      r = set_table self (ds_table r) (ds_simplified self)) \/
     (~ (t_labels (ds_table self) = t_labels (ds_table other) /\ t_units (ds_table self) = t_units (ds_table other) /\ texts_agree nm self other) /\
      r = self)).
Proof.
  intros nm same self other r E. unfold append in E. unfold empty_set. destruct self as [cls meta rx mo [ls us rows] si co fr].
  cbn [ds_table t_labels t_units t_data ds_class_of ds_meta ds_reaction ds_monitor ds_simplified ds_coupled ds_frame] in *.
  assert (NE : forall X, (match ls, us, rows with [], [], [] =>
      Ok (mkDS cls meta (ds_reaction other) (ds_monitor other) (ds_table other) (ds_simplified other) co fr) | _, _, _ => X end = Ok r) ->
      (mkTable ls us rows = mkTable [] [] [] /\ r = mkDS cls meta (ds_reaction other) (ds_monitor other) (ds_table other) (ds_simplified other) co fr) \/
      (mkTable ls us rows <> mkTable [] [] [] /\ X = Ok r)).
  { intros X H. destruct ls; [destruct us; [destruct rows|]|]; [left; split; [reflexivity|congruence]|right; split; [discriminate|assumption]..]. }
  apply NE in E. clear NE. destruct E as [[Em ->]|[N E]].
  { split; [cbn; auto 10|]. intros H. now destruct (H Em). }
  split; [now intros H|]. intros _. apply bind_ok in E. destruct E as (eq & Eq & E).
  set (self := mkDS cls meta rx mo (mkTable ls us rows) si co fr) in *.
  destruct (list_same str_eqb ls (t_labels (ds_table other)) && list_same ostr_eqb us (t_units (ds_table other))) eqn:H.
  - apply andb_true_iff in H. destruct H as [H1 H2].
    apply (list_same_eq _ _ (fun a b => proj1 (str_eqb_eq a b))) in H1. apply (list_same_eq _ _ (fun a b => proj1 (ostr_eqb_eq a b))) in H2.
    apply bind_ok in Eq. destruct Eq as (a & Ea & Eq). apply bind_ok in Eq. destruct Eq as (b & Eb & Eq). injection Eq as <-.
    destruct (str_eqb a b) eqn:Eab.
    + apply str_eqb_eq in Eab. subst b. injection E as <-. left. split; [assumption|]. split; [assumption|]. split; [exists a; auto|].
      cbn. auto.
    + right. split.
      * intros (_ & _ & t & Ta & Tb). rewrite Ea in Ta. rewrite Eb in Tb. injection Ta as <-. injection Tb as <-. now rewrite str_eqb_refl in Eab.
      * destruct same; [congruence|]. apply bind_ok in E. destruct E as (? & _ & E). apply bind_ok in E. destruct E as (? & _ & E). congruence.
  - injection Eq as <-. right. split.
    + intros (-> & -> & _). rewrite (list_same_refl _ _ str_eqb_refl), (list_same_refl _ _ (fun a => proj2 (ostr_eqb_eq a a) eq_refl)) in H. discriminate.
    + destruct same; [congruence|]. apply bind_ok in E. destruct E as (? & _ & E). apply bind_ok in E. destruct E as (? & _ & E). congruence.
Qed.
Lemma append_total : forall nm same self other t t', reaction_text nm self = Ok t -> reaction_text nm other = Ok t' ->
  exists r, append nm same self other = Ok r.
Proof.
  intros nm same self other t t' T T'. unfold append. rewrite T, T'. cbn [bind].
  assert (G : exists r, (equal <- (if list_same str_eqb (t_labels (ds_table self)) (t_labels (ds_table other)) &&
       list_same ostr_eqb (t_units (ds_table self)) (t_units (ds_table other)) then Ok (str_eqb t t') else Ok false) ;;
     if (equal : bool) then Ok (set_table self (mkTable (t_labels (ds_table self)) (t_units (ds_table self))
                                    (t_data (ds_table self) ++ t_data (ds_table other))) (ds_simplified self))
     else if same then Ok self else Ok self) = Ok r).
  { destruct (list_same str_eqb _ _ && _); cbn [bind]; [destruct (str_eqb t t')|]; try destruct same; eauto. }
  destruct (t_labels (ds_table self)) eqn:A; [destruct (t_units (ds_table self)) eqn:B; [destruct (t_data (ds_table self)) eqn:C; [eauto|]|]|]; exact G.
Qed.

(** ** What a BIB section says *)
Lemma bib_metadata : forall b sub m b', X4BibMetaData b sub = Ok (m, b') ->
  author_slot (Some m) = match bib_field b "AUTHOR" with Some (Some (FAuthor a)) => Some (AList (a_authors a)) | _ => None end /\
  slot bm_institute (Some m) = match bib_field b "INSTITUTE" with Some (Some (FInstitute _ l)) => Some l | _ => None end /\
  (bib_field b "TITLE" = None -> text_slot bm_title (Some m) = None) /\
  (forall f, bib_field b "TITLE" = Some (Some (FTitle f)) -> bm_title m = title_str f) /\
  (bib_field b "REFERENCE" = None ->
     slot bm_reference (Some m) = None /\ text_slot bm_pubtype (Some m) = None /\ text_slot bm_year (Some m) = None) /\
  (forall f r, bib_field b "REFERENCE" = Some (Some (FReference f r)) ->
     bm_reference m = Some r /\ bm_pubtype m = ref_pubtype r /\ bm_year m = ref_pubyear r) /\
  bm_subent m = sub.
Proof.
  intros b sub m b' H. unfold X4BibMetaData in H.
  destruct (bib_field b "AUTHOR") as [[x|]|] eqn:EA; [destruct x|..]; try discriminate H; cbn [bind] in H;
  (destruct (bib_field b "INSTITUTE") as [[x|]|] eqn:EI; [destruct x|..]; try discriminate H; cbn [bind] in H;
   (destruct (bib_field b "TITLE") as [[x|]|] eqn:ET; [destruct x|..]; try discriminate H; cbn [bind] in H;
    (destruct (bib_field b "REFERENCE") as [[x|]|] eqn:ER; [destruct x|..]; try discriminate H; cbn [bind] in H;
     injection H as <- <-; repeat split; intros; try discriminate; try congruence;
     match goal with H : Some _ = Some _ |- _ => injection H as ?; subst; reflexivity end))).
Qed.
