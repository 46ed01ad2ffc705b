(** Properties of simplified data sets. *)
From Coq Require Import String List Ascii NArith ZArith Bool Arith Lia.
From Coq Require Import Floats.SpecFloat.
From Verif.Model Require Import Py PyFloat Utilities Dicts Particle Reaction Field Section Entry Columns Dataset.
From Verif.Spec Require Import Text Tables DataSets.
From Verif.Proofs Require Import StrLemmas FloatLemmas ReactionLemmas DictLemmas DataLemmas ProgLemmas ColumnLemmas SimplifyLemmas UnitLemmas ValueLemmas TableLemmas.
Import ListNotations.
Local Open Scope string_scope.
Local Open Scope list_scope.
Local Open Scope nat_scope.

Lemma parser_map_keys : forall c, dkeys (parser_map c) = map lit (wanted_columns c).
Proof. intros []; reflexivity. Qed.
Lemma wanted_nodup : forall c, NoDup (map lit (wanted_columns c)).
Proof.
  assert (D : forall l : list str, (fix nd (l : list str) := match l with [] => true | x :: r => negb (smem x r) && nd r end) l = true -> NoDup l).
  { induction l as [|x l IH]; intros H; constructor.
    - apply andb_true_iff in H. destruct H as [H _]. intros I. apply smem_in in I. now rewrite I in H.
    - apply IH. now apply andb_true_iff in H. }
  intros []; apply D; vm_compute; reflexivity.
Qed.

Definition built_from (acos : float -> option float) (d : dataset) (cols : list colset) : Prop :=
  Forall2 (fun e c => fst c = fst e /\ columns_of acos (ds_table d) (snd e) = Ok (snd c)) (parser_map (ds_class_of d)) cols.

Lemma built_names : forall acos d cols, built_from acos d cols -> map fst cols = map lit (wanted_columns (ds_class_of d)).
Proof.
  intros acos d cols B. rewrite <- parser_map_keys. unfold dkeys.
  unfold built_from in B. induction B as [|e c l l' [H _] B IH]; [reflexivity|]. cbn. now rewrite H, IH.
Qed.
Lemma built_lengths : forall acos d cols, built_from acos d cols -> forall c, In c cols ->
  length (c_cells (cs_value c)) = numrows (ds_table d) /\ length (c_cells (cs_error c)) = numrows (ds_table d).
Proof.
  intros acos d cols B. unfold built_from in B. induction B as [|e c l l' [_ H] B IH]; intros c' I; [contradiction|].
  destruct I as [<-|I]; [|auto]. destruct c as [k [[v x] n]]. cbn [snd] in H.
  destruct (columns_of_spec _ _ _ _ _ _ H) as (vs & es & _ & _ & L1 & L2 & _). auto.
Qed.

Lemma simplified_spec : forall acos mk fl d, ds_simplified d = false -> wanted_columns (ds_class_of d) <> [] ->
  simplified acos mk fl d =
    (cols <- map_res (fun e => c <- columns_of acos (ds_table d) (snd e) ;; Ok (fst e, c)) (parser_map (ds_class_of d)) ;;
     if negb mk && fl && existsb cs_none cols && (0 <? numrows (ds_table d)) then Raise NoUncertaintyGivenError
     else Ok (set_table d (final_table mk (numrows (ds_table d)) cols) true)) /\
  forall cols, map_res (fun e => c <- columns_of acos (ds_table d) (snd e) ;; Ok (fst e, c)) (parser_map (ds_class_of d)) = Ok cols ->
    built_from acos d cols.
Proof.
  intros acos mk fl d S W.
  assert (B : forall cols, map_res (fun e => c <- columns_of acos (ds_table d) (snd e) ;; Ok (fst e, c)) (parser_map (ds_class_of d)) = Ok cols ->
    built_from acos d cols).
  { intros cols E. apply map_res_Forall2 in E. unfold built_from. clear - E. induction E as [|e c l l' H E IH]; constructor; auto.
    apply bind_ok in H. destruct H as (x & H & H'). injection H' as <-. auto. }
  split; [|exact B].
  assert (G : simplified_with acos (Some (parser_map (ds_class_of d))) (dkeys (parser_map (ds_class_of d))) mk fl d =
    (cols <- map_res (fun e => c <- columns_of acos (ds_table d) (snd e) ;; Ok (fst e, c)) (parser_map (ds_class_of d)) ;;
     if negb mk && fl && existsb cs_none cols && (0 <? numrows (ds_table d)) then Raise NoUncertaintyGivenError
     else Ok (set_table d (final_table mk (numrows (ds_table d)) cols) true))).
  { unfold simplified_with. rewrite S.
    replace (existsb (fun p => negb (smem p (dkeys (parser_map (ds_class_of d))))) (dkeys (parser_map (ds_class_of d)))) with false.
    2:{ symmetry. apply not_true_iff_false. intros X. apply existsb_exists in X. destruct X as (x & I & X).
        apply smem_in in I. now rewrite I in X. }
    destruct (map_res _ (parser_map (ds_class_of d))) as [cols|e] eqn:E; [|reflexivity]. cbn [bind].
    specialize (B cols eq_refl). rewrite parser_map_keys, <- (built_names _ _ _ B).
    rewrite assemble_spec; [|rewrite (built_names _ _ _ B); apply wanted_nodup|exact (built_lengths _ _ _ B)].
    destruct (negb mk && fl && existsb cs_none cols && (0 <? numrows (ds_table d))); reflexivity. }
  unfold simplified. destruct (ds_class_of d) eqn:C; try exact G; cbn in W; congruence.
Qed.

Lemma simplified_ok : forall acos mk fl d d', ds_simplified d = false -> wanted_columns (ds_class_of d) <> [] ->
  simplified acos mk fl d = Ok d' ->
  exists cols, built_from acos d cols /\ d' = set_table d (final_table mk (numrows (ds_table d)) cols) true.
Proof.
  intros acos mk fl d d' S W E. destruct (simplified_spec acos mk fl d S W) as [E' B]. rewrite E' in E.
  apply bind_ok in E. destruct E as (cols & Ec & E). exists cols. split; [now apply B|].
  destruct (_ && _); [discriminate|]. now injection E as <-.
Qed.

Lemma nth_error_app_l : forall (A : Type) (l m : list A) i x, nth_error l i = Some x -> nth_error (l ++ m) i = Some x.
Proof. intros A l m i x E. rewrite nth_error_app1; [assumption|]. now apply nth_error_lt in E. Qed.

Lemma built_units : forall acos d cols, built_from acos d cols -> forall c, In c cols ->
  c_unit (cs_value c) <> None /\ (cs_none c = false -> c_unit (cs_error c) <> None).
Proof.
  intros acos d cols B. unfold built_from in B. induction B as [|e c l l' [_ H] B IH]; intros c' I; [contradiction|].
  destruct I as [<-|I]; [|auto]. destruct c as [k [[v x] n]]. cbn [snd] in H. now apply columns_of_units in H.
Qed.

(** C47 *)
Lemma simplified_shape : forall acos mk fl d s d', ds_simplified d = false -> wanted_columns (ds_class_of d) <> [] ->
  fst (run (getSimplified acos mk fl d) s) = Ok d' ->
  table_ok (ds_table d') /\ length (t_data (ds_table d')) = length (t_data (ds_table d)) /\
  (exists names, t_labels (ds_table d') = map lit (wanted_columns (ds_class_of d)) ++ map uncertainty_label names /\
     incl names (map lit (wanted_columns (ds_class_of d))) /\
     (mk = true -> names = map lit (wanted_columns (ds_class_of d)))) /\
  ds_simplified d' = true /\ ds_class_of d' = ds_class_of d /\ ds_meta d' = ds_meta d /\ ds_reaction d' = ds_reaction d /\
  ds_monitor d' = ds_monitor d /\ ds_coupled d' = ds_coupled d /\ ds_frame d' = ds_frame d.
Proof.
  intros acos mk fl d s d' S W E. rewrite run_getSimplified in E.
  destruct (simplified_ok _ _ _ _ _ S W E) as (cols & B & ->). cbn [set_table ds_table ds_simplified ds_class_of ds_meta ds_reaction ds_monitor ds_coupled ds_frame].
  split.
  { unfold table_ok, rectangular, final_table. cbn [t_labels t_units t_data]. split; [now rewrite !app_length, !map_length|]. split.
    - apply Forall_app. split; apply Forall_forall; intros u I; apply in_map_iff in I; destruct I as (c & <- & Ic).
      + now apply (built_units _ _ _ B).
      + apply filter_In in Ic. destruct Ic as [Ic _]. unfold error_unit. destruct (cs_none c) eqn:N; [now apply (built_units _ _ _ B)|].
        now apply (built_units _ _ _ B).
    - apply Forall_forall. intros r I. apply in_map_iff in I. destruct I as (i & <- & _). unfold final_row.
      now rewrite !app_length, !map_length. }
  split; [cbn [final_table t_data]; now rewrite map_seq_length|]. split.
  { exists (map fst (with_error mk cols)). cbn [final_table t_labels]. rewrite (built_names _ _ _ B), map_map.
    split; [reflexivity|]. split.
    - intros x I. rewrite <- (built_names _ _ _ B). apply in_map_iff in I. destruct I as (c & <- & I). apply in_map.
      now apply filter_In in I.
    - intros ->. rewrite <- (built_names _ _ _ B). f_equal. unfold with_error.
      clear. induction cols as [|c cols IH]; [reflexivity|]. cbn [filter]. rewrite orb_true_r. now rewrite IH. }
  repeat split.
Qed.

Lemma simplified_others : forall acos mk fl d s,
  (ds_simplified d = true -> forall d', fst (run (getSimplified acos mk fl d) s) = Ok d' -> d' = d) /\
  (wanted_columns (ds_class_of d) = [] -> forall d', fst (run (getSimplified acos mk fl d) s) = Ok d' -> d' = d).
Proof.
  intros acos mk fl d s. rewrite run_getSimplified. unfold simplified, simplified_with. split.
  - intros -> d' E. destruct (ds_class_of d); congruence.
  - intros W d' E. destruct (ds_class_of d); try discriminate W; try congruence. destruct (ds_simplified d); congruence.
Qed.

(** C43 *)
Lemma simplified_column : forall acos mk fl d s d' k name ps, ds_simplified d = false ->
  fst (run (getSimplified acos mk fl d) s) = Ok d' -> nth_error (parser_map (ds_class_of d)) k = Some (name, ps) ->
  exists vs, Forall2 (fun p c => forall s', fst (run (getValue acos p (ds_table d)) s') = Ok c) ps vs /\
    nth_error (t_labels (ds_table d')) k = Some name /\
    nth_error (t_units (ds_table d')) k = Some (first_some (map c_unit vs)) /\
    forall i row, nth_error (t_data (ds_table d')) i = Some row ->
      nth_error row k = Some (as_cell (first_some (map (fun c => at_row i (c_cells c)) vs))).
Proof.
  intros acos mk fl d s d' k name ps S E P. rewrite run_getSimplified in E.
  assert (W : wanted_columns (ds_class_of d) <> []).
  { intros W. apply nth_error_In in P. destruct (ds_class_of d); try discriminate W; destruct P. }
  destruct (simplified_ok _ _ _ _ _ S W E) as (cols & B & ->). cbn [set_table ds_table].
  unfold built_from in B.
  assert (X : exists c, nth_error cols k = Some c /\ fst c = name /\ columns_of acos (ds_table d) ps = Ok (snd c)).
  { clear - B P. revert k P. induction B as [|e c l l' H B IH]; intros k P; [now destruct k|]. destruct k as [|k]; [|exact (IH k P)].
    cbn in P. injection P as ->. exists c. split; [reflexivity|]. exact H. }
  destruct X as ([nm [[v e] none]] & Ec & <- & C). cbn [fst snd] in *.
  destruct (columns_of_spec _ _ _ _ _ _ C) as (vs & es & Fv & _ & _ & _ & Uv & _ & Cv & _).
  exists vs. split; [|split; [|split]].
  - clear - Fv. induction Fv; constructor; auto. intros s'. now rewrite run_getValue.
  - cbn [final_table t_labels]. apply nth_error_app_l. now rewrite nth_error_map, Ec.
  - cbn [final_table t_units]. apply nth_error_app_l. rewrite nth_error_map, Ec. cbn. now rewrite <- Uv.
  - intros i row Er. cbn [final_table t_data] in Er. pose proof (nth_error_lt _ _ _ _ Er) as L. rewrite map_seq_length in L.
    rewrite nth_error_map_seq in Er by assumption. injection Er as <-. unfold final_row. apply nth_error_app_l.
    rewrite nth_error_map, Ec. cbn [option_map cs_value fst snd]. f_equal.
    change (fun c => at_row i (c_cells c)) with (cell_of i). now rewrite <- Cv.
Qed.

(** The uncertainty column of a name. *)
Lemma simplified_error : forall acos mk fl d s d' j name row i, ds_simplified d = false -> wanted_columns (ds_class_of d) <> [] ->
  fst (run (getSimplified acos mk fl d) s) = Ok d' -> nth_error (t_labels (ds_table d')) j = Some (uncertainty_label name) ->
  nth_error (t_data (ds_table d')) i = Some row ->
  exists ps es, In (name, ps) (parser_map (ds_class_of d)) /\
    Forall2 (fun p c => forall s', fst (run (getError acos p (ds_table d)) s') = Ok c) ps es /\
    nth_error row j = Some (if forallb (fun c => forallb (fun x => match x with None => true | _ => false end) (c_cells c)) es
                            then VFloat fzero
                            else as_cell (first_some (map (fun c => at_row i (c_cells c)) es))) /\
    Forall (fun c => Forall no_sign (c_cells c)) es.
Proof.
  intros acos mk fl d s d' j name row i S W E Ej Er. rewrite run_getSimplified in E.
  destruct (simplified_ok _ _ _ _ _ S W E) as (cols & B & ->). cbn [set_table ds_table] in *.
  cbn [final_table t_labels t_data] in *. pose proof (nth_error_lt _ _ _ _ Er) as L. rewrite map_seq_length in L.
  rewrite nth_error_map_seq in Er by assumption. injection Er as <-.
  destruct (Nat.lt_ge_cases j (length cols)) as [Hj|Hj].
  - exfalso. rewrite nth_error_app1 in Ej by now rewrite map_length. rewrite (built_names _ _ _ B) in Ej.
    apply nth_error_In in Ej. destruct (ds_class_of d); cbn in Ej; repeat (destruct Ej as [Ej|Ej]; [discriminate Ej|]); contradiction.
  - rewrite nth_error_app2 in Ej by now rewrite map_length. rewrite map_length in Ej.
    rewrite nth_error_map in Ej. destruct (nth_error (with_error mk cols) (j - length cols)) as [c|] eqn:Ec; [|discriminate].
    cbn in Ej. injection Ej as Ej. apply app_inj_tail in Ej. destruct Ej as [Ej _].
    pose proof (nth_error_In _ _ Ec) as Ic. apply filter_In in Ic. destruct Ic as [Ic Hc].
    assert (X : exists ps, In (fst c, ps) (parser_map (ds_class_of d)) /\ columns_of acos (ds_table d) ps = Ok (snd c)).
    { clear - B Ic. unfold built_from in B. induction B as [|e c' l l' H B IH]; [contradiction|]. destruct Ic as [<-|Ic].
      - destruct H as [H1 H2]. exists (snd e). split; [left; rewrite H1; now destruct e|assumption].
      - destruct (IH Ic) as (ps & I & H'). exists ps. split; [now right|assumption]. }
    destruct X as (ps & Ip & C). destruct c as [nm [[v e] none]]. cbn [fst snd] in *. subst nm.
    destruct (columns_of_spec _ _ _ _ _ _ C) as (vs & es & _ & Fe & _ & _ & _ & _ & _ & Ce & _ & N).
    exists ps, es. split; [assumption|]. split; [|split].
    + clear - Fe. induction Fe; constructor; auto. intros s'. now rewrite run_getError.
    + unfold final_row. rewrite nth_error_app2 by (rewrite map_length; exact Hj). rewrite map_length, nth_error_map, Ec.
      cbn [option_map]. f_equal. unfold error_cell. cbn [cs_none cs_error fst snd].
      assert (Q : forallb (fun c => forallb (fun x => match x with None => true | _ => false end) (c_cells c)) es = none).
      { apply eq_true_iff_eq. rewrite N, forallb_forall. split.
        - intros H k. rewrite Ce. apply first_some_none. intros x Ix. apply in_map_iff in Ix. destruct Ix as (c & <- & Ix).
          specialize (H c Ix). now apply all_none_cells.
        - intros H c Ix. apply (proj2 (all_none_cells c)). intros k. specialize (H k). rewrite Ce in H.
          apply (proj1 (first_some_none _ _) H). now apply (in_map (cell_of k)). }
      rewrite Q. destruct none; [reflexivity|]. change (fun c => at_row i (c_cells c)) with (cell_of i). now rewrite <- Ce.
    + clear - Fe. induction Fe; constructor; auto. now apply error_of_no_sign in H.
Qed.

(** C41 *)
Lemma simplified_no_sign : forall acos mk fl d s d' j name row i cell, ds_simplified d = false ->
  fst (run (getSimplified acos mk fl d) s) = Ok d' -> wanted_columns (ds_class_of d) <> [] ->
  nth_error (t_labels (ds_table d')) j = Some (uncertainty_label name) ->
  nth_error (t_data (ds_table d')) i = Some row -> nth_error row j = Some cell ->
  cell = VNone \/ exists x, cell = VFloat x /\ not_negative x.
Proof.
  intros acos mk fl d s d' j name row i cell S E W Ej Er Ec.
  destruct (simplified_error _ _ _ _ _ _ _ _ _ _ S W E Ej Er) as (ps & es & _ & _ & N & F). rewrite Ec in N. injection N as ->.
  destruct (forallb _ es); [right; exists fzero; split; [reflexivity|exact eq_refl]|].
  destruct (first_some _) as [x|] eqn:X; [|left; reflexivity]. right. exists x. split; [reflexivity|].
  apply first_some_in in X. apply in_map_iff in X. destruct X as (c & X & Ic). rewrite Forall_forall in F.
  specialize (F c Ic). rewrite Forall_forall in F. unfold at_row in X. destruct (nth_error (c_cells c) i) as [o|] eqn:Eo; [|discriminate].
  subst o. apply (F (Some x)); [|reflexivity]. eapply nth_error_In; eassumption.
Qed.
