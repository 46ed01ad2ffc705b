(** What follows from the results not depending on the attributes of the parsers. *)
From Coq Require Import String List Ascii NArith ZArith Bool Arith.
From Coq Require Import Floats.SpecFloat.
From Verif.Model Require Import Py PyFloat Utilities Dicts Particle Reaction Field Section Entry Columns Dataset.
From Verif.Spec Require Import Tables DataSets.
From Verif.Proofs Require Import ColumnLemmas SimplifyLemmas SimpleLemmas.
Import ListNotations.
Local Open Scope string_scope.
Local Open Scope list_scope.
Local Open Scope nat_scope.

Lemma getValue_no_memory : forall acos p d s1 s2, fst (run (getValue acos p d) s1) = fst (run (getValue acos p d) s2).
Proof. intros. now rewrite !run_getValue. Qed.
Lemma getError_no_memory : forall acos p d s1 s2, fst (run (getError acos p d) s1) = fst (run (getError acos p d) s2).
Proof. intros. now rewrite !run_getError. Qed.
Lemma isMatch_no_memory : forall p d s1 s2, fst (run (isMatch p d) s1) = fst (run (isMatch p d) s2).
Proof. intros. now rewrite !run_isMatch. Qed.
Lemma getSimplified_history : forall acos history mk fl d s,
  fst (run (getSimplified acos mk fl d) (fold_left (fun s c => snd (run (getSimplified acos (fst (fst c)) (snd (fst c)) (snd c)) s)) history s))
  = fst (run (getSimplified acos mk fl d) s).
Proof. intros. now rewrite !run_getSimplified. Qed.
Lemma threads_alone : forall acos mk1 fl1 mk2 fl2 d1 d2 schedule s r1 r2 s',
  t_labels (ds_table d1) = t_labels (ds_table d2) -> t_units (ds_table d1) = t_units (ds_table d2) ->
  interleave schedule (getSimplified acos mk1 fl1 d1) (getSimplified acos mk2 fl2 d2) s = (Ret r1, Ret r2, s') ->
  r1 = fst (run (getSimplified acos mk1 fl1 d1) s) /\ r2 = fst (run (getSimplified acos mk2 fl2 d2) s).
Proof. intros. rewrite !run_getSimplified. eapply threads_same_headings; eassumption. Qed.

Lemma simplified_errors : forall acos mk fl d s d' j name row i, ds_simplified d = false -> wanted_columns (ds_class_of d) <> [] ->
  fst (run (getSimplified acos mk fl d) s) = Ok d' -> nth_error (t_labels (ds_table d')) j = Some (uncertainty_label name) ->
  nth_error (t_data (ds_table d')) i = Some row ->
  exists ps es, In (name, ps) (parser_map (ds_class_of d)) /\
    Forall2 (fun p c => forall s', fst (run (getError acos p (ds_table d)) s') = Ok c) ps es /\
    nth_error row j = Some (if forallb (fun c => forallb (fun x => match x with None => true | _ => false end) (c_cells c)) es
                            then VFloat fzero
                            else as_cell (first_some (map (fun c => at_row i (c_cells c)) es))).
Proof.
  intros acos mk fl d s d' j name row i S W E L R.
  destruct (simplified_error acos mk fl d s d' j name row i S W E L R) as (ps & es & H1 & H2 & H3 & _). exists ps, es. auto.
Qed.

Lemma wide_cosine_fails : forall acos, acos (fl 11 (-1)) = None ->
  fst (run (getSimplified acos false false (mkDS AngularDist no_meta None None
    (mkTable (lits ["EN"; "COS"; "DATA"]) (map Some (lits ["MEV"; "NO-DIM"; "B/SR"]))
       [[VFloat (fl 1 0); VFloat (fl 11 (-1)); VFloat (fl 1 0)]]) false false None)) store0) = Raise ValueError.
Proof.
  intros acos A. rewrite run_getSimplified.
  match goal with |- simplified _ _ _ ?d0 = _ => set (d := d0) end.
  destruct (simplified_spec acos false false d eq_refl) as [-> _]; [discriminate|].
  change (parser_map (ds_class_of d)) with
    [(lit "Energy", incidentEnergyParserList); (lit "Angle", angleParserList); (lit "Data", angDistParserList)].
  cbn [map_res snd fst].
  assert (E1 : exists c, columns_of acos (ds_table d) incidentEnergyParserList = Ok c) by (eexists; vm_compute; reflexivity).
  destruct E1 as [c1 ->]. cbn [bind].
  assert (E2 : columns_of acos (ds_table d) angleParserList = Raise ValueError); [|rewrite E2; reflexivity].
  unfold columns_of.
  assert (E3 : map_res (fun p => value_of acos (snd p) (ds_table d)) angleParserList = Raise ValueError); [|rewrite E3; reflexivity].
  unfold angleParserList, number_from.
  match goal with |- map_res _ (combine _ [?a; ?b; ?c]) = _ =>
    set (p1 := a); set (p2 := b); set (p3 := c) end.
  change (map_res (fun p => value_of acos (snd p) (ds_table d)) [(34, p1); (35, p2); (36, p3)] = Raise ValueError).
  cbn [map_res snd].
  assert (V1 : value_of acos p1 (ds_table d) = Ok (dummy_column (ds_table d))) by (vm_compute; reflexivity).
  assert (V2 : value_of acos p2 (ds_table d) = Ok (dummy_column (ds_table d))) by (vm_compute; reflexivity).
  assert (V3 : value_of acos p3 (ds_table d) = Raise ValueError).
  { vm_compute. vm_compute in A. rewrite A. reflexivity. }
  rewrite V1, V2, V3. reflexivity.
Qed.
