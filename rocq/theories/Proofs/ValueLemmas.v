(** What the column parsers return: full columns, uncertainties without sign, first value wins. *)
From Coq Require Import String List Ascii NArith ZArith Bool Arith Lia.
From Coq Require Import Floats.SpecFloat.
From Verif.Model Require Import Py PyFloat Columns.
From Verif.Spec Require Import Text Tables.
From Verif.Proofs Require Import StrLemmas FloatLemmas ReactionLemmas DataLemmas ProgLemmas ColumnLemmas UnitLemmas.
Import ListNotations.
Local Open Scope string_scope.
Local Open Scope list_scope.
Local Open Scope nat_scope.

Lemma map_res_length : forall (A B : Type) (f : A -> res B) l r, map_res f l = Ok r -> length r = length l.
Proof.
  induction l as [|x l IH]; intros r E; cbn in E; [injection E as <-; reflexivity|].
  destruct (f x); [|discriminate]. cbn in E. destruct (map_res f l) as [ys|]; [|discriminate]. cbn in E.
  injection E as <-. cbn. now rewrite (IH ys eq_refl).
Qed.

(** ** One cell per row *)

Lemma dummy_length : forall d, length (c_cells (dummy_column d)) = numrows d.
Proof. intros d. apply repeat_length. Qed.
Lemma base_getColumn_length : forall c i d col, base_getColumn c i d = Ok col -> length (c_cells col) = numrows d.
Proof.
  intros c i d col E. unfold base_getColumn in E. apply bind_ok in E. destruct E as (m & _ & E).
  destruct m; cbn [negb] in E; [|injection E as <-; apply dummy_length].
  apply bind_ok in E. destruct E as (u & _ & E). apply bind_ok in E. destruct E as ([f can] & _ & E).
  apply bind_ok in E. destruct E as (l & _ & E). apply bind_ok in E. destruct E as (cells & Ec & E).
  injection E as <-. cbn. now apply map_res_length in Ec.
Qed.
Lemma getColumn_length : forall acos c i d col, getColumn acos c i d = Ok col -> length (c_cells col) = numrows d.
Proof.
  intros acos c i d col E. unfold getColumn in E. destruct (negb (cp_angle c)); [now apply base_getColumn_length in E|].
  apply bind_ok in E. destruct E as (l & _ & E). destruct (negb _); [now apply base_getColumn_length in E|].
  apply bind_ok in E. destruct E as (m & _ & E).
  destruct m; cbn [negb] in E; [|injection E as <-; apply dummy_length].
  apply bind_ok in E. destruct E as ([f can] & _ & E).
  apply bind_ok in E. destruct E as (cells & Ec & E).
  injection E as <-. cbn. now apply map_res_length in Ec.
Qed.
Lemma the_column_length : forall acos c d col, the_column acos c d = Ok col -> length (c_cells col) = numrows d.
Proof. intros acos c d col E. now apply getColumn_length in E. Qed.
Lemma map_seq_length : forall (B : Type) (f : nat -> B) n, length (map f (seq 0 n)) = n.
Proof. intros. rewrite map_length. apply seq_length. Qed.

Lemma value_of_length : forall acos pr d col, value_of acos pr d = Ok col -> length (c_cells col) = numrows d.
Proof.
  intros acos pr d col E. unfold value_of, value_of0 in E. apply bind_ok in E. destruct E as ([] & _ & E).
  destruct (match_ok pr d); cbn [negb] in E; [|injection E as <-; apply dummy_length].
  destruct pr as [c1|c1 c2|c1|c1 c2|c1 c2 c3|c1 c2 c3|c2 c3]; cbn [raw_value] in E; try (now apply the_column_length in E).
  - apply bind_ok in E. destruct E as (x & _ & E). apply bind_ok in E. destruct E as (y & _ & E).
    injection E as <-. apply map_seq_length.
  - apply bind_ok in E. destruct E as (x & _ & E). apply bind_ok in E. destruct E as (y & _ & E).
    apply bind_ok in E. destruct E as (z & _ & E). injection E as <-. apply map_seq_length.
  - discriminate E.
Qed.

Lemma percent_error_spec : forall col err n, length (c_cells col) = n -> length (c_cells err) = n ->
  exists cells, percent_error col err = Ok (mkColumn (c_label err) (c_unit col) cells) /\ length cells = n /\
    forall i v e, nth_error (c_cells col) i = Some v -> nth_error (c_cells err) i = Some e ->
      nth_error cells i = Some (percent_of v e).
Proof.
  intros col err n L1 L2. unfold percent_error. rewrite L1.
  edestruct (map_res_nth _ _ (fun i => c <- idx (c_cells col) i ;;
     match c with None => _ <- idx (c_cells err) i ;; Ok None | Some _ => e <- idx (c_cells err) i ;; Ok (percent_of c e) end)
     (seq 0 n)) as (ys & E & Ly & Ny).
  { intros i I. apply in_seq in I.
    destruct (nth_error_ex _ (c_cells col) i) as [v Ev]; [lia|]. destruct (nth_error_ex _ (c_cells err) i) as [e Ee]; [lia|].
    rewrite (proj2 (idx_ok _ _ _ _) Ev), (proj2 (idx_ok _ _ _ _) Ee). cbn [bind]. destruct v; eauto. }
  rewrite E. cbn [bind]. rewrite skipn_all2 by lia. rewrite app_nil_r. exists ys.
  rewrite seq_length in Ly. split; [reflexivity|]. split; [assumption|].
  intros i v e Ev Ee. assert (I : nth_error (seq 0 n) i = Some i).
  { pose proof (nth_error_lt _ _ _ _ Ev) as L. rewrite (nth_error_nth' _ 0) by (rewrite seq_length; lia). f_equal. rewrite seq_nth by lia. lia. }
  destruct (Ny i i I) as (y & Ey & Ny'). rewrite (proj2 (idx_ok _ _ _ _) Ev), (proj2 (idx_ok _ _ _ _) Ee) in Ey. cbn [bind] in Ey.
  rewrite Ny'. destruct v; injection Ey as <-; reflexivity.
Qed.

Lemma raw_error_length : forall acos pr d col, raw_error no_energy acos pr d = Ok col -> length (c_cells col) = numrows d.
Proof.
  intros acos pr d col E. destruct pr as [c1|c1 c2|c1|c1 c2|c1 c2 c3|c1 c2 c3|c2 c3]; cbn [raw_error] in E.
  - injection E as <-. apply dummy_length.
  - apply bind_ok in E. destruct E as (err & E1 & E). destruct (is_percent _).
    + apply bind_ok in E. destruct E as (v & E2 & E). apply the_column_length in E1, E2.
      destruct (percent_error_spec v err _ E2 E1) as (cells & Ep & L & _). rewrite Ep in E. injection E as <-. exact L.
    + injection E as <-. now apply the_column_length in E1.
  - apply bind_ok in E. destruct E as (v & E1 & E). injection E as <-. cbn. rewrite map_length. now apply the_column_length in E1.
  - apply bind_ok in E. destruct E as (x & _ & E). apply bind_ok in E. destruct E as (y & _ & E).
    injection E as <-. apply map_seq_length.
  - apply bind_ok in E. destruct E as (x & _ & E). apply bind_ok in E. destruct E as (y & _ & E).
    apply bind_ok in E. destruct E as (z & _ & E). injection E as <-. apply map_seq_length.
  - apply bind_ok in E. destruct E as (x & _ & E). apply bind_ok in E. destruct E as (y & _ & E).
    assert (A : forall u a b, add_bars d u a b = Ok col -> length (c_cells col) = numrows d).
    { intros u a b A. unfold add_bars in A. apply bind_ok in A. destruct A as (cells & A & B). injection B as <-.
      apply map_res_length in A. rewrite seq_length in A. exact A. }
    destruct (_ || _); [|now apply A in E]. apply bind_ok in E. destruct E as (z & _ & E). now apply A in E.
  - discriminate E.
Qed.
Lemma error_of_length : forall acos pr d col, error_of acos pr d = Ok col -> length (c_cells col) = numrows d.
Proof.
  intros acos pr d col E. unfold error_of, error_of0 in E.
  assert (H : (_ <- set_res pr d ;; if negb (match_ok pr d) then Ok (dummy_column d)
               else col <- raw_error no_energy acos pr d ;; Ok (absOrNone col)) = Ok col -> length (c_cells col) = numrows d).
  { clear E. intros E. apply bind_ok in E. destruct E as ([] & _ & E).
    destruct (match_ok pr d); cbn [negb] in E; [|injection E as <-; apply dummy_length].
    apply bind_ok in E. destruct E as (r & Er & E). injection E as <-. cbn. rewrite map_length. now apply raw_error_length in Er. }
  destruct pr; [injection E as <-; apply dummy_length|..]; exact (H E).
Qed.

(** ** No negative uncertainty *)

Definition no_sign (o : option float) : Prop := forall x, o = Some x -> not_negative x.
Lemma fabs_not_negative : forall x, not_negative (fabs x).
Proof. intros [s|s| |s m e]; cbn; auto. Qed.
Lemma dummy_no_sign : forall d, Forall no_sign (c_cells (dummy_column d)).
Proof. intros d. apply Forall_forall. intros o I. cbn in I. apply repeat_spec in I. subst. intros x E. discriminate. Qed.
Lemma abs_no_sign : forall c, Forall no_sign (c_cells (absOrNone c)).
Proof.
  intros c. apply Forall_forall. intros o I. cbn in I. apply in_map_iff in I. destruct I as (o' & <- & _).
  intros x E. destruct o'; [|discriminate]. injection E as <-. apply fabs_not_negative.
Qed.
Lemma error_of_no_sign : forall acos pr d col, error_of acos pr d = Ok col -> Forall no_sign (c_cells col).
Proof.
  intros acos pr d col E. unfold error_of, error_of0 in E.
  assert (H : (_ <- set_res pr d ;; if negb (match_ok pr d) then Ok (dummy_column d)
               else col <- raw_error no_energy acos pr d ;; Ok (absOrNone col)) = Ok col -> Forall no_sign (c_cells col)).
  { clear E. intros E. apply bind_ok in E. destruct E as ([] & _ & E).
    destruct (match_ok pr d); cbn [negb] in E; [|injection E as <-; apply dummy_no_sign].
    apply bind_ok in E. destruct E as (r & Er & E). injection E as <-. apply abs_no_sign. }
  destruct pr; [injection E as <-; apply dummy_no_sign|..]; exact (H E).
Qed.

(** ** The first value wins *)

Definition cell_of (i : nat) (c : column) : option float := match nth_error (c_cells c) i with Some x => x | None => None end.

Lemma condense_spec : forall x y n, length (c_cells x) = n -> length (c_cells y) = n ->
  exists c, condenseColumn x y = Ok c /\ length (c_cells c) = n /\ c_label c = or_else (c_label x) (c_label y) /\
    c_unit c = or_else (c_unit x) (c_unit y) /\ forall i, cell_of i c = or_else (cell_of i x) (cell_of i y).
Proof.
  intros x y n Lx Ly. unfold condenseColumn. rewrite Lx, Ly, Nat.max_id.
  edestruct (map_res_nth _ _ (fun i => xi <- idx (c_cells x) i ;; match xi with Some _ => Ok xi | None => idx (c_cells y) i end)
     (seq 0 n)) as (ys & E & Lz & Nz).
  { intros i I. apply in_seq in I.
    destruct (nth_error_ex _ (c_cells x) i) as [v Ev]; [lia|]. destruct (nth_error_ex _ (c_cells y) i) as [e Ee]; [lia|].
    rewrite (proj2 (idx_ok _ _ _ _) Ev), (proj2 (idx_ok _ _ _ _) Ee). cbn [bind]. destruct v; eauto. }
  rewrite E. cbn [bind]. rewrite seq_length in Lz. eexists. split; [reflexivity|]. split; [assumption|].
  split; [reflexivity|]. split; [reflexivity|]. intros i. unfold cell_of. cbn [c_cells].
  destruct (Nat.lt_ge_cases i n) as [L|L].
  - assert (I : nth_error (seq 0 n) i = Some i).
    { rewrite (nth_error_nth' _ 0) by (rewrite seq_length; lia). f_equal. rewrite seq_nth by lia. lia. }
    destruct (Nz i i I) as (z & Ez & Nz').
    destruct (nth_error_ex _ (c_cells x) i) as [v Ev]; [lia|]. destruct (nth_error_ex _ (c_cells y) i) as [e Ee]; [lia|].
    rewrite Nz', Ev, Ee. rewrite (proj2 (idx_ok _ _ _ _) Ev), (proj2 (idx_ok _ _ _ _) Ee) in Ez. cbn [bind] in Ez.
    destruct v; injection Ez as <-; reflexivity.
  - rewrite (proj2 (nth_error_None ys i)), (proj2 (nth_error_None (c_cells x) i)), (proj2 (nth_error_None (c_cells y) i)) by lia.
    reflexivity.
Qed.

Lemma or_else_assoc : forall (A : Type) (a b c : option A), or_else (or_else a b) c = or_else a (or_else b c).
Proof. intros A [a|] b c; reflexivity. Qed.
Lemma first_some_cons : forall (A : Type) (x : option A) l, first_some (x :: l) = or_else x (first_some l).
Proof. intros A [x|] l; reflexivity. Qed.
Lemma or_else_none : forall (A : Type) (x : option A), or_else x None = x.
Proof. now intros A [x|]. Qed.

Lemma fold_condense : forall n cols x, length (c_cells x) = n -> Forall (fun c => length (c_cells c) = n) cols ->
  exists c, fold_res condenseColumn cols x = Ok c /\ length (c_cells c) = n /\
    c_label c = first_some (map c_label (x :: cols)) /\ c_unit c = first_some (map c_unit (x :: cols)) /\
    forall i, cell_of i c = first_some (map (cell_of i) (x :: cols)).
Proof.
  intros n. induction cols as [|y cols IH]; intros x Lx F; cbn [fold_res].
  - exists x. cbn [map]. rewrite !first_some_cons. cbn [first_some]. rewrite !or_else_none.
    split; [reflexivity|]. split; [assumption|]. split; [reflexivity|]. split; [reflexivity|].
    intros i. cbn [map first_some]. now destruct (cell_of i x).
  - inversion F as [|? ? Ly F']; subst. destruct (condense_spec x y _ eq_refl Ly) as (z & E & Lz & Hl & Hu & Hc).
    rewrite E. cbn [bind]. destruct (IH z Lz F') as (c & E' & Lc & Hl' & Hu' & Hc').
    exists c. split; [assumption|]. split; [assumption|].
    assert (A : forall (B : Type) (f : column -> option B), f z = or_else (f x) (f y) ->
      first_some (map f (z :: cols)) = first_some (map f (x :: y :: cols))).
    { intros B f Ef. cbn [map]. rewrite !first_some_cons, Ef. apply or_else_assoc. }
    split; [rewrite Hl'; now apply A|]. split; [rewrite Hu'; now apply A|].
    intros i. rewrite Hc'. apply A, Hc.
Qed.
Lemma reduce_condense : forall n cols, cols <> [] -> Forall (fun c => length (c_cells c) = n) cols ->
  exists c, reduce_res condenseColumn cols = Ok c /\ length (c_cells c) = n /\
    c_label c = first_some (map c_label cols) /\ c_unit c = first_some (map c_unit cols) /\
    forall i, cell_of i c = first_some (map (cell_of i) cols).
Proof.
  intros n [|x cols] N F; [congruence|]. inversion F; subst. now apply fold_condense.
Qed.

Lemma average_spec : forall (x y : list (option float)), length x = length y ->
  exists c, averageColumns x y = Ok c /\ length c = length x /\
    forall i a b, nth_error x i = Some a -> nth_error y i = Some b ->
      nth_error c i = Some (match a, b with Some u, Some v => Some (fmul half (fadd u v)) | None, _ => b | _, None => a end).
Proof.
  intros x y L. unfold averageColumns. rewrite <- L, Nat.max_id.
  edestruct (map_res_nth _ _ (fun i => xi <- idx x i ;; yi <- idx y i ;;
     Ok (match xi, yi with Some a, None => Some a | Some a, Some b => Some (fmul half (fadd a b)) | None, _ => yi end))
     (seq 0 (length x))) as (ys & E & Lz & Nz).
  { intros i I. apply in_seq in I.
    destruct (nth_error_ex _ x i) as [v Ev]; [lia|]. destruct (nth_error_ex _ y i) as [e Ee]; [lia|].
    rewrite (proj2 (idx_ok _ _ _ _) Ev), (proj2 (idx_ok _ _ _ _) Ee). cbn [bind]. eauto. }
  rewrite seq_length in Lz. exists ys. split; [exact E|]. split; [assumption|]. intros i a b Ea Eb.
  pose proof (nth_error_lt _ _ _ _ Ea) as Li.
  assert (I : nth_error (seq 0 (length x)) i = Some i).
  { rewrite (nth_error_nth' _ 0) by (rewrite seq_length; lia). f_equal. rewrite seq_nth by lia. lia. }
  destruct (Nz i i I) as (z & Ez & Nz'). rewrite (proj2 (idx_ok _ _ _ _) Ea), (proj2 (idx_ok _ _ _ _) Eb) in Ez. cbn [bind] in Ez.
  rewrite Nz'. injection Ez as <-. destruct a, b; reflexivity.
Qed.

(** ** Rectangular tables are always read *)

Definition pair_parsers (pr : pair) : list colparser :=
  match pr with
  | MissingError c1 | ConstantPercent c1 => [c1]
  | Independent c1 c2 | HighLow c1 c2 => [c1; c2]
  | HighMidLow c1 c2 c3 | AddErrorBars c1 c2 c3 => [c1; c2; c3]
  | BarnsSqrtE c2 c3 => [c2; c3]
  end.
Definition straight_pair (pr : pair) (d : table) : Prop :=
  forall c l, In c (pair_parsers pr) -> In l (t_labels d) -> straight c l.

Lemma firstMatch_total : forall c d, rect d -> exists i, firstMatch c d = Ok i.
Proof. intros c d (U & _). destruct (firstMatch_spec c d U) as [(j & E & _)|(E & _)]; eauto. Qed.
Lemma set_res_total : forall pr d, rect d -> set_res pr d = Ok tt.
Proof.
  intros pr d R. destruct pr as [c1|c1 c2|c1|c1 c2|c1 c2 c3|c1 c2 c3|c2 c3]; cbn [set_res];
    repeat match goal with |- context[firstMatch ?c d] => let i := fresh in destruct (firstMatch_total c d R) as [i ->]; cbn [bind] end; reflexivity.
Qed.
Lemma found_fits : forall c d, rect d -> (found c d = true <-> exists j, first_such (fits c d) j /\ icol c d = Z.of_nat j) /\
  (found c d = false <-> (forall j, ~ fits c d j)) /\ (found c d = false -> icol c d = (-1)%Z).
Proof.
  intros c d (U & _). unfold found, icol. destruct (firstMatch_spec c d U) as [(j & E & F)|(E & N)]; rewrite E; cbv beta iota.
  - split; [|split].
    + split; [intros _; exists j; auto|intros _; apply Z.leb_le, Zle_0_nat].
    + split; [intros X; apply Z.leb_gt in X; lia|]. intros N. exfalso. apply (N j), F.
    + intros X. apply Z.leb_gt in X. lia.
  - split; [|split].
    + split; [cbn; discriminate|]. intros (j & F & _). exfalso. apply (N j), F.
    + cbn. tauto.
    + reflexivity.
Qed.

Lemma the_column_total : forall acos c d, rect d -> t_labels d <> [] -> (forall l, In l (t_labels d) -> straight c l) ->
  exists col, the_column acos c d = Ok col.
Proof.
  intros acos c d R N S. unfold the_column. destruct (found_fits c d R) as (F1 & F2 & F3).
  destruct (found c d) eqn:F.
  - destruct (proj1 F1 eq_refl) as (j & [Fj _] & Ej). rewrite Ej.
    destruct (converted_column acos c d j R Fj) as (l & u & f & can & col & _ & _ & _ & E & _); [|eauto].
    intros l El. apply S. eapply nth_error_In; eassumption.
  - rewrite (F3 eq_refl). unfold getColumn.
    assert (B : base_getColumn c (-1) d = Ok (dummy_column d)) by reflexivity.
    destruct (cp_angle c); cbn [negb]; [|rewrite B; eauto].
    unfold zidx. assert (L : 0 < length (t_labels d)) by (destruct (t_labels d); cbn; [congruence|lia]).
    replace ((- Z.of_nat (length (t_labels d)) <=? -1) && (-1 <? Z.of_nat (length (t_labels d))))%Z with true by lia.
    replace (Z.to_nat (if (-1 <? 0)%Z then (-1 + Z.of_nat (length (t_labels d)))%Z else (-1)%Z)) with (length (t_labels d) - 1)
      by (cbn [Z.ltb Z.compare]; lia).
    destruct (nth_error_ex _ (t_labels d) (length (t_labels d) - 1)) as [l ->]; [lia|]. cbn [of_option bind].
    destruct (contains _ l); cbn [negb].
    + replace (cp_isMatch c (-1) d) with (Ok false) by reflexivity. cbn [bind negb]. eauto.
    + rewrite B. eauto.
Qed.

Lemma found_nonempty : forall c d, rect d -> found c d = true -> t_labels d <> [].
Proof.
  intros c d R F. destruct (found_fits c d R) as (F1 & _). destruct (proj1 F1 F) as (j & [Fj _] & _).
  apply fits_lt in Fj. unfold numcols in Fj. destruct (t_labels d); [cbn in Fj; lia|discriminate].
Qed.
Lemma match_nonempty : forall pr d, rect d -> match_ok pr d = true -> t_labels d <> [].
Proof.
  intros pr d R M. assert (H : exists c, found c d = true).
  { destruct pr as [c1|c1 c2|c1|c1 c2|c1 c2 c3|c1 c2 c3|c2 c3]; cbn [match_ok] in M.
    1,3,7: eauto.
    1,3,4: apply andb_true_iff in M; destruct M; eauto.
    apply orb_true_iff in M. destruct M; eauto. }
  destruct H as [c H]. now apply found_nonempty in H.
Qed.

Lemma value_of_total : forall acos pr d, rect d -> straight_pair pr d ->
  (forall c2 c3, pr = BarnsSqrtE c2 c3 -> match_ok pr d = false) -> exists col, value_of acos pr d = Ok col.
Proof.
  intros acos pr d R S B. unfold value_of, value_of0. rewrite (set_res_total pr d R). cbn [bind].
  destruct (match_ok pr d) eqn:M; cbn [negb]; [|eauto]. pose proof (match_nonempty pr d R M) as N.
  assert (T : forall c, In c (pair_parsers pr) -> exists col, the_column acos c d = Ok col).
  { intros c I. apply the_column_total; [assumption|assumption|]. intros l Il. now apply S. }
  destruct pr as [c1|c1 c2|c1|c1 c2|c1 c2 c3|c1 c2 c3|c2 c3]; cbn [raw_value pair_parsers In] in *.
  7: now specialize (B _ _ eq_refl).
  all: try (apply T; tauto).
  - destruct (T c1) as [x ->]; [tauto|]. destruct (T c2) as [y ->]; [tauto|]. cbn [bind]. eauto.
  - destruct (T c1) as [x ->]; [tauto|]. destruct (T c2) as [y ->]; [tauto|]. destruct (T c3) as [z ->]; [tauto|]. cbn [bind]. eauto.
Qed.

Lemma mul_self_sign : forall x, fsign_is false (fmul x x) \/ fmul x x = S754_nan.
Proof.
  intros [s|s| |s m e]; cbn; rewrite ?xorb_nilpotent; auto. left.
  apply (round_aux_sign false). lia.
Qed.
Lemma add_sign : forall x y, fsign_is false x \/ x = S754_nan -> fsign_is false y \/ y = S754_nan ->
  fsign_is false (fadd x y) \/ fadd x y = S754_nan.
Proof.
  intros x y Hx Hy.
  destruct x as [[]|[]| |[] m e]; destruct y as [[]|[]| |[] m' e']; cbn in Hx, Hy; try (destruct Hx; discriminate); try (destruct Hy; discriminate);
    try (cbn; auto; fail).
  left. unfold fadd, SFadd. cbn [cond_Zopp]. unfold binary_normalize.
  destruct (Zpos (fst (shl_align m e (Z.min e e'))) + Zpos (fst (shl_align m' e' (Z.min e e'))))%Z eqn:E; try lia.
  apply round_sign.
Qed.
Lemma pysqrt_total : forall x, fsign_is false x \/ x = S754_nan -> exists r, pysqrt x = Ok r.
Proof. intros [[]|[]| |[] m e] H; cbn in *; eauto; destruct H; discriminate. Qed.
Lemma add_bars_total : forall d u a b, length a = numrows d -> length b = numrows d -> exists c, add_bars d u a b = Ok c.
Proof.
  intros d u a b La Lb. unfold add_bars.
  match goal with |- context[map_res ?f ?l] => destruct (map_res_nth _ _ f l) as (ys & E & _) end.
  { intros i I. apply in_seq in I.
    destruct (nth_error_ex _ a i) as [v Ev]; [lia|]. destruct (nth_error_ex _ b i) as [e Ee]; [lia|].
    rewrite (proj2 (idx_ok _ _ _ _) Ev), (proj2 (idx_ok _ _ _ _) Ee). cbn [bind].
    assert (Q : forall p q, exists r, pysqrt (fadd (fmul p p) (fmul q q)) = Ok r).
    { intros p q. apply pysqrt_total, add_sign; apply mul_self_sign. }
    destruct v as [v|], e as [e|]; cbv zeta.
    1: destruct (Q v e) as [r ->]. 2: destruct (Q v fzero) as [r ->]. 3: destruct (Q fzero e) as [r ->].
    all: cbn [bind]; eauto. }
  rewrite E. cbn [bind]. eauto.
Qed.

Lemma error_of_total : forall acos pr d, rect d -> straight_pair pr d ->
  (forall c2 c3, pr = BarnsSqrtE c2 c3 -> match_ok pr d = false) -> exists col, error_of acos pr d = Ok col.
Proof.
  intros acos pr d R S B. unfold error_of, error_of0. rewrite (set_res_total pr d R). cbn [bind].
  assert (H : exists col, (if negb (match_ok pr d) then Ok (dummy_column d)
               else col <- raw_error no_energy acos pr d ;; Ok (absOrNone col)) = Ok col).
  2: destruct pr; eauto.
  destruct (match_ok pr d) eqn:M; cbn [negb]; [|eauto]. pose proof (match_nonempty pr d R M) as N.
  assert (T : forall c, In c (pair_parsers pr) -> exists col, the_column acos c d = Ok col).
  { intros c I. apply the_column_total; [assumption|assumption|]. intros l Il. now apply S. }
  assert (X : exists col, raw_error no_energy acos pr d = Ok col).
  2: { destruct X as [col ->]. cbn [bind]. eauto. }
  destruct pr as [c1|c1 c2|c1|c1 c2|c1 c2 c3|c1 c2 c3|c2 c3]; cbn [raw_error pair_parsers In] in *.
  - eauto.
  - destruct (T c2) as [y Ey]; [tauto|]. rewrite Ey. cbn [bind]. destruct (is_percent (c_unit y)); [|eauto].
    destruct (T c1) as [x Ex]; [tauto|]. rewrite Ex. cbn [bind]. apply the_column_length in Ex, Ey.
    destruct (percent_error_spec x y _ Ex Ey) as (cells & Ep & _). eauto.
  - destruct (T c1) as [x ->]; [tauto|]. cbn [bind]. eauto.
  - destruct (T c1) as [x ->]; [tauto|]. destruct (T c2) as [y ->]; [tauto|]. cbn [bind]. eauto.
  - destruct (T c1) as [x ->]; [tauto|]. destruct (T c2) as [y ->]; [tauto|]. destruct (T c3) as [z ->]; [tauto|]. cbn [bind]. eauto.
  - destruct (T c2) as [y Ey]; [tauto|]. destruct (T c3) as [z Ez]; [tauto|]. rewrite Ey, Ez. cbn [bind].
    destruct (_ || _).
    + destruct (T c1) as [x ->]; [tauto|]. cbn [bind]. apply add_bars_total; apply map_seq_length.
    + apply the_column_length in Ey, Ez. now apply add_bars_total.
  - now specialize (B _ _ eq_refl).
Qed.
