(** Simplification of a table of cross sections. *)
From Coq Require Import String List Ascii NArith ZArith Bool Arith Lia.
From Coq Require Import Floats.SpecFloat.
From Verif.Model Require Import Py PyFloat Utilities Dicts Particle Reaction Field Section Entry Columns Dataset.
From Verif.Spec Require Import Text Exfor Tables DataSets Codes Balance Document.
From Verif.Proofs Require Import StrLemmas FloatLemmas ReactionLemmas DictLemmas DataLemmas ProgLemmas ColumnLemmas SimplifyLemmas UnitLemmas ValueLemmas TableLemmas SimpleLemmas.
Import ListNotations.
Local Open Scope string_scope.
Local Open Scope list_scope.
Local Open Scope nat_scope.

Lemma lit_inj : forall a b, lit a = lit b -> a = b.
Proof. intros a b H. rewrite <- (string_of_list_ascii_of_string a), <- (string_of_list_ascii_of_string b). unfold lit in H. now rewrite H. Qed.

Definition full_table (heads : list heading) (rows : list (list (option float))) : table :=
  mkTable (map (fun h : heading => lit (fst h)) heads) (map (fun h : heading => Some (lit (snd h))) heads) (map (map as_cell) rows).

Lemma nth_error_map_eq : forall (A B : Type) (f : A -> B) l j, nth_error (map f l) j = option_map f (nth_error l j).
Proof. induction l as [|x l IH]; intros [|j]; cbn; auto. Qed.

Lemma full_rect : forall heads rows, Forall (fun row => length row = length heads) rows -> rect (full_table heads rows).
Proof.
  intros heads rows L. unfold rect, rectangular, full_table. cbn [t_labels t_units t_data]. rewrite !map_length. split; [reflexivity|]. split.
  - rewrite Forall_map. apply Forall_forall. intros; discriminate.
  - rewrite Forall_map. eapply Forall_impl; [|exact L]. cbn. intros row E. now rewrite map_length.
Qed.

(** ** Which columns a parser takes *)

Definition picks_head (c : colparser) (h : heading) : bool :=
  match cp_labels c, cp_units c with
  | Some ls, Some us => smem (lit (fst h)) ls && smem (lit (snd h)) us
  | _, _ => false
  end.
Definition closed_parser (c : colparser) : bool :=
  match cp_labels c, cp_units c with
  | Some ls, Some us => forallb (fun l => smem l (map lit reserved)) ls
  | _, _ => false
  end.

Lemma fits_iff : forall c heads rows j, closed_parser c = true ->
  fits c (full_table heads rows) j <-> exists h, nth_error heads j = Some h /\ picks_head c h = true.
Proof.
  intros c heads rows j. unfold closed_parser, picks_head, fits, column_fits, full_table. cbn [t_labels t_units].
  destruct (cp_labels c) as [ls|]; [|discriminate]. destruct (cp_units c) as [us|]; [|discriminate]. intros _.
  rewrite !nth_error_map_eq. destruct (nth_error heads j) as [[l u]|]; cbn [option_map fst snd].
  - split.
    + intros [(l' & E & H) H']. injection E as <-. destruct (H' us eq_refl) as (u' & E & I). injection E as <-.
      exists (l, u). split; [reflexivity|]. cbn [fst snd]. apply andb_true_iff. rewrite !smem_in. auto.
    + intros ((l' & u') & E & H). injection E as <- <-. cbn [fst snd] in H. apply andb_true_iff in H. rewrite !smem_in in H. destruct H as [H1 H2].
      split; [exists (lit l); split; [reflexivity|]; intros ls' E; now injection E as <-|].
      intros us' E. injection E as <-. exists (lit u). auto.
  - split; [intros [(l' & E & _) _]; discriminate|intros (h & E & _); discriminate].
Qed.
Lemma picks_reserved : forall c h, closed_parser c = true -> picks_head c h = true -> In (fst h) reserved.
Proof.
  intros c h. unfold closed_parser, picks_head. destruct (cp_labels c) as [ls|]; [|discriminate]. destruct (cp_units c) as [us|]; [|discriminate].
  intros C P. apply andb_true_iff in P. destruct P as [P _]. apply smem_in in P. rewrite forallb_forall in C. specialize (C _ P).
  apply smem_in in C. apply in_map_iff in C. destruct C as (s & E & I). apply lit_inj in E. now subst.
Qed.

(** The columns with a meaning, by kind: 0 energy, 1 value, 2 uncertainty. *)
Definition kinds := list (nat * heading).
Definition chosen (c : colparser) (K : kinds) : kinds := filter (fun k => picks_head c (snd k)) K.

Definition covers (heads : list heading) (K : kinds) : Prop :=
  (forall j h, In (j, h) K -> nth_error heads j = Some h) /\
  (forall j h, nth_error heads j = Some h -> In (fst h) reserved -> In (j, h) K).

Lemma chosen_fits : forall c heads rows K j, closed_parser c = true -> covers heads K ->
  fits c (full_table heads rows) j <-> exists h, In (j, h) (chosen c K).
Proof.
  intros c heads rows K j C [V1 V2]. rewrite (fits_iff _ _ _ _ C). unfold chosen. split.
  - intros (h & E & P). exists h. apply filter_In. split; [|exact P]. apply V2; [exact E|]. now apply (picks_reserved c).
  - intros (h & I). apply filter_In in I. destruct I as [I P]. exists h. split; [now apply V1|exact P].
Qed.

Lemma chosen_none : forall c heads rows K, rect (full_table heads rows) -> closed_parser c = true -> covers heads K ->
  chosen c K = [] -> found c (full_table heads rows) = false.
Proof.
  intros c heads rows K R C V E. apply (proj1 (proj2 (found_fits c _ R))). intros j F. apply (chosen_fits _ _ _ K _ C V) in F.
  destruct F as (h & I). rewrite E in I. contradiction.
Qed.
Lemma chosen_one : forall c heads rows K j h, rect (full_table heads rows) -> closed_parser c = true -> covers heads K ->
  chosen c K = [(j, h)] -> found c (full_table heads rows) = true /\ icol c (full_table heads rows) = Z.of_nat j /\
    nth_error heads j = Some h /\ fits c (full_table heads rows) j.
Proof.
  intros c heads rows K j h R C V E.
  assert (F : fits c (full_table heads rows) j) by (apply (chosen_fits _ _ _ K _ C V); exists h; rewrite E; now left).
  assert (X : found c (full_table heads rows) = true).
  { apply not_false_iff_true. intros X. apply (proj1 (proj1 (proj2 (found_fits c _ R)))) with (j := j) in X. contradiction. }
  split; [exact X|]. apply (proj1 (proj1 (found_fits c _ R))) in X. destruct X as (i & [Fi _] & I).
  apply (chosen_fits _ _ _ K _ C V) in Fi. destruct Fi as (h' & Ii). rewrite E in Ii. destruct Ii as [Ii|[]]. injection Ii as <- <-.
  split; [exact I|]. split; [|exact F]. apply (proj1 V). assert (Ij : In (j, h) (chosen c K)) by (rewrite E; now left).
  unfold chosen in Ij. now apply filter_In in Ij.
Qed.

(** ** Columns *)

Definition plain_parser (c : colparser) : Prop := cp_scale c = fl 1 0 /\ cp_offset c = S754_zero false /\ cp_angle c = false.

Lemma nth_error_ext : forall (A : Type) (l m : list A), (forall i, nth_error l i = nth_error m i) -> l = m.
Proof.
  induction l as [|x l IH]; intros [|y m] H; auto; try (specialize (H 0); discriminate).
  f_equal; [specialize (H 0); now injection H|]. apply IH. intros i. exact (H (S i)).
Qed.

Lemma plain_column : forall acos c heads rows K j l u f can, Forall (fun row => length row = length heads) rows ->
  closed_parser c = true -> plain_parser c -> covers heads K -> chosen c K = [(j, (l, u))] ->
  getConversion (Some (lit u)) = Ok (fl (fst f) (snd f), can) ->
  the_column acos c (full_table heads rows) =
    Ok (mkColumn (Some (lit l)) (Some can) (map (fun row => in_unit f (at_column row j)) rows)).
Proof.
  intros acos c heads rows K j l u f can L C (P1 & P2 & P3) V E Cv.
  assert (R := full_rect heads rows L). destruct (chosen_one _ _ _ _ _ _ R C V E) as (_ & I & N & F).
  unfold the_column. rewrite I. destruct (converted_column acos c _ j R F (fun l _ => or_introl P3)) as (l' & u' & f' & can' & col & El & Eu & Ec & Eg & C1 & C2 & C3 & C4).
  cbn [full_table t_labels t_units] in El, Eu. rewrite nth_error_map_eq, N in El, Eu. cbn [option_map fst snd] in El, Eu. injection El as <-. injection Eu as <-.
  rewrite Cv in Ec. injection Ec as <- <-. rewrite Eg. f_equal. destruct col as [cl cu cells]. cbn [c_label c_unit c_cells] in *. subst. f_equal.
  apply nth_error_ext. intros i. rewrite nth_error_map_eq. destruct (nth_error rows i) as [row|] eqn:Er; cbn [option_map].
  2:{ apply nth_error_None in Er. apply nth_error_None. rewrite C3. unfold numrows, full_table. cbn [t_data]. now rewrite map_length. }
  assert (Lr : length row = length heads) by (rewrite Forall_forall in L; apply L; now apply nth_error_In in Er).
  destruct (nth_error_ex _ row j) as [x Ex]; [rewrite Lr; now apply nth_error_lt in N|].
  rewrite (C4 i (map as_cell row) (as_cell x)).
  - unfold at_column, in_unit. rewrite Ex, P1, P2. now destruct x.
  - cbn [full_table t_data]. now rewrite nth_error_map_eq, Er.
  - now rewrite nth_error_map_eq, Ex.
Qed.

(** ** Condensing equal columns *)

Lemma first_some_same : forall (A : Type) (y : option A) l, (forall x, In x l -> x = None \/ x = y) -> In y l -> first_some l = y.
Proof.
  intros A y. induction l as [|x l IH]; intros H I; [contradiction|]. cbn [first_some]. destruct x as [x|].
  - destruct (H (Some x) (or_introl eq_refl)) as [E|E]; [discriminate|exact E].
  - destruct I as [<-|I].
    + apply first_some_none. intros z Iz. destruct (H z (or_intror Iz)); auto.
    + apply IH; [|exact I]. intros z Iz. apply H. now right.
Qed.

Lemma column_eq : forall c d, c_label c = c_label d -> c_unit c = c_unit d -> length (c_cells c) = length (c_cells d) ->
  (forall i, cell_of i c = cell_of i d) -> c = d.
Proof.
  intros [l u x] [l' u' y] E1 E2 L H. cbn in E1, E2, L. subst. f_equal. apply nth_error_ext. intros i. specialize (H i). unfold cell_of in H. cbn in H.
  destruct (nth_error x i) as [a|] eqn:Ex, (nth_error y i) as [b|] eqn:Ey; subst; try reflexivity.
  - apply nth_error_None in Ey. apply nth_error_lt in Ex. lia.
  - apply nth_error_None in Ex. apply nth_error_lt in Ey. lia.
Qed.

Lemma reduce_same : forall t v cols, length (c_cells v) = numrows t ->
  (forall c, In c cols -> c = dummy_column t \/ c = v) -> In v cols -> reduce_res condenseColumn cols = Ok v.
Proof.
  intros t v cols L H I.
  destruct (reduce_condense (numrows t) cols) as (c & E & Lc & El & Eu & Ei).
  - intros ->. contradiction.
  - apply Forall_forall. intros c Ic. destruct (H c Ic) as [-> | ->]; [apply dummy_length|exact L].
  - rewrite E. f_equal. apply column_eq.
    + rewrite El. apply first_some_same; [|now apply in_map]. intros x Ix. apply in_map_iff in Ix. destruct Ix as (c' & <- & Ic).
      destruct (H c' Ic) as [-> | ->]; auto.
    + rewrite Eu. apply first_some_same; [|now apply in_map]. intros x Ix. apply in_map_iff in Ix. destruct Ix as (c' & <- & Ic).
      destruct (H c' Ic) as [-> | ->]; auto.
    + lia.
    + intros i. rewrite Ei. apply first_some_same; [|now apply in_map]. intros x Ix. apply in_map_iff in Ix. destruct Ix as (c' & <- & Ic).
      destruct (H c' Ic) as [-> | ->]; [left; apply cell_dummy|auto].
Qed.

Lemma map_res_among : forall (A B : Type) (f : A -> res B) (P : B -> Prop) l, (forall x, In x l -> exists y, f x = Ok y /\ P y) ->
  exists ys, map_res f l = Ok ys /\ Forall2 (fun x y => f x = Ok y) l ys /\ Forall P ys.
Proof.
  intros A B f P. induction l as [|x l IH]; intros H; [exists []; auto|].
  destruct (H x (or_introl eq_refl)) as (y & E & Py). destruct IH as (ys & E' & F & Fp); [intros z I; apply H; now right|].
  exists (y :: ys). cbn [map_res]. rewrite E, E'. split; [reflexivity|]. split; constructor; auto.
Qed.
Lemma Forall2_in_l : forall (A B : Type) (R : A -> B -> Prop) l m, Forall2 R l m -> forall x, In x l -> exists y, In y m /\ R x y.
Proof.
  intros A B R l m F. induction F as [|x y l m H F IH]; intros z I; [contradiction|]. destruct I as [<-|I]; [exists y; split; [now left|exact H]|].
  destruct (IH z I) as (y' & I' & H'). exists y'. split; [now right|exact H'].
Qed.

Lemma columns_same : forall acos t ps v e, length (c_cells v) = numrows t -> length (c_cells e) = numrows t ->
  (forall p, In p ps -> value_of acos (snd p) t = Ok (dummy_column t) \/ value_of acos (snd p) t = Ok v) ->
  (exists p, In p ps /\ value_of acos (snd p) t = Ok v) ->
  (forall p, In p ps -> error_of acos (snd p) t = Ok (dummy_column t) \/ error_of acos (snd p) t = Ok e) ->
  (exists p, In p ps /\ error_of acos (snd p) t = Ok e) ->
  all_none (c_cells v) = false ->
  columns_of acos t ps = Ok (v, e, all_none (c_cells e)).
Proof.
  intros acos t ps v e Lv Le Hv (pv & Iv & Ev) He (pe & Ie & Ee) N. unfold columns_of.
  destruct (map_res_among _ _ (fun p => value_of acos (snd p) t) (fun c => c = dummy_column t \/ c = v) ps) as (vs & E & F & P).
  { intros p I. destruct (Hv p I) as [X|X]; rewrite X; eauto. }
  rewrite E. cbn [bind]. rewrite (reduce_same t v vs Lv).
  2:{ intros c I. rewrite Forall_forall in P. auto. }
  2:{ destruct (Forall2_in_l _ _ _ _ _ F pv Iv) as (y & Iy & Ey). cbn beta in Ey. rewrite Ev in Ey. injection Ey as ->. exact Iy. }
  cbn [bind]. clear E F P.
  destruct (map_res_among _ _ (fun p => error_of acos (snd p) t) (fun c => c = dummy_column t \/ c = e) ps) as (es & E & F & P).
  { intros p I. destruct (He p I) as [X|X]; rewrite X; eauto. }
  rewrite E. cbn [bind]. rewrite (reduce_same t e es Le).
  2:{ intros c I. rewrite Forall_forall in P. auto. }
  2:{ destruct (Forall2_in_l _ _ _ _ _ F pe Ie) as (y & Iy & Ey). cbn beta in Ey. rewrite Ee in Ey. injection Ey as ->. exact Iy. }
  cbn [bind]. now rewrite N.
Qed.

(** ** The parsers for incident energies and cross sections *)

Definition same_float (x y : float) : bool :=
  match x, y with
  | S754_zero s, S754_zero s' => Bool.eqb s s'
  | S754_finite s m e, S754_finite s' m' e' => Bool.eqb s s' && Pos.eqb m m' && Z.eqb e e'
  | _, _ => false
  end.
Lemma same_float_eq : forall x y, same_float x y = true -> x = y.
Proof.
  intros [s|s| |s m e] [s'|s'| |s' m' e']; cbn; try discriminate; intros H.
  - apply eqb_prop in H. now subst.
  - apply andb_true_iff in H. destruct H as [H H3]. apply andb_true_iff in H. destruct H as [H1 H2].
    apply eqb_prop in H1. apply Pos.eqb_eq in H2. apply Z.eqb_eq in H3. now subst.
Qed.
Definition plain_cp (c : colparser) : bool :=
  closed_parser c && same_float (cp_scale c) (fl 1 0) && same_float (cp_offset c) (S754_zero false) && negb (cp_angle c).
Lemma plain_cp_ok : forall c, plain_cp c = true -> closed_parser c = true /\ plain_parser c.
Proof.
  intros c H. unfold plain_cp in H. repeat (apply andb_true_iff in H; destruct H as [H ?]). split; [exact H|].
  split; [now apply same_float_eq|]. split; [now apply same_float_eq|]. now destruct (cp_angle c).
Qed.

Fixpoint same_bools (l m : list bool) : bool :=
  match l, m with
  | [], [] => true
  | x :: l, y :: m => Bool.eqb x y && same_bools l m
  | _, _ => false
  end.
Lemma same_bools_eq : forall l m, same_bools l m = true -> l = m.
Proof. induction l as [|x l IH]; intros [|y m] H; try discriminate; auto. cbn in H. apply andb_true_iff in H. destruct H as [H1 H2]. apply eqb_prop in H1. apply IH in H2. now subst. Qed.

(** The headings among [H] that [c] takes, as a list of truth values. *)
Definition takes (c : colparser) (H : list heading) (l : list bool) : bool := same_bools (map (picks_head c) H) l.
Definition takes_none (c : colparser) (H : list heading) : bool := closed_parser c && forallb (fun h => negb (picks_head c h)) H.

Definition ok_energy (H : list heading) (l : list bool) (pr : pair) : bool :=
  match pr with
  | MissingError c1 => plain_cp c1 && takes c1 H l
  | Independent c1 c2 => takes_none c1 H || takes_none c2 H
  | HighLow c1 c2 => takes_none c1 H && takes_none c2 H
  | HighMidLow c1 c2 c3 | AddErrorBars c1 c2 c3 => takes_none c1 H || (takes_none c2 H && takes_none c3 H)
  | BarnsSqrtE c2 _ => takes_none c2 H
  | ConstantPercent _ => false
  end.
Definition ok_value (H : list heading) (l le : list bool) (pr : pair) : bool :=
  match pr with
  | MissingError c1 => plain_cp c1 && takes c1 H l
  | Independent c1 c2 => plain_cp c1 && takes c1 H l && plain_cp c2 && takes c2 H le
  | HighLow c1 c2 => takes_none c1 H && takes_none c2 H
  | HighMidLow c1 c2 c3 | AddErrorBars c1 c2 c3 => takes_none c1 H || (takes_none c2 H && takes_none c3 H)
  | BarnsSqrtE c2 _ => takes_none c2 H
  | ConstantPercent _ => false
  end.

Definition energy_unit_names : list string := ["GEV"; "MEV"; "KEV"; "EV"; "MILLI-EV"; "MeV"].
Definition barn_unit_names : list string := ["B"; "MB"; "MICRO-B"; "barns"].
Definition error_units : list (option string) := None :: map Some ("PER-CENT" :: barn_unit_names).
Definition headings_of (eu du : string) (xu : option string) : list heading :=
  ("EN", eu) :: ("DATA", du) :: match xu with Some u => [("DATA-ERR", u)] | None => [] end.
Definition mask (l : list bool) (xu : option string) : list bool := match xu with Some _ => l | None => firstn 2 l end.

Lemma parsers_take : forallb (fun eu => forallb (fun du => forallb (fun xu =>
    let H := headings_of eu du xu in
    forallb (fun p => ok_energy H (mask [true; false; false] xu) (snd p)) incidentEnergyParserList &&
    forallb (fun p => ok_value H (mask [false; true; false] xu) (mask [false; false; true] xu) (snd p)) csDataParserList)
    error_units) barn_unit_names) energy_unit_names = true.
Proof. vm_compute. reflexivity. Qed.

Section Cross.
Context (acos : float -> option float) (heads : list heading) (rows : list (list (option float))).
Context (a b : nat) (f g : N * Z) (w : uncertainty) (eu du : string) (xu : option string).
Hypothesis L : Forall (fun row => length row = length heads) rows.

Let t := full_table heads rows.
Let H := headings_of eu du xu.
Let c := match error_column w with Some c => c | None => 0 end.
Let K : kinds := combine [a; b; c] H.
Hypothesis V : covers heads K.
Hypothesis Ef : getConversion (Some (lit eu)) = Ok (fl (fst f) (snd f), lit "MeV").
Hypothesis Eg : getConversion (Some (lit du)) = Ok (fl (fst g) (snd g), lit "barns").
Hypothesis Ew : match w, xu with
  | NotGiven, None => True
  | Absolute _ m x, Some u => getConversion (Some (lit u)) = Ok (fl m x, lit "barns")
  | Percent _, Some u => getConversion (Some (lit u)) = Ok (fl 1 0, lit "PER-CENT")
  | _, _ => False
  end.

Let R : rect t := full_rect heads rows L.

Definition energy_col : column := mkColumn (Some (lit "EN")) (Some (lit "MeV")) (map (energy_of a f) rows).
Definition value_col : column := mkColumn (Some (lit "DATA")) (Some (lit "barns")) (map (fun row => in_unit g (at_column row b)) rows).
Definition error_col : column := mkColumn (Some (lit "DATA-ERR")) (Some (lit "barns")) (map (uncertainty_of b g w) rows).

Lemma takes_none_found : forall cp, takes_none cp H = true -> found cp t = false.
Proof.
  intros cp N. apply andb_true_iff in N. destruct N as [N1 N2]. apply (chosen_none cp heads rows K R N1 V).
  unfold chosen, K. rewrite forallb_forall in N2. revert N2. generalize [a; b; c]. clear. induction H as [|h H' IH]; intros ps N2.
  - destruct ps; reflexivity.
  - destruct ps as [|p ps]; [reflexivity|]. cbn [combine filter snd]. specialize (N2 h (or_introl eq_refl)) as X. destruct (picks_head cp h); [discriminate|].
    apply IH. intros x I. apply N2. now right.
Qed.

Lemma takes_chosen : forall cp l, takes cp H l = true -> map (picks_head cp) H = l.
Proof. intros cp l T. now apply same_bools_eq. Qed.

Lemma energy_chosen : forall cp, takes cp H (mask [true; false; false] xu) = true -> chosen cp K = [(a, ("EN", eu))].
Proof.
  intros cp T. apply takes_chosen in T. unfold chosen, K. unfold H, headings_of, mask in *.
  destruct xu as [u|]; cbn [combine map filter snd firstn] in *; [injection T as T1 T2 T3; rewrite T3|injection T as T1 T2]; rewrite T1, T2; reflexivity.
Qed.
Lemma value_chosen : forall cp, takes cp H (mask [false; true; false] xu) = true -> chosen cp K = [(b, ("DATA", du))].
Proof.
  intros cp T. apply takes_chosen in T. unfold chosen, K. unfold H, headings_of, mask in *.
  destruct xu as [u|]; cbn [combine map filter snd firstn] in *; [injection T as T1 T2 T3; rewrite T3|injection T as T1 T2]; rewrite T1, T2; reflexivity.
Qed.
Lemma error_chosen : forall cp, takes cp H (mask [false; false; true] xu) = true ->
  chosen cp K = match xu with Some u => [(c, ("DATA-ERR", u))] | None => [] end.
Proof.
  intros cp T. apply takes_chosen in T. unfold chosen, K. unfold H, headings_of, mask in *.
  destruct xu as [u|]; cbn [combine map filter snd firstn] in *; [injection T as T1 T2 T3; rewrite T3|injection T as T1 T2]; rewrite T1, T2; reflexivity.
Qed.

Lemma energy_column : forall cp, plain_cp cp = true -> takes cp H (mask [true; false; false] xu) = true ->
  found cp t = true /\ the_column acos cp t = Ok energy_col.
Proof.
  intros cp P T. apply plain_cp_ok in P. destruct P as [C P]. apply energy_chosen in T. split.
  - exact (proj1 (chosen_one _ _ _ _ _ _ R C V T)).
  - exact (plain_column acos cp heads rows K a "EN" eu f (lit "MeV") L C P V T Ef).
Qed.
Lemma value_column : forall cp, plain_cp cp = true -> takes cp H (mask [false; true; false] xu) = true ->
  found cp t = true /\ the_column acos cp t = Ok value_col.
Proof.
  intros cp P T. apply plain_cp_ok in P. destruct P as [C P]. apply value_chosen in T. split.
  - exact (proj1 (chosen_one _ _ _ _ _ _ R C V T)).
  - exact (plain_column acos cp heads rows K b "DATA" du g (lit "barns") L C P V T Eg).
Qed.

Lemma value_of_eq : forall pr, value_of acos pr t = if negb (match_ok pr t) then Ok (dummy_column t) else raw_value no_energy acos pr t.
Proof. intros pr. unfold value_of, value_of0. now rewrite (set_res_total pr t R). Qed.
Lemma error_of_eq : forall pr, error_of acos pr t = match pr with MissingError _ => Ok (dummy_column t) | _ =>
  if negb (match_ok pr t) then Ok (dummy_column t) else (col <- raw_error no_energy acos pr t ;; Ok (absOrNone col)) end.
Proof. intros pr. unfold error_of, error_of0. now rewrite (set_res_total pr t R). Qed.

Lemma ok_energy_match : forall l pr, ok_energy H l pr = true -> (exists c1, pr = MissingError c1 /\ plain_cp c1 = true /\ takes c1 H l = true) \/ match_ok pr t = false.
Proof.
  intros l pr O. destruct pr as [c1|c1 c2|c1|c1 c2|c1 c2 c3|c1 c2 c3|c2 c3]; cbn [ok_energy] in O; [|right; cbn [match_ok]..].
  - left. apply andb_true_iff in O. eauto.
  - apply orb_true_iff in O. destruct O as [O|O]; apply takes_none_found in O; rewrite O; [reflexivity|apply andb_false_r].
  - discriminate.
  - apply andb_true_iff in O. destruct O as [O1 O2]. apply takes_none_found in O1, O2. now rewrite O1, O2.
  - apply orb_true_iff in O. destruct O as [O|O]; [apply takes_none_found in O; now rewrite O|].
    apply andb_true_iff in O. destruct O as [O1 O2]. apply takes_none_found in O1, O2. rewrite O1, O2. apply andb_false_r.
  - apply orb_true_iff in O. destruct O as [O|O]; [apply takes_none_found in O; now rewrite O|].
    apply andb_true_iff in O. destruct O as [O1 O2]. apply takes_none_found in O1, O2. rewrite O1, O2. apply andb_false_r.
  - now apply takes_none_found in O.
Qed.

Lemma energy_parser : forall pr, ok_energy H (mask [true; false; false] xu) pr = true ->
  (value_of acos pr t = Ok (dummy_column t) \/ value_of acos pr t = Ok energy_col) /\ error_of acos pr t = Ok (dummy_column t) /\
  (forall c1, pr = MissingError c1 -> value_of acos pr t = Ok energy_col).
Proof.
  intros pr O. rewrite value_of_eq, error_of_eq. destruct (ok_energy_match _ _ O) as [(c1 & -> & P & T)|M].
  - destruct (energy_column c1 P T) as [F E]. cbn [match_ok raw_value]. rewrite F. cbn [negb]. rewrite E. auto.
  - rewrite M. cbn [negb]. split; [auto|]. split; [now destruct pr|]. intros c1 ->. cbn [ok_energy] in O. apply andb_true_iff in O.
    destruct (energy_column c1 (proj1 O) (proj2 O)) as [F E]. cbn [match_ok] in M. congruence.
Qed.

Lemma error_column_read : forall c1 c2, plain_cp c1 = true -> takes c1 H (mask [false; true; false] xu) = true ->
  plain_cp c2 = true -> takes c2 H (mask [false; false; true] xu) = true ->
  match xu with
  | Some _ => error_of acos (Independent c1 c2) t = Ok error_col /\ value_of acos (Independent c1 c2) t = Ok value_col
  | None => error_of acos (Independent c1 c2) t = Ok (dummy_column t) /\ value_of acos (Independent c1 c2) t = Ok (dummy_column t)
  end.
Proof.
  intros c1 c2 P1 T1 P2 T2. rewrite error_of_eq, value_of_eq. destruct (value_column c1 P1 T1) as [F1 E1].
  apply plain_cp_ok in P2. destruct P2 as [C2 P2]. apply error_chosen in T2. cbn [match_ok raw_error raw_value]. rewrite F1, E1.
  destruct xu as [u|] eqn:Exu.
  2:{ assert (F2 := chosen_none c2 heads rows K R C2 V T2). fold t in F2. rewrite F2. cbn [andb negb]. auto. }
  destruct (chosen_one _ _ _ _ _ _ R C2 V T2) as (F2 & _). fold t in F2. rewrite F2. cbn [andb negb]. split; [|reflexivity].
  unfold error_col. destruct w as [|cc m x|cc]; [contradiction|..]; cbn [error_column] in c.
  - pose proof (plain_column acos c2 heads rows K cc "DATA-ERR" u (m, x) (lit "barns") L C2 P2 V T2 Ew) as E2. fold t in E2. rewrite E2.
    cbn [bind c_unit]. change (is_percent (Some (lit "barns"))) with false. cbn [bind]. unfold absOrNone. cbn [c_label c_unit c_cells].
    rewrite map_map. reflexivity.
  - pose proof (plain_column acos c2 heads rows K cc "DATA-ERR" u (1%N, 0%Z) (lit "PER-CENT") L C2 P2 V T2 Ew) as E2. fold t in E2. rewrite E2.
    cbn [bind c_unit]. change (is_percent (Some (lit "PER-CENT"))) with true. cbn [bind].
    match goal with |- context[percent_error ?x ?y] => destruct (percent_error_spec x y (length rows)) as (cells & Ep & Lc & Nc) end.
    + unfold value_col. cbn [c_cells]. apply map_length.
    + cbn [c_cells]. apply map_length.
    + rewrite Ep. cbn [bind c_label c_unit value_col]. unfold absOrNone. cbn [c_label c_unit c_cells]. do 2 f_equal.
      apply nth_error_ext. intros i. rewrite !nth_error_map_eq. destruct (nth_error rows i) as [row|] eqn:Er; cbn [option_map].
      * rewrite (Nc i (in_unit g (at_column row b)) (in_unit (1%N, 0%Z) (at_column row cc))).
        -- reflexivity.
        -- unfold value_col. cbn [c_cells]. now rewrite nth_error_map_eq, Er.
        -- cbn [c_cells]. now rewrite nth_error_map_eq, Er.
      * apply nth_error_None in Er. rewrite <- Lc in Er. apply nth_error_None in Er. now rewrite Er.
Qed.

Lemma value_parser : forall pr, ok_value H (mask [false; true; false] xu) (mask [false; false; true] xu) pr = true ->
  (value_of acos pr t = Ok (dummy_column t) \/ value_of acos pr t = Ok value_col) /\
  (error_of acos pr t = Ok (dummy_column t) \/ error_of acos pr t = Ok (if xu then error_col else dummy_column t)) /\
  (forall c1, pr = MissingError c1 -> value_of acos pr t = Ok value_col) /\
  (forall c1 c2, pr = Independent c1 c2 -> error_of acos pr t = Ok (if xu then error_col else dummy_column t)).
Proof.
  intros pr O. destruct pr as [c1|c1 c2|c1|c1 c2|c1 c2 c3|c1 c2 c3|c2 c3].
  - cbn [ok_value] in O. apply andb_true_iff in O. destruct (value_column c1 (proj1 O) (proj2 O)) as [F E].
    rewrite value_of_eq, error_of_eq. cbn [match_ok raw_value]. rewrite F. cbn [negb]. rewrite E. repeat split; auto; discriminate.
  - cbn [ok_value] in O. apply andb_true_iff in O. destruct O as [O T2]. apply andb_true_iff in O. destruct O as [O P2].
    apply andb_true_iff in O. destruct O as [P1 T1]. pose proof (error_column_read c1 c2 P1 T1 P2 T2) as X.
    destruct xu as [u|]; destruct X as [X1 X2]; repeat split; auto; discriminate.
  - discriminate.
  - destruct (ok_energy_match [] (HighLow c1 c2) O) as [(? & X & _)|M]; [discriminate|]. rewrite value_of_eq, error_of_eq, M. repeat split; auto; discriminate.
  - destruct (ok_energy_match [] (HighMidLow c1 c2 c3) O) as [(? & X & _)|M]; [discriminate|]. rewrite value_of_eq, error_of_eq, M. repeat split; auto; discriminate.
  - destruct (ok_energy_match [] (AddErrorBars c1 c2 c3) O) as [(? & X & _)|M]; [discriminate|]. rewrite value_of_eq, error_of_eq, M. repeat split; auto; discriminate.
  - destruct (ok_energy_match [] (BarnsSqrtE c2 c3) O) as [(? & X & _)|M]; [discriminate|]. rewrite value_of_eq, error_of_eq, M. repeat split; auto; discriminate.
Qed.
End Cross.

(** ** The simplified table *)

Lemma unit_energy : forall u f, In (u, "MeV", f) unit_table -> In u energy_unit_names.
Proof.
  intros u f I. assert (X : forall e, In e unit_table -> snd (fst e) = "MeV" -> In (fst (fst e)) energy_unit_names).
  { rewrite <- Forall_forall. unfold unit_table. repeat (apply Forall_cons; [cbn [fst snd]; intros X; try discriminate X; repeat first [left; reflexivity|right]|]). apply Forall_nil. }
  exact (X _ I eq_refl).
Qed.
Lemma unit_barns : forall u f, In (u, "barns", f) unit_table -> In u barn_unit_names.
Proof.
  intros u f I. assert (X : forall e, In e unit_table -> snd (fst e) = "barns" -> In (fst (fst e)) barn_unit_names).
  { rewrite <- Forall_forall. unfold unit_table. repeat (apply Forall_cons; [cbn [fst snd]; intros X; try discriminate X; repeat first [left; reflexivity|right]|]). apply Forall_nil. }
  exact (X _ I eq_refl).
Qed.

Lemma existsb_all_none : forall (A : Type) (h : A -> option float) l,
  all_none (map h l) = negb (existsb (fun x => match h x with Some _ => true | None => false end) l).
Proof. unfold all_none. induction l as [|x l IH]; [reflexivity|]. cbn [map forallb existsb]. rewrite IH. now destruct (h x). Qed.

Lemma map_seq_nth : forall (A B : Type) (h : nat -> B) (k : A -> B) l, (forall i x, nth_error l i = Some x -> h i = k x) -> map h (seq 0 (length l)) = map k l.
Proof.
  intros A B h k l E. apply nth_error_ext. intros i. rewrite !nth_error_map_eq. destruct (nth_error l i) as [x|] eqn:X.
  - rewrite (nth_error_nth' _ 0) by (rewrite seq_length; now apply nth_error_lt in X). rewrite seq_nth by (now apply nth_error_lt in X). cbn. f_equal. now apply E.
  - apply nth_error_None in X. assert (Y : nth_error (seq 0 (length l)) i = None) by (apply nth_error_None; now rewrite seq_length). now rewrite Y.
Qed.

Lemma cell_of_map : forall (A : Type) (h : A -> option float) l u (rows : list A) i row, nth_error rows i = Some row ->
  cell_of i (mkColumn l u (map h rows)) = h row.
Proof. intros A h l u rows i row E. unfold cell_of. cbn [c_cells]. now rewrite nth_error_map_eq, E. Qed.

Lemma cross_simplified : forall acos d heads rows a f b g w,
  Forall (fun row => length row = length heads) rows -> cross_section_columns heads a f b g w ->
  (exists row, In row rows /\ at_column row a <> None) -> (exists row, In row rows /\ at_column row b <> None) ->
  ds_simplified d = false -> ds_class_of d = CrossSection -> ds_table d = full_table heads rows ->
  simplified acos false false d = Ok (set_table d (simplified_table rows a f b g w) true).
Proof.
  intros acos d heads rows a f b g w L [(eu & Na & Ua) (du & Nb & Ub) Hw Ho] (ra & Ia & Xa) (rb & Ib & Xb) S C T.
  destruct (simplified_spec acos false false d S) as [E _]; [rewrite C; discriminate|]. rewrite E, C, T. clear E.
  assert (exists xu, In xu error_units /\ match w with NotGiven => xu = None | Absolute c m x => exists u, xu = Some u /\ nth_error heads c = Some ("DATA-ERR", u) /\ In (u, "barns", (m, x)) unit_table
            | Percent c => xu = Some "PER-CENT" /\ nth_error heads c = Some ("DATA-ERR", "PER-CENT") end) as (xu & Ix & Hx).
  { destruct w as [|c m x|c].
    - exists None. split; [now left|reflexivity].
    - destruct Hw as (u & N & I). exists (Some u). split; [|eauto]. right. apply in_map. right. now apply (unit_barns u (m, x)).
    - exists (Some "PER-CENT"). split; [right; now left|auto]. }
  assert (V : covers heads (combine [a; b; match error_column w with Some c => c | None => 0 end] (headings_of eu du xu))).
  { split.
    - intros j h I. unfold headings_of in I. destruct w as [|c m x|c]; cbn [error_column] in *.
      + subst xu. cbn [combine In] in I. destruct I as [I|[I|[]]]; injection I as <- <-; assumption.
      + destruct Hx as (u & -> & N & _). cbn [combine In] in I. destruct I as [I|[I|[I|[]]]]; injection I as <- <-; assumption.
      + destruct Hx as (-> & N). cbn [combine In] in I. destruct I as [I|[I|[I|[]]]]; injection I as <- <-; assumption.
    - intros j [l u] N I. cbn [fst] in I. unfold headings_of. destruct (Ho j l u N I) as [->|[->|Ej]].
      + rewrite Na in N. injection N as <- <-. now left.
      + rewrite Nb in N. injection N as <- <-. right. now left.
      + destruct w as [|c m x|c]; cbn [error_column] in *; [discriminate|..]; injection Ej as ->.
        * destruct Hx as (u' & -> & N' & _). rewrite N in N'. injection N' as -> ->. right. right. now left.
        * destruct Hx as (-> & N'). rewrite N in N'. injection N' as -> ->. right. right. now left. }
  assert (Ef : getConversion (Some (lit eu)) = Ok (fl (fst f) (snd f), lit "MeV")) by (destruct f; now apply conversion_listed).
  assert (Eg : getConversion (Some (lit du)) = Ok (fl (fst g) (snd g), lit "barns")) by (destruct g; now apply conversion_listed).
  assert (Ew : match w, xu with
    | NotGiven, None => True
    | Absolute _ m x, Some u => getConversion (Some (lit u)) = Ok (fl m x, lit "barns")
    | Percent _, Some u => getConversion (Some (lit u)) = Ok (fl 1 0, lit "PER-CENT")
    | _, _ => False
    end).
  { destruct w as [|c m x|c].
    - subst xu. exact I.
    - destruct Hx as (u & -> & _ & I). now apply conversion_listed.
    - destruct Hx as (-> & _). vm_compute. reflexivity. }
  assert (PT := parsers_take). rewrite forallb_forall in PT. specialize (PT eu (unit_energy _ _ Ua)). rewrite forallb_forall in PT.
  specialize (PT du (unit_barns _ _ Ub)). rewrite forallb_forall in PT. specialize (PT xu Ix). cbv zeta in PT.
  apply andb_true_iff in PT. destruct PT as [PE PV]. rewrite forallb_forall in PE, PV.
  set (t := full_table heads rows).
  assert (EE : columns_of acos t incidentEnergyParserList = Ok (energy_col rows a f, dummy_column t, true)).
  { replace true with (all_none (c_cells (dummy_column t))) by (apply all_none_cells; intros; apply cell_dummy).
    assert (X : forall p, In p incidentEnergyParserList -> _) by (intros p Ip; exact (energy_parser acos heads rows a b f w eu du xu L V Ef Ew (snd p) (PE p Ip))).
    apply columns_same.
    - unfold numrows, t, full_table, energy_col. cbn [t_data c_cells]. now rewrite !map_length.
    - apply dummy_length.
    - intros p Ip. apply (proj1 (X p Ip)).
    - assert (Y : exists p c1, In p incidentEnergyParserList /\ snd p = MissingError c1) by (eexists; eexists; split; [do 5 right; left; reflexivity|reflexivity]).
      destruct Y as (p & c1 & Ip & Ep). exists p. split; [exact Ip|]. exact (proj2 (proj2 (X p Ip)) c1 Ep).
    - intros p Ip. left. apply (proj1 (proj2 (X p Ip))).
    - assert (Y : exists p, In p incidentEnergyParserList) by (eexists; left; reflexivity). destruct Y as (p & Ip).
      exists p. split; [exact Ip|]. apply (proj1 (proj2 (X p Ip))).
    - unfold energy_col. cbn [c_cells]. rewrite existsb_all_none. apply negb_false_iff. apply existsb_exists. exists ra. split; [exact Ia|].
      unfold energy_of, in_unit. destruct (at_column ra a); [reflexivity|congruence]. }
  set (e := if xu then error_col rows b g w else dummy_column t).
  assert (EV : columns_of acos t csDataParserList = Ok (value_col rows b g, e, all_none (c_cells e))).
  { assert (X : forall p, In p csDataParserList -> _) by (intros p Ip; exact (value_parser acos heads rows a b g w eu du xu L V Eg Ew (snd p) (PV p Ip))).
    apply columns_same.
    - unfold numrows, t, full_table, value_col. cbn [t_data c_cells]. now rewrite !map_length.
    - subst e. destruct xu; [|apply dummy_length]. unfold numrows, t, full_table, error_col. cbn [t_data c_cells]. now rewrite !map_length.
    - intros p Ip. apply (proj1 (X p Ip)).
    - assert (Y : exists p c1, In p csDataParserList /\ snd p = MissingError c1) by (eexists; eexists; split; [do 5 right; left; reflexivity|reflexivity]).
      destruct Y as (p & c1 & Ip & Ep). exists p. split; [exact Ip|]. exact (proj1 (proj2 (proj2 (X p Ip))) c1 Ep).
    - intros p Ip. apply (proj1 (proj2 (X p Ip))).
    - assert (Y : exists p c1 c2, In p csDataParserList /\ snd p = Independent c1 c2) by (eexists; eexists; eexists; split; [left; reflexivity|reflexivity]).
      destruct Y as (p & c1 & c2 & Ip & Ep). exists p. split; [exact Ip|]. exact (proj2 (proj2 (proj2 (X p Ip))) c1 c2 Ep).
    - unfold value_col. cbn [c_cells]. rewrite existsb_all_none. apply negb_false_iff. apply existsb_exists. exists rb. split; [exact Ib|].
      unfold in_unit. destruct (at_column rb b); [reflexivity|congruence]. }
  cbn [parser_map map_res fst snd]. rewrite EE, EV. cbn [bind andb negb].
  do 2 f_equal. unfold final_table, simplified_table, with_error. cbn [map fst snd filter cs_none negb orb].
  assert (Ge : negb (all_none (c_cells e)) = existsb (fun row => match uncertainty_of b g w row with Some _ => true | None => false end) rows).
  { subst e. destruct xu as [u|].
    - unfold error_col. cbn [c_cells]. now rewrite existsb_all_none, negb_involutive.
    - destruct w as [|c m x|c]; [|contradiction..]. replace (all_none (c_cells (dummy_column t))) with true by (symmetry; apply all_none_cells; intros; apply cell_dummy).
      cbn [negb]. symmetry. apply not_true_iff_false. intros Z. apply existsb_exists in Z. destruct Z as (? & _ & Z). discriminate. }
  rewrite <- Ge. unfold cs_none. cbn [snd]. rewrite !orb_false_r.
  destruct (all_none (c_cells e)) eqn:An; cbn [negb app map fst].
  - f_equal. unfold t, numrows, full_table. cbn [t_data]. rewrite map_length. apply map_seq_nth. intros i row N.
    unfold final_row, with_error. cbn [map filter cs_none snd negb orb app cs_value fst].
    unfold energy_col, value_col. now rewrite !(cell_of_map _ _ _ _ rows i row N).
  - assert (Xu : exists u, xu = Some u).
    { subst e. destruct xu as [u|]; [eauto|]. exfalso. apply not_true_iff_false in An. apply An, all_none_cells. intros; apply cell_dummy. }
    destruct Xu as (u & Eu). subst e xu. cbv iota in An |- *. f_equal.
    unfold t, numrows, full_table. cbn [t_data]. rewrite map_length. apply map_seq_nth. intros i row N.
    unfold final_row, with_error, error_cell. cbn [map filter cs_none snd negb orb app cs_value cs_error fst].
    unfold energy_col, value_col, error_col. now rewrite !(cell_of_map _ _ _ _ rows i row N).
Qed.
