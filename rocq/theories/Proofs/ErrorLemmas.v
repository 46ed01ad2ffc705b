(** Percent errors, error bars, B*RT-EV, and the ways getSimplified fails. *)
From Coq Require Import String List Ascii NArith ZArith Bool Arith Lia.
From Coq Require Import Floats.SpecFloat.
From Verif.Model Require Import Py PyFloat Utilities Dicts Particle Reaction Field Section Entry Columns Dataset.
From Verif.Spec Require Import Text Tables Exfor DataSets.
From Verif.Proofs Require Import StrLemmas FloatLemmas ReactionLemmas DictLemmas BibLemmas DataLemmas ProgLemmas ColumnLemmas SimplifyLemmas UnitLemmas ValueLemmas TableLemmas SimpleLemmas.
Import ListNotations.
Local Open Scope string_scope.
Local Open Scope list_scope.
Local Open Scope nat_scope.

Lemma no_cosine_straight : forall c d j l, no_cosine c d j -> nth_error (t_labels d) j = Some l -> straight c l.
Proof.
  intros c d j l [H|H] E; [now left|]. right. destruct (contains (lit "COS") l) eqn:C; [|reflexivity].
  exfalso. apply (H l E). apply contains_mentions in C. exact C.
Qed.

Lemma find_conversion_range : forall maps u, snd (find_conversion maps u) = u \/ In (snd (find_conversion maps u)) (map fst maps).
Proof.
  induction maps as [|[c m] maps IH]; intros u; cbn [find_conversion]; [now left|].
  destruct (dget str_eqb u m); [right; now left|]. destruct (IH u); [now left|right; now right].
Qed.
Lemma percent_unit : forall u f c, getConversion (Some u) = Ok (f, c) -> (c = PERCENT <-> u = PERCENT) /\ (u = PERCENT -> f = f1).
Proof.
  intros u f c G. change (Ok (find_conversion unit_map_of_maps u) = Ok (f, c)) in G.
  assert (G' : find_conversion unit_map_of_maps u = (f, c)) by congruence. clear G. rename G' into G.
  assert (P : find_conversion unit_map_of_maps PERCENT = (f1, PERCENT)) by (vm_compute; reflexivity).
  split; [split|].
  - intros ->. destruct (find_conversion_range unit_map_of_maps u) as [H|H]; rewrite G in H; cbn [snd] in H; [now symmetry|].
    exfalso. cbn in H. repeat (destruct H as [H|H]; [discriminate H|]). contradiction.
  - intros ->. rewrite P in G. now injection G.
  - intros ->. rewrite P in G. now injection G.
Qed.
Lemma is_percent_iff : forall u, is_percent (Some u) = true <-> u = PERCENT.
Proof. intros u. cbn [is_percent]. apply str_eqb_eq. Qed.

(** The column a parser finds in a good table. *)
Lemma located_column : forall acos c d j, table_ok d -> first_such (suits c d) j -> no_cosine c d j ->
  exists u f can col, nth_error (t_units d) j = Some (Some u) /\ getConversion (Some u) = Ok (f, can) /\
    the_column acos c d = Ok col /\ found c d = true /\ c_unit col = Some can /\ length (c_cells col) = numrows d /\
    forall i row x, nth_error (t_data d) i = Some row -> nth_error row j = Some x -> at_row i (c_cells col) = converted c f (number x).
Proof.
  intros acos c d j T F N. destruct (found_fits c d T) as (F1 & _).
  assert (Hf : found c d = true).
  { destruct (proj1 (firstMatch_iff c d (proj1 T)) j) as [_ H]. unfold found, icol. rewrite (H F). apply Z.leb_le. lia. }
  destruct (proj1 F1 Hf) as (j' & F' & Ej). assert (j' = j); [|subst j'].
  { destruct F as [Fa Fb], F' as [Fa' Fb']. destruct (Nat.lt_trichotomy j j') as [L|[L|L]]; [|now symmetry|].
    - exfalso. now apply (Fb' j L). - exfalso. now apply (Fb j' L). }
  destruct (converted_column acos c d j T (proj1 F)) as (l & u & f & can & col & El & Eu & G & E & Lb & Un & Ln & Ce).
  { intros l El. eapply no_cosine_straight; eassumption. }
  exists u, f, can, col. split; [assumption|]. split; [assumption|]. split; [unfold the_column; now rewrite Ej|].
  split; [assumption|]. split; [assumption|]. split; [assumption|].
  intros i row x Er Ex. unfold at_row. rewrite (Ce i row x Er Ex). now destruct x.
Qed.

Lemma at_row_absOrNone : forall c i, at_row i (c_cells (absOrNone c)) = magnitude (at_row i (c_cells c)).
Proof. intros c i. unfold at_row, absOrNone. cbn [c_cells]. rewrite nth_error_map. now destruct (nth_error (c_cells c) i). Qed.

Lemma independent_errors : forall acos id c1 c2 d s s' j1 j2, table_ok d ->
  first_such (suits c1 d) j1 -> first_such (suits c2 d) j2 -> no_cosine c1 d j1 -> no_cosine c2 d j2 ->
  exists u f can val err, nth_error (t_units d) j2 = Some (Some u) /\ getConversion (Some u) = Ok (f, can) /\
    fst (run (getValue acos (id, Independent c1 c2) d) s) = Ok val /\ fst (run (getError acos (id, Independent c1 c2) d) s') = Ok err /\
    (u = PERCENT -> c_unit err = c_unit val /\
       forall i row x, nth_error (t_data d) i = Some row -> nth_error row j2 = Some x ->
         at_row i (c_cells err) = magnitude (percent (at_row i (c_cells val)) (converted c2 (fl 1 0) (number x)))) /\
    (u <> PERCENT -> c_unit err = Some can /\
       forall i row x, nth_error (t_data d) i = Some row -> nth_error row j2 = Some x ->
         at_row i (c_cells err) = magnitude (converted c2 f (number x))).
Proof.
  intros acos id c1 c2 d s s' j1 j2 T F1 F2 N1 N2.
  destruct (located_column acos c1 d j1 T F1 N1) as (u1 & f1' & can1 & v & Eu1 & G1 & E1 & Fo1 & U1 & L1 & C1).
  destruct (located_column acos c2 d j2 T F2 N2) as (u & f & can & e & Eu & G & E2 & Fo2 & U2 & L2 & C2).
  rewrite run_getValue, run_getError. cbn [snd]. unfold value_of, value_of0, error_of, error_of0.
  rewrite (set_res_total _ d T). cbn [bind match_ok]. rewrite Fo1, Fo2. cbn [andb negb raw_value raw_error].
  rewrite E1, E2. cbn [bind]. rewrite U2. destruct (percent_unit u f can G) as [P1 P2].
  destruct (is_percent (Some can)) eqn:P.
  - apply is_percent_iff in P. destruct (percent_error_spec v e _ L1 L2) as (cells & Ep & Lc & Cc). rewrite Ep. cbn [bind].
    exists u, f, can, v, (absOrNone (mkColumn (c_label e) (c_unit v) cells)).
    split; [assumption|]. split; [assumption|]. split; [reflexivity|]. split; [reflexivity|]. split.
    + intros Hu. split; [reflexivity|]. intros i row x Er Ex. rewrite at_row_absOrNone. cbn [c_cells]. f_equal.
      specialize (C2 i row x Er Ex). rewrite (P2 Hu) in C2. change (fl 1 0) with f1. rewrite <- C2. unfold at_row.
      pose proof (nth_error_lt _ _ _ _ Er) as Li.
      destruct (nth_error_ex _ (c_cells v) i) as [a Ea]; [unfold numrows in L1; lia|].
      destruct (nth_error_ex _ (c_cells e) i) as [b Eb]; [unfold numrows in L2; lia|].
      rewrite (Cc i a b Ea Eb), Ea, Eb. reflexivity.
    + intros Hu. exfalso. apply Hu. now apply P1.
  - cbn [bind]. exists u, f, can, v, (absOrNone e). split; [assumption|]. split; [assumption|]. split; [reflexivity|]. split; [reflexivity|]. split.
    + intros Hu. exfalso. apply P1 in Hu. subst can. assert (X : is_percent (Some PERCENT) = true) by now apply is_percent_iff. congruence.
    + intros _. split; [exact U2|]. intros i row x Er Ex. rewrite at_row_absOrNone. now rewrite (C2 i row x Er Ex).
Qed.

(** ** Error bars *)

Lemma add_bars_spec : forall d u a b, length a = numrows d -> length b = numrows d ->
  exists col, add_bars d u a b = Ok col /\ c_unit col = u /\ forall i, i < numrows d -> at_row i (c_cells col) = quadrature (at_row i a) (at_row i b).
Proof.
  intros d u a b La Lb. unfold add_bars.
  match goal with |- context[map_res ?f ?l] => destruct (map_res_nth _ _ f l) as (ys & E & Ly & Ny) end.
  { intros i I. apply in_seq in I.
    destruct (nth_error_ex _ a i) as [v Ev]; [lia|]. destruct (nth_error_ex _ b i) as [e Ee]; [lia|].
    rewrite (proj2 (idx_ok _ _ _ _) Ev), (proj2 (idx_ok _ _ _ _) Ee). cbn [bind].
    assert (Q : forall p q, exists r, pysqrt (fadd (fmul p p) (fmul q q)) = Ok r).
    { intros p q. apply pysqrt_total, add_sign; apply mul_self_sign. }
    destruct v as [v|], e as [e|]; cbv zeta.
    1: destruct (Q v e) as [r ->]. 2: destruct (Q v fzero) as [r ->]. 3: destruct (Q fzero e) as [r ->].
    all: cbn [bind]; eauto. }
  rewrite E. cbn [bind]. eexists. split; [reflexivity|]. split; [reflexivity|]. intros i Hi. cbn [c_cells].
  assert (I : nth_error (seq 0 (numrows d)) i = Some i).
  { rewrite (nth_error_nth' _ 0) by (rewrite seq_length; lia). f_equal. rewrite seq_nth by lia. lia. }
  destruct (Ny i i I) as (y & Ey & Ny'). unfold at_row. rewrite Ny'.
  destruct (nth_error_ex _ a i) as [v Ev]; [lia|]. destruct (nth_error_ex _ b i) as [e Ee]; [lia|].
  rewrite (proj2 (idx_ok _ _ _ _) Ev), (proj2 (idx_ok _ _ _ _) Ee) in Ey. cbn [bind] in Ey. rewrite Ev, Ee.
  assert (Q : forall p q r, pysqrt (fadd (fmul p p) (fmul q q)) = Ok r -> r = fsqrt (fadd (fmul p p) (fmul q q))).
  { intros p q r H. destruct (fadd (fmul p p) (fmul q q)) as [[]|[]| |[] m x]; cbn [pysqrt] in H; congruence. }
  destruct v as [v|], e as [e|]; cbv zeta in Ey; [..|injection Ey as <-; reflexivity];
    apply bind_ok in Ey; destruct Ey as (r & Er & Ey); injection Ey as <-; apply Q in Er; subst r; reflexivity.
Qed.
Lemma at_row_scaled : forall d col1 c i, length col1 = numrows d -> length c = numrows d -> i < numrows d ->
  at_row i (scaled_by_value d col1 c) = percent (at_row i col1) (at_row i c).
Proof.
  intros d col1 c i L1 L2 Hi. unfold at_row, scaled_by_value. rewrite nth_error_map_seq by assumption.
  destruct (nth_error_ex _ col1 i) as [v ->]; [lia|]. destruct (nth_error_ex _ c i) as [e ->]; [lia|]. now destruct v, e.
Qed.

Lemma bars : forall acos id c1 c2 c3 d s s' j1 j2 j3, table_ok d ->
  first_such (suits c1 d) j1 -> first_such (suits c2 d) j2 -> first_such (suits c3 d) j3 ->
  no_cosine c1 d j1 -> no_cosine c2 d j2 -> no_cosine c3 d j3 ->
  exists u2 u3 f2 f3 can2 can3 val err, nth_error (t_units d) j2 = Some (Some u2) /\ nth_error (t_units d) j3 = Some (Some u3) /\
    getConversion (Some u2) = Ok (f2, can2) /\ getConversion (Some u3) = Ok (f3, can3) /\
    fst (run (getValue acos (id, AddErrorBars c1 c2 c3) d) s) = Ok val /\
    fst (run (getError acos (id, AddErrorBars c1 c2 c3) d) s') = Ok err /\
    (u2 = PERCENT -> u3 = PERCENT -> c_unit err = c_unit val /\
       forall i row x y, nth_error (t_data d) i = Some row -> nth_error row j2 = Some x -> nth_error row j3 = Some y ->
         at_row i (c_cells err) =
           magnitude (quadrature (percent (at_row i (c_cells val)) (converted c2 (fl 1 0) (number x)))
                                 (percent (at_row i (c_cells val)) (converted c3 (fl 1 0) (number y))))) /\
    (u2 <> PERCENT -> u3 <> PERCENT -> c_unit err = Some can3 /\
       forall i row x y, nth_error (t_data d) i = Some row -> nth_error row j2 = Some x -> nth_error row j3 = Some y ->
         at_row i (c_cells err) = magnitude (quadrature (converted c2 f2 (number x)) (converted c3 f3 (number y)))).
Proof.
  intros acos id c1 c2 c3 d s s' j1 j2 j3 T F1 F2 F3 N1 N2 N3.
  destruct (located_column acos c1 d j1 T F1 N1) as (u1 & f1' & can1 & v & Eu1 & G1 & E1 & Fo1 & U1 & L1 & C1).
  destruct (located_column acos c2 d j2 T F2 N2) as (u2 & f2 & can2 & e2 & Eu2 & G2 & E2 & Fo2 & U2 & L2 & C2).
  destruct (located_column acos c3 d j3 T F3 N3) as (u3 & f3 & can3 & e3 & Eu3 & G3 & E3 & Fo3 & U3 & L3 & C3).
  rewrite run_getValue, run_getError. cbn [snd]. unfold value_of, value_of0, error_of, error_of0.
  rewrite (set_res_total _ d T). cbn [bind match_ok]. rewrite Fo1, Fo2, Fo3. cbn [andb orb negb raw_value raw_error].
  rewrite E1, E2, E3. cbn [bind]. rewrite U2, U3.
  destruct (percent_unit u2 f2 can2 G2) as [P2 Q2]. destruct (percent_unit u3 f3 can3 G3) as [P3 Q3].
  destruct (is_percent (Some can2) || is_percent (Some can3)) eqn:P.
  - destruct (add_bars_spec d (c_unit v) (scaled_by_value d (c_cells v) (c_cells e2)) (scaled_by_value d (c_cells v) (c_cells e3)))
      as (col & Ec & Uc & Cc); [apply map_seq_length|apply map_seq_length|]. rewrite Ec. cbn [bind].
    exists u2, u3, f2, f3, can2, can3, v, (absOrNone col).
    split; [assumption|]. split; [assumption|]. split; [assumption|]. split; [assumption|]. split; [reflexivity|]. split; [reflexivity|]. split.
    + intros H2 H3. split; [exact Uc|]. intros i row x y Er Ex Ey. pose proof (nth_error_lt _ _ _ _ Er) as Li.
      rewrite at_row_absOrNone, (Cc i Li), !at_row_scaled by assumption.
      specialize (C2 i row x Er Ex). specialize (C3 i row y Er Ey). rewrite (Q2 H2) in C2. rewrite (Q3 H3) in C3.
      change (fl 1 0) with f1. now rewrite <- C2, <- C3.
    + intros H2 H3. exfalso. apply orb_true_iff in P. destruct P as [P|P]; apply is_percent_iff in P; tauto.
  - apply orb_false_iff in P. destruct P as [Pa Pb]. rewrite last_given_2. cbn [or_else].
    destruct (add_bars_spec d (Some can3) (c_cells e2) (c_cells e3) L2 L3) as (col & Ec & Uc & Cc). rewrite Ec. cbn [bind].
    exists u2, u3, f2, f3, can2, can3, v, (absOrNone col).
    split; [assumption|]. split; [assumption|]. split; [assumption|]. split; [assumption|]. split; [reflexivity|]. split; [reflexivity|]. split.
    + intros H2 _. exfalso. apply P2 in H2. subst can2. assert (X : is_percent (Some PERCENT) = true) by now apply is_percent_iff. congruence.
    + intros _ _. split; [exact Uc|]. intros i row x y Er Ex Ey. pose proof (nth_error_lt _ _ _ _ Er) as Li.
      rewrite at_row_absOrNone, (Cc i Li). now rewrite <- (C2 i row x Er Ex), <- (C3 i row y Er Ey).
Qed.

(** ** B*RT-EV *)

Lemma barns_root : forall acos id c2 c3 d s j, table_ok d -> first_such (suits c2 d) j ->
  fst (run (getValue acos (id, BarnsSqrtE c2 c3) d) s) = Raise TypeError /\
  fst (run (getError acos (id, BarnsSqrtE c2 c3) d) s) = Raise TypeError.
Proof.
  intros acos id c2 c3 d s j T F. rewrite run_getValue, run_getError. cbn [snd]. unfold value_of, value_of0, error_of, error_of0.
  rewrite (set_res_total _ d T). cbn [bind match_ok].
  assert (Hf : found c2 d = true).
  { destruct (proj1 (firstMatch_iff c2 d (proj1 T)) j) as [_ H]. unfold found, icol. rewrite (H F). apply Z.leb_le. lia. }
  rewrite Hf. cbn. auto.
Qed.

(** ** How getSimplified fails *)

Definition simple_pair (p : parser) : bool :=
  forallb (fun c => negb (cp_angle c)) (pair_parsers (snd p)) && match snd p with BarnsSqrtE _ _ => false | _ => true end.

Definition barns_free (d : table) (p : parser) : Prop := forall c2 c3, snd p = BarnsSqrtE c2 c3 -> match_ok (snd p) d = false.

Lemma columns_of_total : forall acos d ps, table_ok d -> ps <> [] ->
  (forall p, In p ps -> straight_pair (snd p) d /\ barns_free d p) ->
  (exists x, columns_of acos d ps = Ok x) \/ columns_of acos d ps = Raise NoValuesGivenError.
Proof.
  intros acos d ps T Ne H. unfold columns_of.
  destruct (map_res_nth _ _ (fun p => value_of acos (snd p) d) ps) as (vs & Ev & Lv & _).
  { intros p I. destruct (H p I). now apply value_of_total. }
  destruct (map_res_nth _ _ (fun p => error_of acos (snd p) d) ps) as (es & Ee & Le & _).
  { intros p I. destruct (H p I). now apply error_of_total. }
  rewrite Ev, Ee. cbn [bind]. apply map_res_Forall2 in Ev, Ee.
  assert (Fv : Forall (fun c => length (c_cells c) = numrows d) vs).
  { clear - Ev. induction Ev; constructor; auto. now apply value_of_length in H. }
  assert (Fe : Forall (fun c => length (c_cells c) = numrows d) es).
  { clear - Ee. induction Ee; constructor; auto. now apply error_of_length in H. }
  destruct (reduce_condense (numrows d) vs) with (2 := Fv) as (v & -> & _); [intros ->; destruct ps; [congruence|discriminate Lv]|].
  destruct (reduce_condense (numrows d) es) with (2 := Fe) as (e & -> & _); [intros ->; destruct ps; [congruence|discriminate Le]|].
  cbn [bind]. destruct (all_none (c_cells v)); eauto.
Qed.

(** The only parser for B*RT-EV. *)
Lemma barns_parser : forall c e p c2 c3, In e (parser_map c) -> In p (snd e) -> snd p = BarnsSqrtE c2 c3 ->
  cp_labels c2 = Some [lit "DATA"] /\ cp_units c2 = Some [lit "B*RT-EV"; lit "MB*RT-EV"].
Proof.
  assert (A : forall p, In p all_parsers -> forall c2 c3, snd p = BarnsSqrtE c2 c3 ->
    cp_labels c2 = Some [lit "DATA"] /\ cp_units c2 = Some [lit "B*RT-EV"; lit "MB*RT-EV"]).
  { intros p Ip c2 c3 E. assert (X : forallb (fun p => match snd p with BarnsSqrtE c2 _ =>
      match cp_labels c2, cp_units c2 with Some a, Some b => list_same str_eqb a [lit "DATA"] && list_same str_eqb b [lit "B*RT-EV"; lit "MB*RT-EV"] | _, _ => false end
      | _ => true end) all_parsers = true) by (vm_compute; reflexivity).
    assert (LS : forall a b, list_same str_eqb a b = true -> a = b).
    { induction a as [|x a IH]; intros [|y b] H; cbn in H; try discriminate; [reflexivity|].
      apply andb_true_iff in H. destruct H as [H1 H2]. apply str_eqb_eq in H1. apply IH in H2. now subst. }
    pose proof (proj1 (forallb_forall _ _) X p Ip) as H. cbv beta in H. rewrite E in H.
    destruct (cp_labels c2), (cp_units c2); try discriminate. apply andb_true_iff in H. destruct H as [H1 H2].
    apply LS in H1, H2. now subst. }
  intros c e p c2 c3 Ie Ip. apply A. eapply parser_map_known; eassumption.
Qed.

Lemma angle_free_parsers : forall c e p col, In e (parser_map c) -> fst e <> lit "Angle" -> In p (snd e) -> In col (pair_parsers (snd p)) ->
  cp_angle col = false.
Proof.
  assert (X : forallb (fun c => forallb (fun e => str_eqb (fst e) (lit "Angle") || forallb (fun p => forallb (fun col => negb (cp_angle col))
     (pair_parsers (snd p))) (snd e)) (parser_map c)) [CrossSection; Nubar; SpectrumAve; AngularDist; EnergyDist] = true)
    by (vm_compute; reflexivity).
  intros c e p col Ie N Ip Ic.
  assert (H : forallb (fun e => str_eqb (fst e) (lit "Angle") || forallb (fun p => forallb (fun col => negb (cp_angle col))
     (pair_parsers (snd p))) (snd e)) (parser_map c) = true).
  { destruct c; try contradiction; apply (proj1 (forallb_forall _ _) X); cbn [In]; tauto. }
  pose proof (proj1 (forallb_forall _ _) H e Ie) as He. cbv beta in He. apply orb_true_iff in He. destruct He as [He|He].
  - apply str_eqb_eq in He. contradiction.
  - pose proof (proj1 (forallb_forall _ _) He p Ip) as Hp. pose proof (proj1 (forallb_forall _ _) Hp col Ic) as Hc.
    cbv beta in Hc. now destruct (cp_angle col).
Qed.

Lemma parsers_nonempty : forall c e, In e (parser_map c) -> snd e <> [].
Proof.
  intros c e I. destruct c; cbn [parser_map In] in I; repeat (destruct I as [<-|I]; [discriminate|]); contradiction.
Qed.

Lemma straight_all : forall d pr, (forall l, In l (t_labels d) -> ~ mentions_cos l) -> straight_pair pr d.
Proof.
  intros d pr N c l _ Il. right. destruct (contains (lit "COS") l) eqn:C; [|reflexivity].
  exfalso. apply (N l Il). apply contains_mentions in C. exact C.
Qed.
Lemma barns_absent : forall d c e p, table_ok d -> ~ barns_root_energy d -> In e (parser_map c) -> In p (snd e) -> barns_free d p.
Proof.
  intros d c e p T N Ie Ip c2 c3 E. rewrite E. cbn [match_ok]. destruct (barns_parser c e p c2 c3 Ie Ip E) as [El Eu].
  apply (proj2 (found_fits c2 d T)). intros j F. apply N. exists j. unfold fits in F. now rewrite El, Eu in F.
Qed.

Lemma map_res_first_raise : forall (A B : Type) (f : A -> res B) (P : exn -> Prop) l,
  (forall x, In x l -> (exists y, f x = Ok y) \/ exists e, f x = Raise e /\ P e) ->
  (exists r, map_res f l = Ok r) \/ exists e, map_res f l = Raise e /\ P e.
Proof.
  intros A B f P. induction l as [|x l IH]; intros H; [left; eexists; reflexivity|]. cbn [map_res].
  destruct (H x (or_introl eq_refl)) as [[y ->]|(e & -> & Pe)]; cbn [bind]; [|right; eauto].
  destruct IH as [[r ->]|(e & -> & Pe)]; [intros z I; apply H; now right|left|right]; cbn [bind]; eauto.
Qed.

Lemma simplified_failures : forall acos mk fl d s, plain_table (ds_table d) -> ~ barns_root_energy (ds_table d) ->
  wanted_columns (ds_class_of d) <> [] ->
  (exists d', fst (run (getSimplified acos mk fl d) s) = Ok d') \/
  fst (run (getSimplified acos mk fl d) s) = Raise NoValuesGivenError \/
  (fst (run (getSimplified acos mk fl d) s) = Raise NoUncertaintyGivenError /\ mk = false /\ fl = true).
Proof.
  intros acos mk fl d s [T C] N W. rewrite run_getSimplified. destruct (ds_simplified d) eqn:S.
  { left. exists d. unfold simplified, simplified_with. rewrite S. destruct (ds_class_of d); try reflexivity; cbn in W; congruence. }
  destruct (simplified_spec acos mk fl d S W) as [-> _].
  destruct (map_res_first_raise _ _ (fun e => c <- columns_of acos (ds_table d) (snd e) ;; Ok (fst e, c)) (fun e => e = NoValuesGivenError)
     (parser_map (ds_class_of d))) as [[cols ->]|(e & -> & ->)].
  - intros e Ie. destruct (columns_of_total acos (ds_table d) (snd e) T (parsers_nonempty _ _ Ie)) as [[x ->]| ->].
    + intros p Ip. split; [now apply straight_all|]. eapply barns_absent; eassumption.
    + left. cbn [bind]. eauto.
    + right. cbn [bind]. eauto.
  - cbn [bind]. destruct mk, fl; cbn [negb andb]; eauto. destruct (existsb cs_none cols && _); eauto.
  - cbn [bind]. auto.
Qed.

Lemma barns_in_cs : exists id c2 c3, In (id, BarnsSqrtE c2 c3) csDataParserList /\
  cp_labels c2 = Some [lit "DATA"] /\ cp_units c2 = Some [lit "B*RT-EV"; lit "MB*RT-EV"].
Proof.
  exists 23. eexists. eexists. split.
  - right. right. right. right. left. reflexivity.
  - split; vm_compute; reflexivity.
Qed.
Lemma map_res_raises : forall (A B : Type) (f : A -> res B) x l e, In x l -> f x = Raise e -> exists e', map_res f l = Raise e'.
Proof.
  induction l as [|y l IH]; intros e I E; [contradiction|]. cbn [map_res]. destruct I as [->|I].
  - rewrite E. cbn. eauto.
  - destruct (f y); cbn [bind]; [|eauto]. destruct (IH e I E) as [e' ->]. cbn [bind]. eauto.
Qed.
Lemma first_fit : forall c d, table_ok d -> (exists j, suits c d j) -> exists j, first_such (suits c d) j.
Proof.
  intros c d T (j & F). destruct (firstMatch_spec c d (proj1 T)) as [(i & _ & H)|(_ & H)]; [eauto|]. exfalso. now apply (H j).
Qed.

Lemma barns_never : forall acos mk fl d s, table_ok (ds_table d) -> barns_root_energy (ds_table d) -> ds_simplified d = false ->
  ds_class_of d = CrossSection \/ ds_class_of d = SpectrumAve ->
  fst (run (getSimplified acos mk fl d) s) = Raise TypeError \/ fst (run (getSimplified acos mk fl d) s) = Raise NoValuesGivenError.
Proof.
  intros acos mk fl d s T Br S Cl. rewrite run_getSimplified.
  assert (W : wanted_columns (ds_class_of d) <> []) by (destruct Cl as [->| ->]; discriminate).
  destruct (simplified_spec acos mk fl d S W) as [-> _].
  assert (M : exists ps, parser_map (ds_class_of d) = [(lit "Energy", ps); (lit "Data", csDataParserList)]) by (destruct Cl as [->| ->]; cbn; eauto).
  destruct M as [ps M]. rewrite M. cbn [map_res snd fst].
  assert (Ie : In (lit "Energy", ps) (parser_map (ds_class_of d))) by (rewrite M; now left).
  assert (NB : forallb (fun p => match snd p with BarnsSqrtE _ _ => false | _ => true end) ps = true).
  { destruct Cl as [C|C]; rewrite C in M; injection M as <-; vm_compute; reflexivity. }
  destruct (columns_of_total acos (ds_table d) ps T (parsers_nonempty _ _ Ie)) as [[x ->]| ->].
  { intros p Ip. split.
    - intros col l Ic _. left. eapply (angle_free_parsers _ _ p col Ie); [discriminate|exact Ip|exact Ic].
    - intros c2 c3 E. pose proof (proj1 (forallb_forall _ _) NB p Ip) as H. cbv beta in H. rewrite E in H. discriminate. }
  2: cbn [bind]; auto.
  cbn [bind]. left. unfold columns_of.
  destruct barns_in_cs as (id & c2 & c3 & Ip & El & Eu).
  destruct (first_fit c2 (ds_table d) T) as [j Fj]. { destruct Br as [j F]. exists j. unfold suits. now rewrite El, Eu. }
  destruct (barns_root acos id c2 c3 (ds_table d) store0 j T Fj) as [V _]. rewrite run_getValue in V. cbn [snd] in V.
  assert (X : map_res (fun p => value_of acos (snd p) (ds_table d)) csDataParserList = Raise TypeError); [|rewrite X; reflexivity].
  assert (Id : In (lit "Data", csDataParserList) (parser_map (ds_class_of d))) by (rewrite M; right; now left).
  destruct (map_res_first_raise _ _ (fun p => value_of acos (snd p) (ds_table d)) (fun e => e = TypeError) csDataParserList) as [[r R]|(e & R & ->)].
  - intros p Jp. destruct (match snd p with BarnsSqrtE _ _ => true | _ => false end) eqn:B.
    + destruct (snd p) as [| | | | | |c2' c3'] eqn:Es; try discriminate. right. exists TypeError. split; [|reflexivity].
      destruct (barns_parser _ _ p c2' c3' Id Jp Es) as [El' Eu'].
      destruct (first_fit c2' (ds_table d) T) as [j' Fj']. { destruct Br as [k F]. exists k. unfold suits. now rewrite El', Eu'. }
      destruct (barns_root acos (fst p) c2' c3' (ds_table d) store0 j' T Fj') as [V' _]. now rewrite run_getValue in V'.
    + left. apply value_of_total; [assumption| |].
      * intros col l Ic _. left. eapply (angle_free_parsers _ _ p col Id); [discriminate|exact Jp|exact Ic].
      * intros a b E. rewrite E in B. discriminate.
  - exfalso. destruct (map_res_raises _ _ (fun p => value_of acos (snd p) (ds_table d)) _ _ _ Ip V) as [e' R']. congruence.
  - exact R.
Qed.

(** ** Statements for the property file *)

Lemma matching_column : forall c d j, table_ok d ->
  (cp_isMatch c (Z.of_nat j) d = Ok true <-> suits c d j) /\ (cp_isMatch c (Z.of_nat j) d = Ok false <-> ~ suits c d j).
Proof. intros c d j T. exact (isMatch_iff c d j (proj1 T)). Qed.
Lemma first_matching_column : forall c d, table_ok d ->
  (forall j, firstMatch c d = Ok (Z.of_nat j) <-> first_such (suits c d) j) /\ (firstMatch c d = Ok (-1)%Z <-> forall j, ~ suits c d j).
Proof. intros c d T. exact (firstMatch_iff c d (proj1 T)). Qed.
Lemma column_converted : forall acos c d j, table_ok d -> suits c d j -> no_cosine c d j ->
  exists l u f canonical col,
    nth_error (t_labels d) j = Some l /\ nth_error (t_units d) j = Some (Some u) /\ getConversion (Some u) = Ok (f, canonical) /\
    getColumn acos c (Z.of_nat j) d = Ok col /\ c_label col = Some l /\ c_unit col = Some canonical /\
    length (c_cells col) = length (t_data d) /\
    forall i row x, nth_error (t_data d) i = Some row -> nth_error row j = Some x -> at_row i (c_cells col) = converted c f (number x).
Proof.
  intros acos c d j T F N.
  destruct (converted_column acos c d j T F) as (l & u & f & can & col & El & Eu & G & E & Lb & Un & Ln & Ce).
  { intros l El. eapply no_cosine_straight; eassumption. }
  exists l, u, f, can, col. split; [assumption|]. split; [assumption|]. split; [assumption|]. split; [assumption|].
  split; [assumption|]. split; [assumption|]. split; [assumption|].
  intros i row x Er Ex. unfold at_row. rewrite (Ce i row x Er Ex). now destruct x.
Qed.
Lemma column_canonical : forall acos c d j u, table_ok d -> suits c d j -> no_cosine c d j ->
  In u canonical_units -> nth_error (t_units d) j = Some (Some (lit u)) -> cp_scale c = fl 1 0 -> cp_offset c = fzero ->
  exists col, getColumn acos c (Z.of_nat j) d = Ok col /\ c_unit col = Some (lit u) /\
    forall i row x, nth_error (t_data d) i = Some row -> nth_error row j = Some (VFloat x) -> is_double x -> x <> S754_zero true ->
      at_row i (c_cells col) = Some x.
Proof.
  intros acos c d j u T F N I Eu Sc Of.
  destruct (canonical_column acos c d j u T F) as (col & E & Un & Ln & Ce); try assumption.
  { intros l El. eapply no_cosine_straight; eassumption. }
  exists col. split; [assumption|]. split; [assumption|]. intros i row x Er Ex V Z. unfold at_row. now rewrite (Ce i row x Er Ex V Z).
Qed.

Lemma mentions_contains : forall p a b, contains p (a ++ p ++ b) = true.
Proof.
  assert (P : forall p b, is_prefix p (p ++ b) = true).
  { induction p as [|x p IH]; intros b; [now destruct b|]. cbn. now rewrite Ascii.eqb_refl, IH. }
  intros p a b. induction a as [|x a IH]; cbn [app].
  - destruct (p ++ b) eqn:E; cbn [contains]; rewrite <- E, P; reflexivity.
  - cbn [contains]. rewrite IH. apply orb_true_r.
Qed.
(** A cosine becomes an angle in degrees. *)
Lemma column_cosine : forall acos c d j l, table_ok d -> suits c d j -> cp_angle c = true ->
  nth_error (t_labels d) j = Some l -> mentions_cos l ->
  (forall x, acos x <> None) ->
  exists col, getColumn acos c (Z.of_nat j) d = Ok col /\ c_label col = Some l /\ c_unit col = Some (lit "degrees") /\
    length (c_cells col) = length (t_data d) /\
    forall i row x, nth_error (t_data d) i = Some row -> nth_error row j = Some x ->
      at_row i (c_cells col) =
        match number x with
        | None => None
        | Some x => option_map (fun a => fmul a (fdiv (fl 180 0) pi)) (acos (fadd (fmul x (cp_scale c)) (cp_offset c)))
        end.
Proof.
  intros acos c d j l T F A El (a0 & b0 & C0) Ac.
  assert (C : contains (lit "COS") l = true) by (rewrite C0; apply mentions_contains). unfold getColumn. rewrite A. cbn [negb]. rewrite (proj2 (zidx_nat _ _ _ _) El). cbn [bind].
  rewrite C. cbn [negb]. rewrite (proj2 (proj1 (isMatch_iff c d j (proj1 T))) F). cbn [bind negb].
  rewrite (proj1 conversion_odd). cbn [bind].
  match goal with |- context[map_res ?f ?l] => destruct (map_res_nth _ _ f l) as (ys & E & Ly & Ny) end.
  { intros row I. destruct T as (_ & _ & R). rewrite Forall_forall in R. specialize (R row I).
    destruct (nth_error_ex _ row j) as [x Ex]; [pose proof (nth_error_lt _ _ _ _ El); lia|].
    rewrite (proj2 (zidx_nat _ _ _ _) Ex). cbn [bind]. destruct (cell_num x) as [x'|]; [|eauto].
    destruct (acos _) eqn:Ea; [cbn; eauto|exfalso; now apply Ac in Ea]. }
  rewrite E. cbn [bind]. eexists. split; [reflexivity|]. split; [reflexivity|]. split; [reflexivity|]. split; [exact Ly|].
  intros i row x Er Ex. unfold at_row. cbn [c_cells]. destruct (Ny i row Er) as (y & Ey & ->).
  rewrite (proj2 (zidx_nat _ _ _ _) Ex) in Ey. cbn [bind] in Ey.
  assert (Nc : cell_num x = number x) by (destruct x; reflexivity). rewrite Nc in Ey.
  destruct (number x) as [x'|]; [|injection Ey as <-; reflexivity].
  destruct (acos _) as [a|]; cbn [of_option bind] in Ey; [|discriminate]. injection Ey as <-. reflexivity.
Qed.

Lemma full_columns : forall acos p d s col,
  (fst (run (getValue acos p d) s) = Ok col \/ fst (run (getError acos p d) s) = Ok col) ->
  length (c_cells col) = length (t_data d) /\ forall i x, at_row i (c_cells col) = Some x -> c_unit col <> None.
Proof.
  intros acos p d s col [E|E].
  - rewrite run_getValue in E. split; [now apply value_of_length in E|]. intros i x H. apply value_of_unit in E. apply E. exists i.
    unfold cell_of. unfold at_row in H. rewrite H. discriminate.
  - rewrite run_getError in E. split; [now apply error_of_length in E|]. intros i x H. apply error_of_unit in E. apply E. exists i.
    unfold cell_of. unfold at_row in H. rewrite H. discriminate.
Qed.
Lemma columns_total : forall acos p d s, plain_table d -> ~ barns_root_energy d -> (exists c e, In e (parser_map c) /\ In p (snd e)) ->
  (exists col, fst (run (getValue acos p d) s) = Ok col) /\ (exists col, fst (run (getError acos p d) s) = Ok col).
Proof.
  intros acos p d s [T C] N (c & e & Ie & Ip). rewrite run_getValue, run_getError.
  assert (B : barns_free d p) by (eapply barns_absent; eassumption).
  split; [apply value_of_total|apply error_of_total]; auto; now apply straight_all.
Qed.

Lemma condensed : forall n cols, cols <> [] -> Forall (fun c => length (c_cells c) = n) cols ->
  exists c, reduce_res condenseColumn cols = Ok c /\ length (c_cells c) = n /\
    c_label c = first_some (map c_label cols) /\ c_unit c = first_some (map c_unit cols) /\
    forall i, at_row i (c_cells c) = first_some (map (fun c => at_row i (c_cells c)) cols).
Proof. exact reduce_condense. Qed.
Lemma averaged : forall (x y : list (option float)), length x = length y ->
  exists c, averageColumns x y = Ok c /\ length c = length x /\
    forall i, i < length x -> at_row i c = match at_row i x, at_row i y with
                                         | Some u, Some v => Some (fmul (fl 5 (-1)) (fadd u v))
                                         | Some u, None => Some u
                                         | None, v => v
                                         end.
Proof.
  intros x y L. destruct (average_spec x y L) as (c & E & Lc & C). exists c. split; [assumption|]. split; [assumption|].
  intros i Hi. destruct (nth_error_ex _ x i Hi) as [a Ea]. destruct (nth_error_ex _ y i) as [b Eb]; [lia|].
  unfold at_row. rewrite (C i a b Ea Eb), Ea, Eb. now destruct a, b.
Qed.

Lemma negative_error : forall acos p d s col i x, fst (run (getError acos p d) s) = Ok col -> at_row i (c_cells col) = Some x -> not_negative x.
Proof.
  intros acos p d s col i x E H. rewrite run_getError in E. apply error_of_no_sign in E. rewrite Forall_forall in E.
  unfold at_row in H. destruct (nth_error (c_cells col) i) as [o|] eqn:Eo; [|discriminate]. apply nth_error_In in Eo. now apply (E o Eo).
Qed.

(** The unit above a simplified column is the unit of every cell, if all columns it is made from agree. *)
Lemma simplified_one_unit : forall acos mk fl d s d' k name ps u i row x, ds_simplified d = false ->
  fst (run (getSimplified acos mk fl d) s) = Ok d' -> nth_error (parser_map (ds_class_of d)) k = Some (name, ps) ->
  (forall p s' c v, In p ps -> fst (run (getValue acos p (ds_table d)) s') = Ok c -> c_unit c = Some v -> v = u) ->
  nth_error (t_data (ds_table d')) i = Some row -> nth_error row k = Some (VFloat x) ->
  nth_error (t_units (ds_table d')) k = Some (Some u) /\
  exists p c, In p ps /\ (forall s', fst (run (getValue acos p (ds_table d)) s') = Ok c) /\ at_row i (c_cells c) = Some x /\ c_unit c = Some u.
Proof.
  intros acos mk fl d s d' k name ps u i row x S E P Hu Er Ex.
  destruct (simplified_column acos mk fl d s d' k name ps S E P) as (vs & F & _ & U & Ce).
  specialize (Ce i row Er). rewrite Ce in Ex. injection Ex as Ex.
  destruct (first_some (map (fun c => at_row i (c_cells c)) vs)) as [y|] eqn:Fy; [|discriminate]. cbn in Ex. injection Ex as ->.
  apply first_some_in in Fy. apply in_map_iff in Fy. destruct Fy as (c & Ec & Ic).
  assert (G : forall c, In c vs -> exists p, In p ps /\ forall s', fst (run (getValue acos p (ds_table d)) s') = Ok c).
  { clear - F. induction F as [|p c l l' H F IH]; intros c' I; [contradiction|]. destruct I as [<-|I]; [exists p; split; [now left|assumption]|].
    destruct (IH c' I) as (q & Iq & Hq). exists q. split; [now right|assumption]. }
  destruct (G c Ic) as (p & Ip & Hp).
  assert (Uc : c_unit c = Some u).
  { destruct (full_columns acos p (ds_table d) store0 c (or_introl (Hp store0))) as [_ H]. specialize (H i x Ec).
    destruct (c_unit c) as [v|] eqn:Ev; [|congruence]. f_equal. exact (Hu p store0 c v Ip (Hp store0) Ev). }
  split; [|exists p, c; auto].
  rewrite U. f_equal. destruct (first_some (map c_unit vs)) as [v|] eqn:Fv.
  - apply first_some_in in Fv. apply in_map_iff in Fv. destruct Fv as (c' & Ec' & Ic'). destruct (G c' Ic') as (q & Iq & Hq).
    f_equal. eapply (Hu q store0 c' v); eauto.
  - exfalso. assert (H : c_unit c = None) by (apply (proj1 (first_some_none _ _) Fv); now apply in_map). congruence.
Qed.
