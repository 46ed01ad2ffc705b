(** Simplified data sets are what the table of readings says. *)
From Coq Require Import String List Ascii NArith ZArith Bool Arith Lia.
From Coq Require Import Floats.SpecFloat.
From Verif.Model Require Import Py PyFloat Utilities Dicts Particle Reaction Field Section Entry Columns Dataset.
From Verif.Spec Require Import Text Tables DataSets Readings.
From Verif.Proofs Require Import StrLemmas FloatLemmas ReactionLemmas DictLemmas DataLemmas ProgLemmas ColumnLemmas SimplifyLemmas UnitLemmas ValueLemmas TableLemmas SimpleLemmas ErrorLemmas CrossLemmas.
From Verif.Proofs Require BibLemmas.
Import ListNotations.
Local Open Scope string_scope.
Local Open Scope list_scope.
Local Open Scope nat_scope.

(** ** Names and units *)

Lemma same_text_eq : forall a b, same_text a b = true <-> a = b.
Proof. intros a b. unfold same_text. destruct (list_eq_dec ascii_dec a b); split; congruence. Qed.
Lemma named_in : forall ns s, named ns s = true <-> exists n, In n ns /\ s = tx n.
Proof.
  intros ns s. unfold named. rewrite existsb_exists. split; intros (n & I & E); exists n; (split; [exact I|]).
  - now apply same_text_eq.
  - now apply same_text_eq.
Qed.
Lemma worth_ok : forall u, getConversion (Some u) = Ok (worth u).
Proof.
  intros u. unfold worth. destruct (find _ unit_table) as [[[n c] [m x]]|] eqn:F.
  - apply find_some in F. destruct F as [I E]. apply same_text_eq in E. cbn [fst] in E. subst u. exact (conversion_listed _ _ _ _ I).
  - assert (N : forall e, In e unit_table -> u <> lit (fst (fst e))).
    { intros e I ->. pose proof (find_none _ _ F _ I) as X. cbn beta in X. apply not_true_iff_false in X. apply X. now apply same_text_eq. }
    destruct (named ["RAD"; "SR"] u) eqn:E1.
    { apply named_in in E1. destruct E1 as (n & [<-|[<-|[]]] & ->); vm_compute; reflexivity. }
    destruct (named ["K"] u) eqn:E2.
    { apply named_in in E2. destruct E2 as (n & [<-|[]] & ->). vm_compute; reflexivity. }
    apply conversion_unlisted; [exact N|]. intros v I ->. cbn [odd_units In] in I.
    destruct I as [<-|[<-|[<-|[]]]]; vm_compute in E1, E2; discriminate.
Qed.

(** ** One column *)

Definition same_names (ls : list str) (ns : list string) : bool := forallb (named ns) ls && forallb (fun n => smem (lit n) ls) ns.
Definition cp_is (c : colparser) (w : sought) : bool :=
  match cp_labels c, cp_units c with
  | Some ls, Some us => same_names ls (so_heads w) && same_names us (so_units w) &&
                        forallb (fun l => Bool.eqb (cp_angle c && contains (lit "COS") l) (named cosine_heads l)) ls
  | _, _ => false
  end && same_float (cp_scale c) (if so_half w then fl 5 (-1) else fl 1 0) && same_float (cp_offset c) (S754_zero false).

Lemma same_names_ok : forall ls ns s, same_names ls ns = true -> (In s ls <-> named ns s = true).
Proof.
  intros ls ns s H. apply andb_true_iff in H. destruct H as [H1 H2]. rewrite forallb_forall in H1, H2. split; [apply H1|].
  intros N. apply named_in in N. destruct N as (n & I & ->). apply smem_in. exact (H2 n I).
Qed.

Section Table.
Variables (acos : float -> option float) (t : table).
Hypothesis R : rect t.
Hypothesis CD : cosines_defined acos t.

(** A column of cosines *)
Lemma cosine_column : forall c j l, fits c t j -> nth_error (t_labels t) j = Some l -> cp_angle c = true -> contains (lit "COS") l = true ->
  cp_scale c = fl 1 0 \/ cp_scale c = fl 5 (-1) -> cp_offset c = S754_zero false ->
  exists col, getColumn acos c (Z.of_nat j) t = Ok col /\ c_unit col = Some (tx "degrees") /\ length (c_cells col) = numrows t /\
    forall i row x, nth_error (t_data t) i = Some row -> nth_error row j = Some x ->
      nth_error (c_cells col) i =
        Some (match number x with
              | None => None
              | Some x => option_map (fun a => fmul a (fst (worth (tx "RAD")))) (acos (fadd (fmul x (cp_scale c)) (S754_zero false)))
              end).
Proof.
  intros c j l F El A C Sc Of. pose proof R as (U & N & RR). pose proof (fits_lt _ _ _ F) as L. unfold numcols in L.
  unfold getColumn. rewrite A. cbn [negb]. rewrite (proj2 (zidx_nat _ _ _ _) El). cbn [bind]. rewrite C. cbn [negb].
  rewrite (proj2 (proj1 (isMatch_iff c t j U)) F). cbn [bind negb].
  change (getConversion (Some (lit "RAD"))) with (getConversion (Some (tx "RAD"))). rewrite (worth_ok (tx "RAD")).
  assert (W : worth (tx "RAD") = (fst (worth (tx "RAD")), tx "degrees")) by (vm_compute; reflexivity). rewrite W. cbn [bind fst].
  set (rad := fst (worth (tx "RAD"))). rewrite Of.
  edestruct (map_res_nth _ _ (fun row => c0 <- zidx row (Z.of_nat j) ;;
     match cell_num c0 with
     | None => Ok None
     | Some x => a <- of_option ValueError (acos (fadd (fmul x (cp_scale c)) (S754_zero false))) ;; Ok (Some (fmul a rad))
     end) (t_data t)) as (ys & E & Ly & Ny).
  { intros row Ir. rewrite Forall_forall in RR. specialize (RR row Ir). assert (Lr : j < length row) by lia.
    destruct (nth_error_ex _ _ _ Lr) as [x Ex]. rewrite (proj2 (zidx_nat _ _ _ _) Ex). cbn [bind].
    assert (M : mentions_cos l) by exact (BibLemmas.contains_mentions _ _ C).
    assert (NX : cell_num x = number x) by (now destruct x). rewrite NX. destruct (number x) as [y|] eqn:Ey; [|eexists; reflexivity].
    destruct (CD j l row x y El M Ir Ex Ey) as [C1 C2].
    assert (Q : acos (fadd (fmul y (cp_scale c)) (S754_zero false)) <> None) by (destruct Sc as [-> | ->]; assumption).
    destruct (acos (fadd (fmul y (cp_scale c)) (S754_zero false))) as [a|]; [|now elim Q]. eexists. reflexivity. }
  rewrite E. cbn [bind]. eexists. split; [reflexivity|]. split; [reflexivity|]. split; [exact Ly|].
  intros i row x Er Ex. destruct (Ny i row Er) as (y & Ey & Ny'). cbn [c_cells]. rewrite Ny'. f_equal.
  rewrite (proj2 (zidx_nat _ _ _ _) Ex) in Ey. cbn [bind] in Ey. assert (NX : cell_num x = number x) by (now destruct x). rewrite NX in Ey.
  destruct (number x) as [z|]; [|congruence]. destruct (acos _) as [a|]; cbn [of_option bind] in Ey; [|discriminate]. cbn [option_map]. congruence.
Qed.

Lemma suits_fits : forall c w j, cp_is c w = true -> (suits_at w t j = true <-> fits c t j).
Proof.
  intros c w j H. unfold cp_is in H. apply andb_true_iff in H. destruct H as [H _]. apply andb_true_iff in H. destruct H as [H _].
  destruct (cp_labels c) as [ls|] eqn:El; [|discriminate]. destruct (cp_units c) as [us|] eqn:Eu; [|discriminate].
  apply andb_true_iff in H. destruct H as [H _]. apply andb_true_iff in H. destruct H as [H1 H2]. unfold suits_at, fits, column_fits. rewrite El, Eu.
  destruct (nth_error (t_labels t) j) as [l|].
  2:{ split; [discriminate|]. intros [(l & E & _) _]. discriminate. }
  destruct (nth_error (t_units t) j) as [[u|]|].
  - rewrite andb_true_iff, <- (same_names_ok ls _ l H1), <- (same_names_ok us _ u H2). split.
    + intros [I1 I2]. split; [exists l; split; [reflexivity|]; intros ls' E; now injection E as <-|].
      intros us' E. injection E as <-. eauto.
    + intros [(l' & E & I1) I2]. injection E as <-. destruct (I2 us eq_refl) as (u' & E & I). injection E as <-. auto.
  - split; [discriminate|]. intros [_ H]. destruct (H us eq_refl) as (u & E & _). discriminate.
  - split; [discriminate|]. intros [_ H]. destruct (H us eq_refl) as (u & E & _). discriminate.
Qed.

Lemma find_seq : forall (f : nat -> bool) n k j, find f (seq k n) = Some j -> k <= j < k + n /\ f j = true /\ forall i, k <= i < j -> f i = false.
Proof.
  intros f n. induction n as [|n IH]; intros k j H; [discriminate|]. cbn [seq find] in H. destruct (f k) eqn:E.
  - injection H as <-. split; [lia|]. split; [exact E|]. intros i Hi. lia.
  - apply IH in H. destruct H as (H1 & H2 & H3). split; [lia|]. split; [exact H2|]. intros i Hi.
    destruct (Nat.eq_dec i k) as [->|]; [exact E|]. apply H3. lia.
Qed.

Lemma place_found : forall c w, cp_is c w = true -> found c t = there w t /\
  match place w t with
  | Some j => fits c t j /\ icol c t = Z.of_nat j
  | None => icol c t = (-1)%Z
  end.
Proof.
  intros c w H. destruct (found_fits c t R) as (F1 & F2 & F3). unfold there. destruct (place w t) as [j|] eqn:E.
  - apply find_seq in E. destruct E as (_ & E & M).
    assert (F : first_such (fits c t) j).
    { split; [now apply (suits_fits c w)|]. intros i Hi F. apply (suits_fits c w i H) in F. rewrite M in F by lia. discriminate. }
    assert (Fd : found c t = true).
    { destruct (found c t) eqn:X; [reflexivity|]. exfalso. exact (proj1 F2 eq_refl j (proj1 F)). }
    split; [exact Fd|]. split; [exact (proj1 F)|]. destruct (proj1 F1 Fd) as (j' & F' & Ej). rewrite Ej. f_equal.
    destruct (Nat.lt_trichotomy j j') as [L|[L|L]]; [|now symmetry|].
    + exfalso. exact (proj2 F' j L (proj1 F)).
    + exfalso. exact (proj2 F j' L (proj1 F')).
  - assert (Fd : found c t = false).
    { apply F2. intros j F. pose proof (fits_lt _ _ _ F) as L. apply (suits_fits c w j H) in F.
      pose proof (find_none _ _ E j) as X. rewrite X in F; [discriminate|]. apply in_seq. unfold numcols in L. lia. }
    split; [exact Fd|]. exact (F3 Fd).
Qed.

(** [c] holds these numbers in this unit. *)
Definition holds (c : column) (f : nat -> option float) (u : option str) : Prop :=
  length (c_cells c) = numrows t /\ c_unit c = u /\ forall i, cell_of i c = f i.

Lemma holds_dummy : holds (dummy_column t) (fun _ => None) None.
Proof. split; [apply dummy_length|]. split; [reflexivity|]. intros i. apply cell_dummy. Qed.

Lemma beyond : forall c i, length (c_cells c) = numrows t -> numrows t <= i -> cell_of i c = None.
Proof. intros c i L H. unfold cell_of. destruct (nth_error (c_cells c) i) eqn:E; [|reflexivity]. apply nth_error_lt in E. lia. Qed.
Lemma cell_beyond : forall w i, numrows t <= i -> cell acos w t i = None.
Proof.
  intros w i H. unfold cell. assert (E : nth_error (t_data t) i = None) by (apply nth_error_None; exact H). rewrite E.
  destruct (place w t); [|reflexivity]. now destruct (written_unit w t).
Qed.

Lemma dummy_found : forall c, t_labels t <> [] -> icol c t = (-1)%Z -> the_column acos c t = Ok (dummy_column t).
Proof.
  intros c N E. unfold the_column. rewrite E. unfold getColumn.
  assert (B : base_getColumn c (-1) t = Ok (dummy_column t)) by reflexivity.
  destruct (cp_angle c); cbn [negb]; [|exact B].
  unfold zidx. assert (L : 0 < length (t_labels t)) by (apply Nat.neq_0_lt_0; intros X; apply length_zero_iff_nil in X; contradiction).
  replace ((- Z.of_nat (length (t_labels t)) <=? -1) && (-1 <? Z.of_nat (length (t_labels t))))%Z with true by lia.
  replace (Z.to_nat (if (-1 <? 0)%Z then (-1 + Z.of_nat (length (t_labels t)))%Z else (-1)%Z)) with (length (t_labels t) - 1)
    by (cbn [Z.ltb Z.compare]; lia).
  destruct (nth_error_ex _ (t_labels t) (length (t_labels t) - 1)) as [l ->]; [lia|]. cbn [of_option bind].
  destruct (contains _ l); cbn [negb].
  - replace (cp_isMatch c (-1) t) with (Ok false) by reflexivity. reflexivity.
  - exact B.
Qed.

Lemma cp_parts : forall c w, cp_is c w = true ->
  cp_scale c = (if so_half w then fl 5 (-1) else fl 1 0) /\ cp_offset c = S754_zero false /\
  forall j l, fits c t j -> nth_error (t_labels t) j = Some l -> cp_angle c && contains (lit "COS") l = named cosine_heads l.
Proof.
  intros c w H. unfold cp_is in H. apply andb_true_iff in H. destruct H as [H Ho]. apply andb_true_iff in H. destruct H as [H Hs].
  apply same_float_eq in Ho, Hs. split; [exact Hs|]. split; [exact Ho|]. intros j l ((l' & El & I) & _) E.
  destruct (cp_labels c) as [ls|]; [|discriminate]. destruct (cp_units c); [|discriminate]. apply andb_true_iff in H. destruct H as [_ H].
  rewrite forallb_forall in H. apply Bool.eqb_prop, H. assert (l' = l) by congruence. subst l'. now apply I.
Qed.

Lemma column_read : forall c w, cp_is c w = true -> t_labels t <> [] ->
  exists col, the_column acos c t = Ok col /\ holds col (cell acos w t) (unit_of w t) /\ is_percent (c_unit col) = in_percent w t.
Proof.
  intros c w H N. destruct (place_found c w H) as [_ E]. destruct (cp_parts c w H) as (Hs & Ho & Hc). unfold unit_of, in_percent, written_unit, cosines.
  destruct (place w t) as [j|] eqn:Pl.
  - destruct E as [F Ej].
    assert (XR : forall i row, nth_error (t_data t) i = Some row -> exists x, nth_error row j = Some x).
    { intros i row Er. pose proof (proj2 (proj2 R)) as X. rewrite Forall_forall in X. apply nth_error_ex. rewrite X by (now apply nth_error_In in Er).
      exact (fits_lt _ _ _ F). }
    destruct (nth_error_ex _ (t_labels t) j (fits_lt _ _ _ F)) as [l El]. specialize (Hc j l F El). rewrite El.
    assert (EU : exists u, nth_error (t_units t) j = Some (Some u)).
    { destruct R as (U & NU & _). destruct (nth_error_ex _ (t_units t) j) as [[u|] Eu]; [rewrite U; exact (fits_lt _ _ _ F)|eauto|].
      rewrite Forall_forall in NU. elim (NU None); [|reflexivity]. eapply nth_error_In; exact Eu. }
    destruct (named cosine_heads l) eqn:CH; cbn [negb andb].
    { apply andb_true_iff in Hc. destruct Hc as [CA CC].
      destruct (cosine_column c j l F El CA CC) as (col & Ec & Un & Ln & Ce); [rewrite Hs; destruct (so_half w); auto|exact Ho|].
      exists col. split; [unfold the_column; now rewrite Ej|]. split; [|now rewrite Un].
      split; [exact Ln|]. split; [exact Un|]. intros i. destruct EU as (u & Eu). unfold cell, written_unit, cosines. rewrite Pl, Eu, El, CH.
      destruct (nth_error (t_data t) i) as [row|] eqn:Er.
      2:{ apply beyond; [exact Ln|]. apply nth_error_None in Er. exact Er. }
      destruct (XR i row Er) as [x Ex]. rewrite Ex. unfold cell_of. rewrite (Ce i row x Er Ex), Hs. reflexivity. }
    destruct (converted_column acos c t j R F) as (l' & u & f & can & col & El' & Eu & G & Ec & _ & Un & Ln & Ce).
    { intros l' El'. assert (l' = l) by congruence. subst l'. unfold straight. destruct (cp_angle c); [right; exact Hc|now left]. }
    pose proof (worth_ok u) as W. rewrite G in W. injection W as W.
    exists col. rewrite Eu. split; [unfold the_column; now rewrite Ej|]. split.
    + split; [exact Ln|]. split; [rewrite Un; cbn [option_map]; now rewrite <- W|]. intros i. unfold cell, written_unit, cosines. rewrite Pl, Eu, El, CH.
      destruct (nth_error (t_data t) i) as [row|] eqn:Er.
      2:{ apply beyond; [exact Ln|]. apply nth_error_None in Er. exact Er. }
      destruct (XR i row Er) as [x Ex]. rewrite Ex.
      unfold cell_of. rewrite (Ce i row x Er Ex), <- W. cbn [fst]. rewrite Ho, Hs. destruct x; reflexivity.
    + rewrite Un. destruct (percent_unit u f can G) as [Q _]. apply eq_true_iff_eq. rewrite is_percent_iff, same_text_eq. exact Q.
  - exists (dummy_column t). split; [now apply dummy_found|]. split; [|reflexivity]. destruct holds_dummy as (H1 & H2 & H3).
    split; [exact H1|]. split; [exact H2|]. intros i. rewrite H3. unfold cell. now rewrite Pl.
Qed.

(** ** One reading *)

Definition pair_is (pr : pair) (r : reading) : bool :=
  match pr, r with
  | MissingError c1, Alone v => cp_is c1 v
  | Independent c1 c2, WithError v e => cp_is c1 v && cp_is c2 e
  | HighLow c1 c2, Limits lo hi => cp_is c1 lo && cp_is c2 hi
  | HighMidLow c1 c2 c3, Asymmetric v a b => cp_is c1 v && cp_is c2 a && cp_is c3 b
  | AddErrorBars c1 c2 c3, TwoErrors v a b => cp_is c1 v && cp_is c2 a && cp_is c3 b
  | _, _ => false
  end.

Ltac parts H := repeat match type of H with _ && _ = true => let H' := fresh H in apply andb_true_iff in H; destruct H as [H H'] end.

Lemma applies_ok : forall pr r, pair_is pr r = true -> match_ok pr t = applies r t.
Proof.
  intros pr r H. destruct pr as [c1|c1 c2|c1|c1 c2|c1 c2 c3|c1 c2 c3|c2 c3], r as [v|v e|lo hi|v a b|v a b]; try discriminate H; cbn [pair_is match_ok applies] in *;
    repeat match type of H with _ && _ = true => let H' := fresh H in apply andb_true_iff in H; destruct H as [H H'] end;
    repeat match goal with X : cp_is ?c ?w = true |- _ => rewrite (proj1 (place_found c w X)); clear X end; reflexivity.
Qed.
Lemma applies_nonempty : forall pr r, pair_is pr r = true -> applies r t = true -> t_labels t <> [].
Proof. intros pr r H A. rewrite <- (applies_ok pr r H) in A. exact (match_nonempty pr t R A). Qed.

Lemma value_eq : forall pr, value_of acos pr t = if negb (match_ok pr t) then Ok (dummy_column t) else raw_value no_energy acos pr t.
Proof. intros pr. unfold value_of, value_of0. now rewrite (set_res_total pr t R). Qed.
Lemma error_eq : forall pr, error_of acos pr t = match pr with MissingError _ => Ok (dummy_column t) | _ =>
  if negb (match_ok pr t) then Ok (dummy_column t) else (col <- raw_error no_energy acos pr t ;; Ok (absOrNone col)) end.
Proof. intros pr. unfold error_of, error_of0. now rewrite (set_res_total pr t R). Qed.

Lemma either_or : forall (A : Type) (x y : option A), or_else x y = either x y.
Proof. now intros A [x|] y. Qed.

Lemma read_value : forall pr r, pair_is pr r = true ->
  exists c, value_of acos pr t = Ok c /\ holds c (value acos r t) (value_unit r t).
Proof.
  intros pr r H. rewrite value_eq. rewrite (applies_ok pr r H). unfold value, value_unit.
  destruct (applies r t) eqn:A; cbn [negb]; [|exists (dummy_column t); split; [reflexivity|exact holds_dummy]].
  pose proof (applies_nonempty pr r H A) as N.
  destruct pr as [c1|c1 c2|c1|c1 c2|c1 c2 c3|c1 c2 c3|c2 c3], r as [v|v e|lo hi|v a b|v a b]; try discriminate H; cbn [pair_is] in H; cbn [raw_value].
  - destruct (column_read c1 v H N) as (c & E & Hc & _). eauto.
  - apply andb_true_iff in H. destruct (column_read c1 v (proj1 H) N) as (c & E & Hc & _). eauto.
  - apply andb_true_iff in H. destruct (column_read c1 lo (proj1 H) N) as (x & Ex & (Lx & Ux & Cx) & _).
    destruct (column_read c2 hi (proj2 H) N) as (y & Ey & (Ly & Uy & Cy) & _). rewrite Ex, Ey. cbn [bind].
    exists (high_low_value t x y). split; [reflexivity|]. unfold high_low_value. split; [cbn [c_cells]; apply map_seq_length|]. split.
    + cbn [c_unit]. now rewrite last_given_2, Ux, Uy, either_or.
    + intros i. rewrite cell_map_seq. destruct (Nat.ltb_spec i (numrows t)) as [L|L].
      * rewrite (at_or_zero_cell x (numrows t)), (at_or_zero_cell y (numrows t)), Cx, Cy by assumption.
        destruct (cell acos lo t i), (cell acos hi t i); reflexivity.
      * now rewrite !cell_beyond.
  - apply andb_true_iff in H. destruct H as [H H3]. apply andb_true_iff in H. destruct H as [H1 H2].
    destruct (column_read c1 v H1 N) as (x & Ex & (Lx & Ux & Cx) & _). destruct (column_read c2 a H2 N) as (y & Ey & (Ly & Uy & Cy) & _).
    destruct (column_read c3 b H3 N) as (z & Ez & (Lz & Uz & Cz) & _). rewrite Ex, Ey, Ez. cbn [bind].
    exists (high_mid_low_value t x y z). split; [reflexivity|]. unfold high_mid_low_value, high_mid_low. split; [cbn [c_cells]; apply map_seq_length|]. split.
    + cbn [c_unit]. now rewrite last_given_3, Ux, Uy, Uz, !either_or.
    + intros i. rewrite cell_map_seq. destruct (Nat.ltb_spec i (numrows t)) as [L|L].
      * rewrite (at_or_zero_cell x (numrows t)), (at_or_zero_cell y (numrows t)), (at_or_zero_cell z (numrows t)), Cx, Cy, Cz by assumption.
        destruct (cell acos v t i), (cell acos a t i), (cell acos b t i); reflexivity.
      * now rewrite !cell_beyond.
  - apply andb_true_iff in H. destruct H as [H _]. apply andb_true_iff in H. destruct (column_read c1 v (proj1 H) N) as (c & E & Hc & _). eauto.
Qed.

Lemma cell_abs : forall c i, cell_of i (absOrNone c) = magnitude (cell_of i c).
Proof. intros c i. exact (at_row_absOrNone c i). Qed.
Lemma holds_abs : forall c f u, holds c f u -> holds (absOrNone c) (fun i => magnitude (f i)) u.
Proof.
  intros c f u (L & U & C). split; [unfold absOrNone; cbn [c_cells]; now rewrite map_length|]. split; [exact U|].
  intros i. now rewrite cell_abs, C.
Qed.
Lemma holds_ext : forall c f g u u', holds c f u -> (forall i, f i = g i) -> u = u' -> holds c g u'.
Proof. intros c f g u u' (L & U & C) E <-. split; [exact L|]. split; [exact U|]. intros i. now rewrite C. Qed.

Lemma percent_of_eq : forall v e, percent_of v e = percent v e.
Proof. now intros [v|] [e|]. Qed.
Lemma fabs_fabs : forall x, fabs (fabs x) = fabs x.
Proof. now intros []. Qed.

Lemma cell_in : forall c i, length (c_cells c) = numrows t -> i < numrows t -> nth_error (c_cells c) i = Some (cell_of i c).
Proof. intros c i L H. unfold cell_of. destruct (nth_error (c_cells c) i) eqn:E; [reflexivity|]. apply nth_error_None in E. lia. Qed.

Lemma read_error : forall pr r, pair_is pr r = true ->
  exists c, error_of acos pr t = Ok c /\ holds c (uncertainty acos r t) (uncertainty_unit r t).
Proof.
  intros pr r H. rewrite error_eq. unfold uncertainty, uncertainty_unit.
  destruct pr as [c1|c1 c2|c1|c1 c2|c1 c2 c3|c1 c2 c3|c2 c3], r as [v|v e|lo hi|v a b|v a b]; try discriminate H.
  { exists (dummy_column t). split; [reflexivity|]. destruct (applies (Alone v) t); exact holds_dummy. }
  all: rewrite (applies_ok _ _ H); destruct (applies _ t) eqn:A; cbn [negb]; [|exists (dummy_column t); split; [reflexivity|exact holds_dummy]];
    pose proof (applies_nonempty _ _ H A) as N; clear A; cbn [pair_is] in H; cbn [raw_error].
  - apply andb_true_iff in H. destruct (column_read c1 v (proj1 H) N) as (x & Ex & (Lx & Ux & Cx) & _).
    destruct (column_read c2 e (proj2 H) N) as (y & Ey & (Ly & Uy & Cy) & Py). rewrite Ey. cbn [bind]. rewrite Py.
    destruct (in_percent e t).
    + rewrite Ex. cbn [bind]. destruct (percent_error_spec x y (numrows t) Lx Ly) as (cells & -> & Lc & Nc). cbn [bind].
      eexists. split; [reflexivity|]. apply holds_abs. split; [exact Lc|]. split; [exact Ux|]. intros i.
      destruct (Nat.lt_ge_cases i (numrows t)) as [L|L].
      * unfold cell_of. cbn [c_cells]. rewrite (Nc i (cell_of i x) (cell_of i y)) by now apply cell_in.
        now rewrite Cx, Cy, percent_of_eq.
      * rewrite beyond by assumption. now rewrite !cell_beyond.
    + cbn [bind]. eexists. split; [reflexivity|]. apply holds_abs. repeat split; assumption.
  - apply andb_true_iff in H. destruct (column_read c1 lo (proj1 H) N) as (x & Ex & (Lx & Ux & Cx) & _).
    destruct (column_read c2 hi (proj2 H) N) as (y & Ey & (Ly & Uy & Cy) & _). rewrite Ex, Ey. cbn [bind].
    eexists. split; [reflexivity|]. apply holds_abs. unfold high_low_error. split; [cbn [c_cells]; apply map_seq_length|]. split.
    + cbn [c_unit]. now rewrite last_given_2, Ux, Uy, either_or.
    + intros i. rewrite cell_map_seq. destruct (Nat.ltb_spec i (numrows t)) as [L|L].
      * rewrite (at_or_zero_cell x (numrows t)), (at_or_zero_cell y (numrows t)), Cx, Cy by assumption.
        destruct (cell acos lo t i), (cell acos hi t i); reflexivity.
      * now rewrite !cell_beyond.
  - apply andb_true_iff in H. destruct H as [H H3]. apply andb_true_iff in H. destruct H as [H1 H2].
    destruct (column_read c1 v H1 N) as (x & Ex & (Lx & Ux & Cx) & _). destruct (column_read c2 a H2 N) as (y & Ey & (Ly & Uy & Cy) & _).
    destruct (column_read c3 b H3 N) as (z & Ez & (Lz & Uz & Cz) & _). rewrite Ex, Ey, Ez. cbn [bind].
    eexists. split; [reflexivity|].
    eapply (holds_ext _ (fun i => magnitude (option_map fabs (match cell acos v t i, cell acos a t i, cell acos b t i with
          | Some v, Some a, Some b => Some (half_of (fsub (fsub v a) (fadd v b)))
          | _, _, _ => None
          end)))); [apply holds_abs|intros i|reflexivity].
    2:{ destruct (cell acos v t i), (cell acos a t i), (cell acos b t i); try reflexivity. cbn [magnitude option_map]. now rewrite fabs_fabs. }
    unfold high_mid_low_error, high_mid_low. split; [cbn [c_cells]; apply map_seq_length|]. split.
    + cbn [c_unit]. now rewrite last_given_3, Ux, Uy, Uz, !either_or.
    + intros i. rewrite cell_map_seq. destruct (Nat.ltb_spec i (numrows t)) as [L|L].
      * rewrite (at_or_zero_cell x (numrows t)), (at_or_zero_cell y (numrows t)), (at_or_zero_cell z (numrows t)), Cx, Cy, Cz by assumption.
        destruct (cell acos v t i), (cell acos a t i), (cell acos b t i); reflexivity.
      * now rewrite !cell_beyond.
  - apply andb_true_iff in H. destruct H as [H H3]. apply andb_true_iff in H. destruct H as [H1 H2].
    destruct (column_read c1 v H1 N) as (x & Ex & (Lx & Ux & Cx) & _). destruct (column_read c2 a H2 N) as (y & Ey & (Ly & Uy & Cy) & Py).
    destruct (column_read c3 b H3 N) as (z & Ez & (Lz & Uz & Cz) & Pz). rewrite Ey, Ez. cbn [bind]. rewrite Py, Pz.
    destruct (in_percent a t || in_percent b t).
    + rewrite Ex. cbn [bind].
      destruct (add_bars_spec t (c_unit x) (scaled_by_value t (c_cells x) (c_cells y)) (scaled_by_value t (c_cells x) (c_cells z))) as (c & Ec & Uc & Cc);
        [apply map_seq_length|apply map_seq_length|].
      rewrite Ec. cbn [bind]. eexists. split; [reflexivity|]. apply holds_abs.
      assert (Lc : length (c_cells c) = numrows t) by (unfold add_bars in Ec; apply bind_ok in Ec; destruct Ec as (cells & Ec & E); injection E as <-; cbn [c_cells]; apply map_res_length in Ec; now rewrite seq_length in Ec).
      split; [exact Lc|]. split; [now rewrite Uc|]. intros i. destruct (Nat.lt_ge_cases i (numrows t)) as [L|L].
      * change (cell_of i c) with (at_row i (c_cells c)). rewrite (Cc i L), !at_row_scaled by assumption.
        change (at_row i (c_cells x)) with (cell_of i x). change (at_row i (c_cells y)) with (cell_of i y). change (at_row i (c_cells z)) with (cell_of i z).
        now rewrite Cx, Cy, Cz.
      * rewrite beyond by assumption. now rewrite !cell_beyond.
    + destruct (add_bars_spec t (last_given [c_unit y; c_unit z]) (c_cells y) (c_cells z) Ly Lz) as (c & Ec & Uc & Cc).
      rewrite Ec. cbn [bind]. eexists. split; [reflexivity|]. apply holds_abs.
      assert (Lc : length (c_cells c) = numrows t) by (unfold add_bars in Ec; apply bind_ok in Ec; destruct Ec as (cells & Ec & E); injection E as <-; cbn [c_cells]; apply map_res_length in Ec; now rewrite seq_length in Ec).
      split; [exact Lc|]. split; [now rewrite Uc, last_given_2, Uy, Uz, either_or|]. intros i. destruct (Nat.lt_ge_cases i (numrows t)) as [L|L].
      * change (cell_of i c) with (at_row i (c_cells c)). rewrite (Cc i L).
        change (at_row i (c_cells y)) with (cell_of i y). change (at_row i (c_cells z)) with (cell_of i z).
        now rewrite Cy, Cz.
      * rewrite beyond by assumption. now rewrite !cell_beyond.
Qed.

(** ** One quantity *)

Fixpoint list_is (ps : list parser) (rs : list reading) : bool :=
  match ps with
  | [] => match rs with [] => true | _ => false end
  | (_, BarnsSqrtE _ _) :: ps' => list_is ps' rs
  | (_, pr) :: ps' => match rs with r :: rs' => pair_is pr r && list_is ps' rs' | [] => false end
  end.

(** Columns [cs], one after the other, amount to [f] and [u]. *)
Definition amounts (cs : list column) (f : nat -> option float) (u : option str) : Prop :=
  Forall (fun c => length (c_cells c) = numrows t) cs /\ first_some (map c_unit cs) = u /\ forall i, first_some (map (cell_of i) cs) = f i.

Lemma amounts_nil : amounts [] (fun _ => None) None.
Proof. split; [constructor|]. split; reflexivity. Qed.
Lemma amounts_cons : forall c cs f u g v, holds c f u -> amounts cs g v -> amounts (c :: cs) (fun i => either (f i) (g i)) (either u v).
Proof.
  intros c cs f u g v (L & U & C) (F & U' & C'). split; [constructor; assumption|]. cbn [map]. split.
  - rewrite first_some_cons, U, U'. apply either_or.
  - intros i. rewrite first_some_cons, C, C'. apply either_or.
Qed.
Lemma amounts_ext : forall cs f u g v, amounts cs f u -> (forall i, f i = g i) -> u = v -> amounts cs g v.
Proof. intros cs f u g v (F & U & C) E <-. split; [exact F|]. split; [exact U|]. intros i. now rewrite C. Qed.

Lemma quantity_cons : forall r rs i, quantity acos (r :: rs) t i = either (value acos r t i) (quantity acos rs t i).
Proof. intros r rs i. unfold quantity. cbn [map]. rewrite first_some_cons. apply either_or. Qed.
Lemma quantity_unit_cons : forall r rs, quantity_unit (r :: rs) t = either (value_unit r t) (quantity_unit rs t).
Proof. intros r rs. unfold quantity_unit. cbn [map]. rewrite first_some_cons. apply either_or. Qed.
Lemma deviation_cons : forall r rs i, deviation acos (r :: rs) t i = either (uncertainty acos r t i) (deviation acos rs t i).
Proof. intros r rs i. unfold deviation. cbn [map]. rewrite first_some_cons. apply either_or. Qed.
Lemma deviation_unit_cons : forall r rs, deviation_unit (r :: rs) t = either (uncertainty_unit r t) (deviation_unit rs t).
Proof. intros r rs. unfold deviation_unit. cbn [map]. rewrite first_some_cons. apply either_or. Qed.

Lemma barns_dummy : forall p c2 c3, snd p = BarnsSqrtE c2 c3 -> barns_free t p ->
  value_of acos (snd p) t = Ok (dummy_column t) /\ error_of acos (snd p) t = Ok (dummy_column t).
Proof.
  intros p c2 c3 E B. pose proof (B c2 c3 E) as M. rewrite value_eq, error_eq, M. cbn [negb]. split; [reflexivity|].
  now rewrite E.
Qed.

Lemma list_read : forall ps rs, list_is ps rs = true -> (forall p, In p ps -> barns_free t p) ->
  exists vs es, map_res (fun p => value_of acos (snd p) t) ps = Ok vs /\ map_res (fun p => error_of acos (snd p) t) ps = Ok es /\
    length vs = length ps /\ length es = length ps /\
    amounts vs (quantity acos rs t) (quantity_unit rs t) /\ amounts es (deviation acos rs t) (deviation_unit rs t).
Proof.
  induction ps as [|[id pr] ps IH]; intros rs H B.
  { destruct rs; [|discriminate]. exists [], []. split; [reflexivity|]. split; [reflexivity|]. split; [reflexivity|]. split; [reflexivity|]. split; exact amounts_nil. }
  assert (B' : forall p, In p ps -> barns_free t p) by (intros p I; apply B; now right).
  assert (G : forall r rs', pair_is pr r = true -> list_is ps rs' = true -> rs = r :: rs' ->
    exists vs es, map_res (fun p => value_of acos (snd p) t) ((id, pr) :: ps) = Ok vs /\ map_res (fun p => error_of acos (snd p) t) ((id, pr) :: ps) = Ok es /\
    length vs = length ((id, pr) :: ps) /\ length es = length ((id, pr) :: ps) /\
    amounts vs (quantity acos rs t) (quantity_unit rs t) /\ amounts es (deviation acos rs t) (deviation_unit rs t)).
  { intros r rs' H1 H2 ->. destruct (IH rs' H2 B') as (vs & es & Ev & Ee & Lv & Le & Av & Ae).
    destruct (read_value pr r H1) as (v & Ev' & Hv). destruct (read_error pr r H1) as (e & Ee' & He).
    exists (v :: vs), (e :: es). cbn [map_res snd]. rewrite Ev', Ev, Ee', Ee. cbn [bind]. split; [reflexivity|]. split; [reflexivity|].
    split; [cbn; now rewrite Lv|]. split; [cbn; now rewrite Le|]. split.
    - eapply amounts_ext; [apply amounts_cons; eassumption|intros i; now rewrite quantity_cons|now rewrite quantity_unit_cons].
    - eapply amounts_ext; [apply amounts_cons; eassumption|intros i; now rewrite deviation_cons|now rewrite deviation_unit_cons]. }
  destruct pr as [c1|c1 c2|c1|c1 c2|c1 c2 c3|c1 c2 c3|c2 c3].
  7:{ cbn [list_is] in H. destruct (IH rs H B') as (vs & es & Ev & Ee & Lv & Le & Av & Ae).
      destruct (barns_dummy (id, BarnsSqrtE c2 c3) c2 c3 eq_refl (B _ (or_introl eq_refl))) as [E1 E2].
      exists (dummy_column t :: vs), (dummy_column t :: es). cbn [map_res]. rewrite E1, E2, Ev, Ee. cbn [bind].
      split; [reflexivity|]. split; [reflexivity|]. split; [cbn; now rewrite Lv|]. split; [cbn; now rewrite Le|].
      split; (eapply amounts_ext; [apply amounts_cons; [exact holds_dummy|eassumption]|reflexivity|reflexivity]). }
  all: cbn [list_is] in H; destruct rs as [|r rs]; [discriminate|]; apply andb_true_iff in H; destruct H as [H1 H2]; exact (G r rs H1 H2 eq_refl).
Qed.

Lemma some_cell : forall c f, length (c_cells c) = numrows t -> (forall i, cell_of i c = f i) ->
  all_none (c_cells c) = negb (existsb (fun i => match f i with Some _ => true | None => false end) (seq 0 (length (t_data t)))).
Proof.
  intros c f L H. apply eq_true_iff_eq. rewrite all_none_cells, negb_true_iff. split.
  - intros N. apply not_true_iff_false. intros X. apply existsb_exists in X. destruct X as (i & _ & X). rewrite <- H, N in X. discriminate.
  - intros N i. destruct (Nat.lt_ge_cases i (numrows t)) as [Li|Li]; [|now apply beyond].
    destruct (cell_of i c) as [x|] eqn:E; [|reflexivity]. exfalso. apply not_true_iff_false in N. apply N. apply existsb_exists.
    exists i. split; [apply in_seq; unfold numrows in Li; lia|]. rewrite <- H, E. reflexivity.
Qed.

Lemma quantity_read : forall ps name rs, ps <> [] -> list_is ps rs = true -> (forall p, In p ps -> barns_free t p) ->
  if has_values acos t (name, rs) then
    exists v e, columns_of acos t ps = Ok (v, e, negb (has_deviations acos t (name, rs))) /\
      holds v (quantity acos rs t) (quantity_unit rs t) /\ holds e (deviation acos rs t) (deviation_unit rs t)
  else columns_of acos t ps = Raise NoValuesGivenError.
Proof.
  intros ps name rs N H B. destruct (list_read ps rs H B) as (vs & es & Ev & Ee & Lv & Le & (Fv & Uv & Cv) & (Fe & Ue & Ce)).
  assert (Nv : vs <> []) by (destruct ps, vs; try discriminate; congruence).
  assert (Ne : es <> []) by (destruct ps, es; try discriminate; congruence).
  destruct (reduce_condense (numrows t) vs Nv Fv) as (v & Rv & L1 & _ & U1 & C1).
  destruct (reduce_condense (numrows t) es Ne Fe) as (e & Re & L2 & _ & U2 & C2).
  unfold columns_of. rewrite Ev, Ee. cbn [bind]. rewrite Rv, Re. cbn [bind].
  rewrite (some_cell v (quantity acos rs t) L1), (some_cell e (deviation acos rs t) L2) by (intros i; congruence).
  unfold has_values, has_deviations. cbn [snd].
  destruct (existsb (fun i => match quantity acos rs t i with Some _ => true | None => false end) (seq 0 (length (t_data t)))); cbn [negb]; [|reflexivity].
  exists v, e. split; [reflexivity|]. split; (split; [assumption|]); (split; [congruence|intros i; congruence]).
Qed.
End Table.

(** ** The whole table *)

Fixpoint maps_are (pm : list (str * list parser)) (qs : list (string * list reading)) : bool :=
  match pm, qs with
  | [], [] => true
  | e :: pm', q :: qs' => str_eqb (fst e) (lit (fst q)) && list_is (snd e) (snd q) && maps_are pm' qs'
  | _, _ => false
  end.
Lemma quantities_ok : forall c, maps_are (parser_map c) (quantities c) = true.
Proof. intros []; vm_compute; reflexivity. Qed.

Definition column_set acos (t : table) (c : str * (column * column * bool)) (q : string * list reading) : Prop :=
  fst c = lit (fst q) /\ holds t (cs_value c) (quantity acos (snd q) t) (quantity_unit (snd q) t) /\
  holds t (cs_error c) (deviation acos (snd q) t) (deviation_unit (snd q) t) /\ cs_none c = negb (has_deviations acos t q).

Lemma sets_read : forall acos t, rect t -> cosines_defined acos t -> forall pm qs, maps_are pm qs = true ->
  (forall e, In e pm -> snd e <> [] /\ forall p, In p (snd e) -> barns_free t p) ->
  if forallb (has_values acos t) qs then
    exists cols, map_res (fun e => c <- columns_of acos t (snd e) ;; Ok (fst e, c)) pm = Ok cols /\ Forall2 (column_set acos t) cols qs
  else map_res (fun e => c <- columns_of acos t (snd e) ;; Ok (fst e, c)) pm = Raise NoValuesGivenError.
Proof.
  intros acos t P CD pm. induction pm as [|[k ps] pm IH]; intros [|[name rs] qs] M B; try discriminate M.
  - cbn. eauto.
  - cbn [maps_are fst snd] in M. apply andb_true_iff in M. destruct M as [M M']. apply andb_true_iff in M. destruct M as [Ek Ml].
    apply str_eqb_eq in Ek. subst k. destruct (B _ (or_introl eq_refl)) as [Ne Bp]. cbn [snd] in Ne, Bp.
    pose proof (quantity_read acos t P CD ps name rs Ne Ml Bp) as Q. specialize (IH qs M' (fun e I => B e (or_intror I))).
    cbn [forallb map_res fst snd]. destruct (has_values acos t (name, rs)); cbn [andb].
    2:{ rewrite Q. reflexivity. }
    destruct Q as (v & e & Ec & Hv & He). rewrite Ec. cbn [bind].
    destruct (forallb (has_values acos t) qs).
    + destruct IH as (cols & Em & F). rewrite Em. cbn [bind]. eexists. split; [reflexivity|]. constructor; [|exact F].
      split; [reflexivity|]. split; [exact Hv|]. split; [exact He|reflexivity].
    + now rewrite IH.
Qed.

Lemma some_none : forall acos t cols qs, Forall2 (column_set acos t) cols qs -> existsb cs_none cols = negb (forallb (has_deviations acos t) qs).
Proof.
  intros acos t cols qs F. induction F as [|c q cols qs (_ & _ & _ & N) F IH]; [reflexivity|]. cbn [existsb forallb]. rewrite N, IH.
  destruct (has_deviations acos t q); reflexivity.
Qed.
Lemma map_related : forall (A B C : Type) (P : A -> B -> Prop) (f : A -> C) (g : B -> C) l m, Forall2 P l m -> (forall x y, P x y -> f x = g y) -> map f l = map g m.
Proof. intros A B C P f g l m F H. induction F as [|x y l m E F IH]; [reflexivity|]. cbn. now rewrite (H x y E), IH. Qed.
Lemma filter_related : forall acos t mk cols qs, Forall2 (column_set acos t) cols qs -> Forall2 (column_set acos t) (with_error mk cols) (with_deviations acos mk t qs).
Proof.
  intros acos t mk cols qs F. unfold with_error, with_deviations. induction F as [|c q cols qs E F IH]; [constructor|]. cbn [filter].
  rewrite (proj2 (proj2 (proj2 E))), negb_involutive. destruct (has_deviations acos t q || mk); [constructor; assumption|exact IH].
Qed.

Lemma final_read : forall acos t mk cols qs, Forall2 (column_set acos t) cols qs -> final_table mk (numrows t) cols = read_table acos mk qs t.
Proof.
  intros acos t mk cols qs F. pose proof (filter_related acos t mk cols qs F) as F'. unfold final_table, read_table. f_equal.
  - f_equal; [apply (map_related _ _ _ _ _ _ _ _ F)|apply (map_related _ _ _ _ _ _ _ _ F')].
    + intros c q (E & _). exact E.
    + intros c q (E & _). now rewrite E.
  - f_equal; [apply (map_related _ _ _ _ _ _ _ _ F)|apply (map_related _ _ _ _ _ _ _ _ F')].
    + intros c q (_ & (_ & U & _) & _). exact U.
    + intros c q (_ & (_ & U & _) & (_ & U' & _) & N). unfold error_unit. rewrite N. destruct (has_deviations acos t q); cbn [negb]; assumption.
  - apply map_ext. intros i. unfold final_row. f_equal; [apply (map_related _ _ _ _ _ _ _ _ F)|apply (map_related _ _ _ _ _ _ _ _ F')].
    + intros c q (_ & (_ & _ & C) & _). rewrite C. reflexivity.
    + intros c q (_ & _ & (_ & _ & C) & N). unfold error_cell, deviation_cell. rewrite N, C. destruct (has_deviations acos t q); reflexivity.
Qed.

Lemma values_rows : forall acos t q, has_values acos t q = true -> 0 < length (t_data t).
Proof. intros acos t q H. unfold has_values in H. destruct (length (t_data t)); [discriminate|lia]. Qed.

Lemma simplified_read : forall acos mk fl d s, table_ok (ds_table d) -> cosines_defined acos (ds_table d) -> ~ barns_root_energy (ds_table d) ->
  ds_simplified d = false -> wanted_columns (ds_class_of d) <> [] ->
  fst (run (getSimplified acos mk fl d) s) =
    let t := ds_table d in
    let qs := quantities (ds_class_of d) in
    if negb (forallb (has_values acos t) qs) then Raise NoValuesGivenError
    else if fl && negb mk && negb (forallb (has_deviations acos t) qs) then Raise NoUncertaintyGivenError
    else Ok (mkDS (ds_class_of d) (ds_meta d) (ds_reaction d) (ds_monitor d) (read_table acos mk qs t) true (ds_coupled d) (ds_frame d)).
Proof.
  intros acos mk fl d s P CD B S W. rewrite run_getSimplified. destruct (simplified_spec acos mk fl d S W) as [-> _]. cbv zeta.
  pose proof (sets_read acos (ds_table d) P CD _ _ (quantities_ok (ds_class_of d))) as Q.
  destruct (forallb (has_values acos (ds_table d)) (quantities (ds_class_of d))) eqn:V; cbn [negb].
  - destruct Q as (cols & -> & F).
    { intros e I. split; [exact (parsers_nonempty _ _ I)|]. intros p Ip. exact (barns_absent _ _ e p P B I Ip). }
    cbn [bind]. rewrite (some_none _ _ _ _ F), (final_read _ _ mk _ _ F).
    assert (L : (0 <? numrows (ds_table d)) = true).
    { apply Nat.ltb_lt. destruct (quantities (ds_class_of d)) as [|q qs] eqn:E.
      - exfalso. apply W. destruct (ds_class_of d); try discriminate E; reflexivity.
      - cbn [forallb] in V. apply andb_true_iff in V. exact (values_rows _ _ _ (proj1 V)). }
    rewrite L, andb_true_r, (andb_comm fl). reflexivity.
  - rewrite Q; [reflexivity|]. intros e I. split; [exact (parsers_nonempty _ _ I)|]. intros p Ip. exact (barns_absent _ _ e p P B I Ip).
Qed.

(** ** Checking the hypotheses *)

Lemma mentions_cos_contains : forall l, mentions_cos l -> contains (lit "COS") l = true.
Proof. intros l (a & b & ->). apply mentions_contains. Qed.
Lemma table_check : forall t, (length (t_units t) =? length (t_labels t)) && forallb (fun u => match u with Some _ => true | None => false end) (t_units t) &&
  forallb (fun r => length r =? length (t_labels t)) (t_data t) = true -> table_ok t.
Proof.
  intros t H. apply andb_true_iff in H. destruct H as [H H3]. apply andb_true_iff in H. destruct H as [H1 H2].
  apply Nat.eqb_eq in H1. rewrite forallb_forall in H2, H3. split; [exact H1|split].
  - apply Forall_forall. intros u I. specialize (H2 u I). now destruct u.
  - apply Forall_forall. intros r I. apply Nat.eqb_eq. exact (H3 r I).
Qed.
Lemma plain_check : forall t, (length (t_units t) =? length (t_labels t)) && forallb (fun u => match u with Some _ => true | None => false end) (t_units t) &&
  forallb (fun r => length r =? length (t_labels t)) (t_data t) && forallb (fun l => negb (contains (lit "COS") l)) (t_labels t) = true -> plain_table t.
Proof.
  intros t H. apply andb_true_iff in H. destruct H as [H H4]. apply andb_true_iff in H. destruct H as [H H3]. apply andb_true_iff in H. destruct H as [H1 H2].
  apply Nat.eqb_eq in H1. rewrite forallb_forall in H2, H3, H4. split; [split; [exact H1|split]|].
  - apply Forall_forall. intros u I. specialize (H2 u I). now destruct u.
  - apply Forall_forall. intros r I. apply Nat.eqb_eq. exact (H3 r I).
  - intros l I M. specialize (H4 l I). rewrite (mentions_cos_contains l M) in H4. discriminate.
Qed.
Lemma barns_check : forall t, existsb (fun u => match u with Some u => named ["B*RT-EV"; "MB*RT-EV"] u | None => false end) (t_units t) = false ->
  ~ barns_root_energy t.
Proof.
  intros t H (j & _ & F). destruct (F _ eq_refl) as (u & E & I). apply nth_error_In in E.
  apply not_true_iff_false in H. apply H. apply existsb_exists. exists (Some u). split; [exact E|]. apply named_in.
  destruct I as [<-|[<-|[]]]; [exists "B*RT-EV"|exists "MB*RT-EV"]; (split; [cbn; auto|reflexivity]).
Qed.
Lemma plain_cosines : forall acos t, plain_table t -> cosines_defined acos t.
Proof. intros acos t (_ & N) j l row c x El M. exfalso. apply (N l); [|exact M]. eapply nth_error_In; exact El. Qed.

(** ** Ways to fail *)

Lemma failures_read : forall acos mk fl d s, table_ok (ds_table d) -> cosines_defined acos (ds_table d) -> ~ barns_root_energy (ds_table d) ->
  wanted_columns (ds_class_of d) <> [] ->
  (exists d', fst (run (getSimplified acos mk fl d) s) = Ok d') \/
  fst (run (getSimplified acos mk fl d) s) = Raise NoValuesGivenError \/
  (fst (run (getSimplified acos mk fl d) s) = Raise NoUncertaintyGivenError /\ mk = false /\ fl = true).
Proof.
  intros acos mk fl d s T CD N W. destruct (ds_simplified d) eqn:S.
  { left. exists d. rewrite run_getSimplified. unfold simplified, simplified_with. rewrite S. destruct (ds_class_of d); try reflexivity; cbn in W; congruence. }
  rewrite (simplified_read acos mk fl d s T CD N S W). cbv zeta. destruct (negb (forallb (has_values _ _) _)); [auto|].
  destruct fl, mk; cbn [andb negb]; eauto. destruct (negb _); eauto.
Qed.
Lemma map_res_each : forall (A B : Type) (f : A -> res B) l ys x, map_res f l = Ok ys -> In x l -> exists y, f x = Ok y.
Proof.
  intros A B f l. induction l as [|z l IH]; intros ys x H I; [destruct I|]. cbn [map_res] in H. apply bind_ok in H. destruct H as (y & Ey & H).
  apply bind_ok in H. destruct H as (ys' & E & _). destruct I as [<-|I]; [eauto|exact (IH _ _ E I)].
Qed.
Lemma maps_list : forall pm qs e, maps_are pm qs = true -> In e pm -> exists rs, list_is (snd e) rs = true.
Proof.
  induction pm as [|x pm IH]; intros [|q qs] e M I; try discriminate M; [destruct I|]. cbn [maps_are] in M.
  apply andb_true_iff in M. destruct M as [M M']. apply andb_true_iff in M. destruct M as [_ M].
  destruct I as [<-|I]; [eauto|exact (IH _ _ M' I)].
Qed.
Lemma columns_read_total : forall acos p d s, table_ok d -> cosines_defined acos d -> ~ barns_root_energy d -> (exists c e, In e (parser_map c) /\ In p (snd e)) ->
  (exists col, fst (run (getValue acos p d) s) = Ok col) /\ (exists col, fst (run (getError acos p d) s) = Ok col).
Proof.
  intros acos p d s T CD N (c & e & Ie & Ip). rewrite run_getValue, run_getError.
  destruct (maps_list _ _ e (quantities_ok c) Ie) as (rs & L).
  destruct (list_read acos d T CD (snd e) rs L) as (vs & es & Ev & Ee & _).
  { intros q Iq. eapply barns_absent; eassumption. }
  split; [exact (map_res_each _ _ _ _ _ _ Ev Ip)|exact (map_res_each _ _ _ _ _ _ Ee Ip)].
Qed.
