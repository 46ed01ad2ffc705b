(** Columns: unit conversion, full columns, first value wins, uncertainties. *)
From Coq Require Import String List Ascii NArith ZArith Bool Arith Lia.
From Coq Require Import Floats.SpecFloat.
From Verif.Model Require Import Py PyFloat Columns.
From Verif.Spec Require Import Text Tables.
From Verif.Proofs Require Import StrLemmas FloatLemmas ReactionLemmas DataLemmas ProgLemmas ColumnLemmas.
Import ListNotations.
Local Open Scope string_scope.
Local Open Scope list_scope.

(** ** Multiplying by one and adding zero *)

Section Exact.
Local Open Scope Z_scope.
Lemma f1_eq : f1 = S754_finite false 4503599627370496 (-52).
Proof. vm_compute. reflexivity. Qed.
Lemma round_exact : forall s m e, bounded fprec femax m e = true ->
  binary_round_aux fprec femax s (Zpos (m * 4503599627370496)) (e + -52) loc_Exact = S754_finite s m e.
Proof.
  intros s m e B. apply andb_true_iff in B. destruct B as [C L]. unfold canonical_mantissa in C.
  apply Zeq_bool_eq in C.
  assert (D : Zpos (digits2_pos (m * 4503599627370496)) = Zpos (digits2_pos m) + 52).
  { rewrite Pos.mul_comm. cbn [Pos.mul digits2_pos]. rewrite !Pos2Z.inj_succ. lia. }
  unfold binary_round_aux, shr_fexp at 1. cbn [Zdigits2]. rewrite D.
  replace (Zpos (digits2_pos m) + 52 + (e + -52)) with (Zpos (digits2_pos m) + e) by lia.
  rewrite C. replace (e - (e + -52)) with 52 by lia. rewrite Pos.mul_comm. cbn [Pos.mul shr_record_of_loc].
  assert (S : shr {| shr_m := Zpos (m~0~0~0~0~0~0~0~0~0~0~0~0~0~0~0~0~0~0~0~0~0~0~0~0~0~0~0~0~0~0~0~0~0~0~0~0~0~0~0~0~0~0~0~0~0~0~0~0~0~0~0~0); shr_r := false; shr_s := false |} (e + -52) 52
    = ({| shr_m := Zpos m; shr_r := false; shr_s := false |}, e + -52 + 52)).
  { unfold shr. f_equal. }
  rewrite S. cbn [shr_m loc_of_shr_record round_nearest_even]. replace (e + -52 + 52) with e by lia.
  unfold shr_fexp. cbn [Zdigits2]. rewrite C. replace (e - e) with 0 by lia. cbn [shr shr_record_of_loc shr_m].
  rewrite L. reflexivity.
Qed.
Lemma fmul_one : forall x, valid_binary fprec femax x = true -> fmul x f1 = x.
Proof.
  intros x V. rewrite f1_eq. destruct x as [s|s| |s m e]; cbn; try now rewrite ?xorb_false_r.
  rewrite xorb_false_r. now apply round_exact.
Qed.
Lemma fadd_zero : forall x, x <> S754_zero true -> fadd x fzero = x.
Proof. intros [[]|[]| |s m e] N; cbn; congruence. Qed.

End Exact.
Local Open Scope nat_scope.

(** ** Units *)

Definition entry_ok (e : string * string * (N * Z)) : bool :=
  let '(u, c, (m, x)) := e in
  let '(f, c') := find_conversion unit_map_of_maps (lit u) in
  str_eqb c' (lit c) && match f, fl m x with
                        | S754_finite s a b, S754_finite s' a' b' => Bool.eqb s s' && Pos.eqb a a' && Z.eqb b b'
                        | _, _ => false
                        end.
Lemma entries_ok : forallb entry_ok unit_table = true.
Proof. vm_compute. reflexivity. Qed.
Lemma conversion_listed : forall u c m x, In (u, c, (m, x)) unit_table -> getConversion (Some (lit u)) = Ok (fl m x, lit c).
Proof.
  intros u c m x I. pose proof (proj1 (forallb_forall _ _) entries_ok _ I) as H. unfold entry_ok in H.
  cbn [getConversion]. destruct (find_conversion unit_map_of_maps (lit u)) as [f c'].
  apply andb_true_iff in H. destruct H as [H1 H2]. apply str_eqb_eq in H1. subst c'.
  destruct f as [| | |s a b]; try discriminate. destruct (fl m x) as [| | |s' a' b']; try discriminate.
  apply andb_true_iff in H2. destruct H2 as [H2 H3]. apply andb_true_iff in H2. destruct H2 as [H1 H2].
  apply eqb_prop in H1. apply Pos.eqb_eq in H2. apply Z.eqb_eq in H3. now subst.
Qed.

Definition all_units : list str := concat (map (fun e => dkeys (snd e)) unit_map_of_maps).
Lemma all_units_listed : forallb (fun u => existsb (str_eqb u) (map (fun e => lit (fst (fst e))) unit_table ++ map lit odd_units)) all_units = true.
Proof. vm_compute. reflexivity. Qed.
Lemma dget_none_keys : forall (V : Type) (l : list (str * V)) k, ~ In k (dkeys l) -> dget str_eqb k l = None.
Proof.
  induction l as [|[k' v] l IH]; intros k N; cbn in *; [reflexivity|].
  destruct (str_eqb k k') eqn:E; [apply str_eqb_eq in E; subst; tauto|]. apply IH. tauto.
Qed.
Lemma find_conversion_none : forall maps u, (forall e, In e maps -> ~ In u (dkeys (snd e))) -> find_conversion maps u = (f1, u).
Proof.
  induction maps as [|[c m] maps IH]; intros u H; cbn [find_conversion]; [reflexivity|].
  assert (E : dget str_eqb u m = None) by exact (dget_none_keys _ _ _ (H (c, m) (or_introl eq_refl))).
  rewrite E. apply IH. intros e I. apply H. now right.
Qed.
Lemma conversion_unlisted : forall u,
  (forall e, In e unit_table -> u <> lit (fst (fst e))) -> (forall v, In v odd_units -> u <> lit v) ->
  getConversion (Some u) = Ok (f1, u).
Proof.
  intros u N1 N2. cbn [getConversion]. f_equal. apply find_conversion_none. intros e Ie Iu.
  assert (A : In u all_units). { unfold all_units. apply in_concat. exists (dkeys (snd e)). split; [|exact Iu].
    apply in_map_iff. exists e. auto. }
  pose proof (proj1 (forallb_forall _ _) all_units_listed _ A) as H. apply existsb_exists in H.
  destruct H as (v & Iv & E). apply str_eqb_eq in E. subst v. apply in_app_iff in Iv. destruct Iv as [Iv|Iv].
  - apply in_map_iff in Iv. destruct Iv as (x & <- & Ix). now apply (N1 x).
  - apply in_map_iff in Iv. destruct Iv as (x & <- & Ix). now apply (N2 x).
Qed.
Lemma conversion_odd : getConversion (Some (lit "RAD")) = Ok (fdiv (fl 180 0) pi, lit "degrees") /\
  getConversion (Some (lit "SR")) = Ok (fdiv (fl 180 0) pi, lit "degrees") /\
  getConversion (Some (lit "K")) = Ok (fl 8621738 (-17), lit "MeV").
Proof. split; [|split]; vm_compute; reflexivity. Qed.
Lemma conversion_canonical : forall c, In c canonical_units -> getConversion (Some (lit c)) = Ok (f1, lit c).
Proof.
  intros c I. cbn [canonical_units In] in I.
  repeat (destruct I as [<-|I]; [vm_compute; reflexivity|]). contradiction.
Qed.
Lemma canonical_listed : forall u c m x, In (u, c, (m, x)) unit_table -> In c canonical_units.
Proof.
  assert (H : forallb (fun e => existsb (String.eqb (snd (fst e))) canonical_units) unit_table = true) by (vm_compute; reflexivity).
  intros u c m x I. pose proof (proj1 (forallb_forall _ _) H _ I) as E. cbn [fst snd] in E.
  apply existsb_exists in E. destruct E as (c' & Ic & E). apply String.eqb_eq in E. now subst.
Qed.

(** ** Matching *)

Definition rect (d : table) : Prop := rectangular (t_labels d) (t_units d) (t_data d).
Definition fits (c : colparser) (d : table) (j : nat) : Prop := column_fits (t_labels d) (t_units d) (cp_labels c) (cp_units c) j.

Lemma smem_in : forall x l, smem x l = true <-> In x l.
Proof.
  intros x l. unfold smem. rewrite existsb_exists. split.
  - intros (y & I & E). apply str_eqb_eq in E. now subst.
  - intros I. exists x. split; [assumption|]. now apply str_eqb_eq.
Qed.

Lemma nth_error_ex : forall (A : Type) (l : list A) j, j < length l -> exists x, nth_error l j = Some x.
Proof. intros A l j H. destruct (nth_error l j) eqn:E; [eauto|]. apply nth_error_None in E. lia. Qed.
Lemma nth_error_lt : forall (A : Type) (l : list A) j x, nth_error l j = Some x -> j < length l.
Proof. intros A l j x E. apply nth_error_Some. congruence. Qed.

Lemma isMatch_dec : forall c d j, length (t_units d) = length (t_labels d) ->
  exists b, cp_isMatch c (Z.of_nat j) d = Ok b /\ (b = true <-> fits c d j).
Proof.
  intros c d j U. unfold cp_isMatch, numcols, fits, column_fits.
  destruct (Nat.lt_ge_cases j (length (t_labels d))) as [L|L].
  - replace ((Z.of_nat j <? 0) || (Z.of_nat (length (t_labels d)) <=? Z.of_nat j))%Z with false by lia.
    destruct (nth_error_ex _ _ _ L) as [l El].
    assert (L' : j < length (t_units d)) by lia. destruct (nth_error_ex _ _ _ L') as [u Eu].
    rewrite (proj2 (zidx_nat _ _ _ _) El), (proj2 (zidx_nat _ _ _ _) Eu). cbn [bind].
    assert (HL : exists b, match cp_labels c with None => Ok true | Some ls => Ok (smem l ls) end = Ok b /\
              (b = true <-> forall ls, cp_labels c = Some ls -> In l ls)).
    { destruct (cp_labels c) as [ls|]; eexists; (split; [reflexivity|]).
      - rewrite smem_in. split; [intros H ls' E; injection E as <-; exact H|intros H; now apply H].
      - split; [discriminate|auto]. }
    destruct HL as (b1 & -> & H1). cbn [bind].
    destruct (cp_units c) as [us|].
    + destruct b1.
      * eexists. split; [reflexivity|]. unfold omem. destruct u as [u|].
        -- rewrite smem_in. split.
           ++ intros I. split; [exists l; split; [assumption|now apply H1]|]. intros us' E. injection E as <-. exists u. auto.
           ++ intros [_ H]. destruct (H us eq_refl) as (u' & E & I). congruence.
        -- split; [discriminate|]. intros [_ H]. destruct (H us eq_refl) as (u' & E & I). congruence.
      * eexists. split; [reflexivity|]. split; [discriminate|]. intros [(l' & E & H) _].
        apply H1. replace l with l' by congruence. exact H.
    + exists b1. split; [reflexivity|]. split.
      * intros E. split; [exists l; split; [assumption|now apply H1]|discriminate].
      * intros [(l' & E & H) _]. apply H1. replace l with l' by congruence. exact H.
  - replace ((Z.of_nat j <? 0) || (Z.of_nat (length (t_labels d)) <=? Z.of_nat j))%Z with true by lia.
    exists false. split; [reflexivity|]. split; [discriminate|]. intros [(l & E & _) _]. apply nth_error_lt in E. lia.
Qed.

Lemma isMatch_iff : forall c d j, length (t_units d) = length (t_labels d) ->
  (cp_isMatch c (Z.of_nat j) d = Ok true <-> fits c d j) /\ (cp_isMatch c (Z.of_nat j) d = Ok false <-> ~ fits c d j).
Proof.
  intros c d j U. destruct (isMatch_dec c d j U) as (b & E & H). rewrite E. destruct b.
  - split; (split; [intros X; try discriminate X|intros X]); [now apply H|reflexivity|].
    exfalso. apply X. now apply H.
  - split; (split; [intros X; try discriminate X|intros X]).
    + apply H in X. discriminate.
    + intros F. apply H in F. discriminate.
    + reflexivity.
Qed.

Lemma first_match_in_spec : forall c d n k, length (t_units d) = length (t_labels d) ->
  (exists j, first_match_in c d (seq k n) = Ok (Z.of_nat j) /\ k <= j < k + n /\ fits c d j /\ (forall i, k <= i < j -> ~ fits c d i))
  \/ (first_match_in c d (seq k n) = Ok (-1)%Z /\ forall i, k <= i < k + n -> ~ fits c d i).
Proof.
  intros c d n. induction n as [|n IH]; intros k U; cbn [seq first_match_in].
  - right. split; [reflexivity|]. intros i H. lia.
  - destruct (isMatch_dec c d k U) as (b & E & H). rewrite E. cbn [bind]. destruct b.
    + left. exists k. split; [reflexivity|]. split; [lia|]. split; [now apply H|]. intros i Hi. lia.
    + assert (N : ~ fits c d k) by (intros F; apply H in F; discriminate).
      destruct (IH (S k) U) as [(j & E' & R & F & M)|(E' & M)].
      * left. exists j. split; [assumption|]. split; [lia|]. split; [assumption|]. intros i Hi.
        destruct (Nat.eq_dec i k); [now subst|]. apply M. lia.
      * right. split; [assumption|]. intros i Hi. destruct (Nat.eq_dec i k); [now subst|]. apply M. lia.
Qed.
Lemma fits_lt : forall c d j, fits c d j -> j < numcols d.
Proof. intros c d j [(l & E & _) _]. now apply nth_error_lt in E. Qed.
Lemma firstMatch_spec : forall c d, length (t_units d) = length (t_labels d) ->
  (exists j, firstMatch c d = Ok (Z.of_nat j) /\ first_such (fits c d) j) \/ (firstMatch c d = Ok (-1)%Z /\ forall i, ~ fits c d i).
Proof.
  intros c d U. unfold firstMatch. destruct (first_match_in_spec c d (numcols d) 0 U) as [(j & E & R & F & M)|(E & M)].
  - left. exists j. split; [assumption|]. split; [assumption|]. intros i Hi. apply M. lia.
  - right. split; [assumption|]. intros i F. apply (M i); [|assumption]. apply fits_lt in F. lia.
Qed.
Lemma firstMatch_iff : forall c d, length (t_units d) = length (t_labels d) ->
  (forall j, firstMatch c d = Ok (Z.of_nat j) <-> first_such (fits c d) j) /\
  (firstMatch c d = Ok (-1)%Z <-> forall i, ~ fits c d i).
Proof.
  intros c d U. destruct (firstMatch_spec c d U) as [(j & E & F)|(E & N)].
  - split.
    + intros j'. rewrite E. split.
      * intros X. injection X as X. apply Nat2Z.inj in X. now subst.
      * intros [F1 F2]. do 2 f_equal. destruct (Nat.lt_trichotomy j j') as [L|[L|L]]; [|assumption|].
        -- exfalso. apply (F2 j L). apply F.
        -- exfalso. apply (proj2 F j' L). exact F1.
    + rewrite E. split; [intros X; injection X; lia|]. intros N. exfalso. apply (N j), F.
  - split.
    + intros j'. rewrite E. split; [intros X; injection X; lia|]. intros [F1 _]. exfalso. now apply (N j').
    + rewrite E. tauto.
Qed.

(** ** Columns *)

Lemma map_res_nth : forall (A B : Type) (f : A -> res B) l, (forall x, In x l -> exists y, f x = Ok y) ->
  exists ys, map_res f l = Ok ys /\ length ys = length l /\ forall i x, nth_error l i = Some x -> exists y, f x = Ok y /\ nth_error ys i = Some y.
Proof.
  intros A B f. induction l as [|x l IH]; intros H.
  - exists []. split; [reflexivity|]. split; [reflexivity|]. intros [|i] x E; discriminate E.
  - destruct (H x (or_introl eq_refl)) as [y Ey]. destruct IH as (ys & E & L & N); [intros z Iz; apply H; now right|].
    exists (y :: ys). cbn [map_res]. rewrite Ey, E. cbn [bind]. split; [reflexivity|]. split; [cbn; now rewrite L|].
    intros [|i] z Ez; cbn in *; [injection Ez as <-; eauto|auto].
Qed.

(** The parser is no angle parser, or the label does not say COS. *)
Definition straight (c : colparser) (l : str) : Prop := cp_angle c = false \/ contains (lit "COS") l = false.

Lemma getColumn_straight : forall acos c d j l, nth_error (t_labels d) j = Some l -> straight c l ->
  getColumn acos c (Z.of_nat j) d = base_getColumn c (Z.of_nat j) d.
Proof.
  intros acos c d j l El [H|H]; unfold getColumn.
  - now rewrite H.
  - destruct (cp_angle c); [|reflexivity]. cbn [negb]. rewrite (proj2 (zidx_nat _ _ _ _) El). cbn [bind]. now rewrite H.
Qed.

Lemma converted_column : forall acos c d j, rect d -> fits c d j ->
  (forall l, nth_error (t_labels d) j = Some l -> straight c l) ->
  exists l u f canonical col,
    nth_error (t_labels d) j = Some l /\ nth_error (t_units d) j = Some (Some u) /\ getConversion (Some u) = Ok (f, canonical) /\
    getColumn acos c (Z.of_nat j) d = Ok col /\
    c_label col = Some l /\ c_unit col = Some canonical /\ length (c_cells col) = numrows d /\
    forall i row cell, nth_error (t_data d) i = Some row -> nth_error row j = Some cell ->
      nth_error (c_cells col) i =
        Some (match cell with
              | VNone => None
              | VFloat x => Some (fadd (fmul (fmul x f) (cp_scale c)) (cp_offset c))
              | VZero => Some (fadd (fmul (fmul fzero f) (cp_scale c)) (cp_offset c))
              end).
Proof.
  intros acos c d j (U & N & R) F S. pose proof (fits_lt _ _ _ F) as L. unfold numcols in L.
  destruct (nth_error_ex _ _ _ L) as [l El]. assert (L' : j < length (t_units d)) by lia.
  destruct (nth_error_ex _ _ _ L') as [[u|] Eu].
  2:{ exfalso. rewrite Forall_forall in N. apply (N None); [|reflexivity]. eapply nth_error_In; eassumption. }
  destruct (getConversion (Some u)) as [[f canonical]|] eqn:G; [|discriminate G].
  rewrite (getColumn_straight acos c d j l El (S l El)). unfold base_getColumn.
  rewrite (proj2 (proj1 (isMatch_iff c d j U)) F). cbn [bind negb].
  rewrite (proj2 (zidx_nat _ _ _ _) Eu), (proj2 (zidx_nat _ _ _ _) El). cbn [bind]. rewrite G. cbn [bind].
  edestruct (map_res_nth _ _ (fun row => c0 <- zidx row (Z.of_nat j) ;;
     Ok (option_map (fun x => fadd (fmul (fmul x f) (cp_scale c)) (cp_offset c)) (cell_num c0))) (t_data d)) as (ys & E & Ly & Ny).
  { intros row Ir. rewrite Forall_forall in R. specialize (R row Ir). assert (Lr : j < length row) by lia.
    destruct (nth_error_ex _ _ _ Lr) as [x Ex]. rewrite (proj2 (zidx_nat _ _ _ _) Ex). cbn [bind]. eauto. }
  rewrite E. cbn [bind]. exists l, u, f, canonical, (mkColumn (Some l) (Some canonical) ys).
  split; [assumption|]. split; [assumption|]. split; [exact G|]. split; [reflexivity|]. split; [reflexivity|].
  split; [reflexivity|]. split; [exact Ly|]. intros i row cell Er Ec. destruct (Ny i row Er) as (y & Ey & Ny').
  rewrite (proj2 (zidx_nat _ _ _ _) Ec) in Ey. cbn [bind] in Ey. injection Ey as <-. cbn [c_cells]. rewrite Ny'.
  now destruct cell.
Qed.

(** A column in a canonical unit, read without scale and offset, stays as it is. *)
Lemma canonical_column : forall acos c d j u, rect d -> fits c d j ->
  (forall l, nth_error (t_labels d) j = Some l -> straight c l) ->
  In u canonical_units -> nth_error (t_units d) j = Some (Some (lit u)) -> cp_scale c = fl 1 0 -> cp_offset c = fzero ->
  exists col, getColumn acos c (Z.of_nat j) d = Ok col /\ c_unit col = Some (lit u) /\ length (c_cells col) = numrows d /\
    forall i row x, nth_error (t_data d) i = Some row -> nth_error row j = Some (VFloat x) -> is_double x -> x <> S754_zero true ->
      nth_error (c_cells col) i = Some (Some x).
Proof.
  intros acos c d j u R F S I Eu Sc Of. destruct (converted_column acos c d j R F S) as (l & u' & f & can & col & El & Eu' & G & E & Lb & Un & Ln & Ce).
  rewrite Eu in Eu'. injection Eu' as <-. rewrite (conversion_canonical u I) in G. injection G as <- <-.
  exists col. split; [assumption|]. split; [assumption|]. split; [assumption|]. intros i row x Er Ex D Z.
  rewrite (Ce i row _ Er Ex), Sc, Of. do 2 f_equal. change (fl 1 0) with f1. rewrite !(fmul_one x D). now apply fadd_zero.
Qed.
