(** The table getSimplified builds. *)
From Coq Require Import String List Ascii NArith ZArith Bool Arith Lia.
From Coq Require Import Floats.SpecFloat.
From Verif.Model Require Import Py PyFloat Utilities Dicts Particle Reaction Field Section Entry Columns Dataset.
From Verif.Spec Require Import Text Tables.
From Verif.Proofs Require Import StrLemmas FloatLemmas ReactionLemmas DictLemmas DataLemmas ProgLemmas ColumnLemmas SimplifyLemmas UnitLemmas ValueLemmas.
Import ListNotations.
Local Open Scope string_scope.
Local Open Scope list_scope.
Local Open Scope nat_scope.

Notation colset := (list ascii * (column * column * bool))%type (only parsing).
Definition cs_value (c : colset) : column := fst (fst (snd c)).
Definition cs_error (c : colset) : column := snd (fst (snd c)).
Definition cs_none (c : colset) : bool := snd (snd c).
Definition with_error (makeAll : bool) (cols : list colset) : list colset := filter (fun c => negb (cs_none c) || makeAll) cols.
Definition error_unit (c : colset) : option str := if cs_none c then c_unit (cs_value c) else c_unit (cs_error c).
Definition error_cell (i : nat) (c : colset) : dcell := if cs_none c then VFloat fzero else of_num (cell_of i (cs_error c)).
Definition final_row (makeAll : bool) (cols : list colset) (i : nat) : list dcell :=
  map (fun c => of_num (cell_of i (cs_value c))) cols ++ map (error_cell i) (with_error makeAll cols).
Definition final_table (makeAll : bool) (n : nat) (cols : list colset) : table :=
  mkTable (map fst cols ++ map (fun c => error_name (fst c)) (with_error makeAll cols))
          (map (fun c => c_unit (cs_value c)) cols ++ map error_unit (with_error makeAll cols))
          (map (final_row makeAll cols) (seq 0 n)).

Lemma dget_in_nodup : forall (V : Type) (l : list (str * V)) k v, NoDup (map fst l) -> In (k, v) l -> dget str_eqb k l = Some v.
Proof.
  induction l as [|[k' v'] l IH]; intros k v N I; [contradiction|]. cbn [map fst] in N. inversion N as [|? ? N1 N2]; subst.
  cbn [dget]. destruct I as [E|I].
  - injection E as -> ->. now rewrite str_eqb_refl.
  - destruct (str_eqb k k') eqn:E; [|now apply IH]. apply str_eqb_eq in E. subst. exfalso. apply N1.
    apply in_map_iff. exists (k', v). auto.
Qed.

Lemma map_res_names : forall (B : Type) (g : str -> res B) (h : colset -> B) cols,
  (forall c, In c cols -> g (fst c) = Ok (h c)) -> map_res g (map fst cols) = Ok (map h cols).
Proof.
  intros B g h. induction cols as [|c cols IH]; intros H; [reflexivity|]. cbn [map map_res].
  rewrite (H c (or_introl eq_refl)), IH; [reflexivity|]. intros x I. apply H. now right.
Qed.
Lemma concat_filter : forall (A B : Type) (p : A -> bool) (f : A -> B) l,
  concat (map (fun x => if p x then [f x] else []) l) = map f (filter p l).
Proof. induction l as [|x l IH]; [reflexivity|]. cbn. destruct (p x); cbn; now rewrite IH. Qed.

Lemma idx_cell : forall c n i, length (c_cells c) = n -> i < n -> idx (c_cells c) i = Ok (cell_of i c).
Proof.
  intros c n i L H. unfold cell_of. destruct (nth_error_ex _ (c_cells c) i) as [x E]; [lia|]. rewrite E. now apply idx_ok.
Qed.

Lemma assemble_spec : forall mk fl n cols, NoDup (map fst cols) ->
  (forall c, In c cols -> length (c_cells (cs_value c)) = n /\ length (c_cells (cs_error c)) = n) ->
  assemble mk fl n cols (map fst cols) =
    if negb mk && fl && existsb cs_none cols && (0 <? n) then Raise NoUncertaintyGivenError else Ok (final_table mk n cols).
Proof.
  intros mk fl n cols N L. unfold assemble.
  assert (G : forall c, In c cols -> of_option KeyError (dget str_eqb (fst c) cols) = Ok (cs_value c, cs_error c, cs_none c)).
  { intros [k [[v e] b]] I. cbn [fst]. now rewrite (dget_in_nodup _ cols k (v, e, b) N I). }
  rewrite (map_res_names _ _ (fun c => (fst c, c_unit (cs_value c)))) by (intros c I; now rewrite (G c I)).
  cbn [bind].
  rewrite (map_res_names _ _ (fun c => if negb (cs_none c) || mk then [(error_name (fst c), error_unit c)] else []))
    by (intros c I; now rewrite (G c I)).
  cbn [bind].
  assert (V : forall i, i < n -> map_res (fun c => '(v, e, none) <- of_option KeyError (dget str_eqb c cols) ;;
              x <- idx (c_cells v) i ;; Ok (of_num x)) (map fst cols) = Ok (map (fun c => of_num (cell_of i (cs_value c))) cols)).
  { intros i Hi. apply map_res_names. intros c I. rewrite (G c I). cbn [bind].
    rewrite (idx_cell _ n i (proj1 (L c I)) Hi). reflexivity. }
  destruct (negb mk && fl && existsb cs_none cols && (0 <? n)) eqn:Bad.
  - apply andb_true_iff in Bad. destruct Bad as [Bad Hn]. apply andb_true_iff in Bad. destruct Bad as [Bad Hx].
    apply andb_true_iff in Bad. destruct Bad as [Hm ->]. destruct mk; [discriminate|]. clear Hm.
    apply Nat.ltb_lt in Hn. destruct n as [|n]; [lia|]. cbn [seq map_res]. rewrite (V 0 Hn). cbn [bind].
    match goal with |- context[map_res ?f (map fst cols)] => assert (X : map_res f (map fst cols) = Raise NoUncertaintyGivenError) end.
    { match goal with |- map_res ?f _ = _ => enough (X : forall l, incl l cols -> existsb cs_none l = true ->
        map_res f (map fst l) = Raise NoUncertaintyGivenError) by (apply X; [apply incl_refl|assumption]) end.
      induction l as [|c l IH]; intros Sub Hl; [discriminate|]. cbn [map map_res existsb] in *.
      assert (Ic : In c cols) by (apply Sub; now left).
      rewrite (G c Ic). cbn [bind]. destruct (cs_none c); [reflexivity|].
      rewrite (idx_cell _ (S n) 0 (proj2 (L c Ic)) Hn). cbn [bind].
      rewrite IH; [reflexivity| |assumption]. intros y I. apply Sub. now right. }
    rewrite X. reflexivity.
  - match goal with |- context[map_res ?f (seq 0 n)] => assert (X : map_res f (seq 0 n) = Ok (map (final_row mk cols) (seq 0 n))) end.
    { apply map_res_seq_intro; [now rewrite map_length, seq_length|]. intros i Hi. rewrite (V i Hi). cbn [bind].
      rewrite (map_res_names _ _ (fun c => if negb (cs_none c) || mk then [error_cell i c] else [])).
      - cbn [bind]. rewrite concat_filter. rewrite nth_error_map_seq by assumption. reflexivity.
      - intros c I. rewrite (G c I). cbn [bind]. unfold error_cell. destruct (cs_none c) eqn:En; cbn [negb orb].
        + destruct mk; [reflexivity|]. destruct fl; [|reflexivity]. exfalso. cbn [negb andb] in Bad.
          rewrite (proj2 (existsb_exists cs_none cols)) in Bad by eauto. cbn [andb] in Bad. apply Nat.ltb_ge in Bad. lia.
        + rewrite (idx_cell _ n i (proj2 (L c I)) Hi). reflexivity. }
    rewrite X. cbn [bind]. f_equal. unfold final_table. rewrite concat_filter, !map_map. reflexivity.
Qed.

(** ** Reading the columns *)

Lemma all_none_iff : forall l, all_none l = true <-> forall x, In x l -> x = None.
Proof.
  intros l. unfold all_none. rewrite forallb_forall. split; intros H x I.
  - specialize (H x I). now destruct x.
  - now rewrite (H x I).
Qed.
Lemma all_none_cells : forall c, all_none (c_cells c) = true <-> forall i, cell_of i c = None.
Proof.
  intros c. rewrite all_none_iff. unfold cell_of. split.
  - intros H i. destruct (nth_error (c_cells c) i) eqn:E; [|reflexivity]. apply H. eapply nth_error_In; eassumption.
  - intros H x I. apply In_nth_error in I. destruct I as [i E]. specialize (H i). now rewrite E in H.
Qed.

Lemma columns_of_spec : forall acos t ps v e none, columns_of acos t ps = Ok (v, e, none) ->
  exists vs es,
    Forall2 (fun p c => value_of acos (snd p) t = Ok c) ps vs /\ Forall2 (fun p c => error_of acos (snd p) t = Ok c) ps es /\
    length (c_cells v) = numrows t /\ length (c_cells e) = numrows t /\
    c_unit v = first_some (map c_unit vs) /\ c_unit e = first_some (map c_unit es) /\
    (forall i, cell_of i v = first_some (map (cell_of i) vs)) /\ (forall i, cell_of i e = first_some (map (cell_of i) es)) /\
    (exists i, cell_of i v <> None) /\ (none = true <-> forall i, cell_of i e = None).
Proof.
  intros acos t ps v e none E. unfold columns_of in E. apply bind_ok in E. destruct E as (vs & Ev & E).
  apply bind_ok in E. destruct E as (v' & Rv & E). apply bind_ok in E. destruct E as (es & Ee & E).
  apply bind_ok in E. destruct E as (e' & Re & E). destruct (all_none (c_cells v')) eqn:A; [discriminate|].
  injection E as <- <- <-. apply map_res_Forall2 in Ev, Ee. exists vs, es. split; [assumption|]. split; [assumption|].
  assert (Lv : Forall (fun c => length (c_cells c) = numrows t) vs).
  { clear - Ev. induction Ev; constructor; auto. now apply value_of_length in H. }
  assert (Le : Forall (fun c => length (c_cells c) = numrows t) es).
  { clear - Ee. induction Ee; constructor; auto. now apply error_of_length in H. }
  destruct (reduce_condense (numrows t) vs) with (2 := Lv) as (c & Ec & Lc & _ & Uc & Cc); [intros ->; discriminate Rv|].
  rewrite Rv in Ec. injection Ec as <-.
  destruct (reduce_condense (numrows t) es) with (2 := Le) as (c & Ec & Lc' & _ & Uc' & Cc'); [intros ->; discriminate Re|].
  rewrite Re in Ec. injection Ec as <-.
  split; [assumption|]. split; [assumption|]. split; [assumption|]. split; [assumption|]. split; [assumption|]. split; [assumption|].
  split; [|apply all_none_cells].
  destruct (Exists_dec (fun x => x <> None) (c_cells v')) as [X|X].
  { intros [x|]; [left; discriminate|right; congruence]. }
  - apply Exists_exists in X. destruct X as (x & I & Nx). apply In_nth_error in I. destruct I as [i Ei].
    exists i. unfold cell_of. now rewrite Ei.
  - exfalso. assert (B : all_none (c_cells v') = true); [|congruence]. apply all_none_iff. intros x I.
    destruct x; [|reflexivity]. exfalso. apply X. apply Exists_exists. exists (Some f). split; [assumption|discriminate].
Qed.

(** ** A column with a value has a unit *)

Definition has_unit (c : column) : Prop := (exists i, cell_of i c <> None) -> c_unit c <> None.

Lemma cell_dummy : forall d i, cell_of i (dummy_column d) = None.
Proof.
  intros d i. unfold cell_of. cbn. destruct (nth_error (repeat None (numrows d)) i) eqn:E; [|reflexivity].
  apply nth_error_In in E. now apply repeat_spec in E.
Qed.
Lemma dummy_unit : forall d, has_unit (dummy_column d).
Proof. intros d (i & H). now rewrite cell_dummy in H. Qed.
Lemma the_column_unit : forall acos c d col, the_column acos c d = Ok col -> has_unit col.
Proof.
  intros acos c d col E. unfold the_column in E.
  assert (B : base_getColumn c (icol c d) d = Ok col -> has_unit col).
  { clear E. intros E. unfold base_getColumn in E. apply bind_ok in E. destruct E as (m & _ & E).
    destruct m; cbn [negb] in E; [|injection E as <-; apply dummy_unit].
    apply bind_ok in E. destruct E as (u & _ & E). apply bind_ok in E. destruct E as ([f can] & _ & E).
    apply bind_ok in E. destruct E as (l & _ & E). apply bind_ok in E. destruct E as (cells & Ec & E).
    injection E as <-. intros _. discriminate. }
  unfold getColumn in E. destruct (negb (cp_angle c)); [now apply B|].
  apply bind_ok in E. destruct E as (l & _ & E). destruct (negb _); [now apply B|].
  apply bind_ok in E. destruct E as (m & _ & E).
  destruct m; cbn [negb] in E; [|injection E as <-; apply dummy_unit].
  apply bind_ok in E. destruct E as ([f can] & _ & E). apply bind_ok in E. destruct E as (cells & Ec & E).
  injection E as <-. intros _. discriminate.
Qed.

Lemma at_or_zero_cell : forall c n i, length (c_cells c) = n -> i < n -> at_or_zero (c_cells c) i = cell_of i c.
Proof. intros c n i L H. unfold at_or_zero, cell_of. destruct (nth_error_ex _ (c_cells c) i) as [x ->]; [lia|]. reflexivity. Qed.
Lemma cell_map_seq : forall l u (f : nat -> option float) n i, cell_of i (mkColumn l u (map f (seq 0 n))) = if i <? n then f i else None.
Proof.
  intros l u f n i. unfold cell_of. cbn [c_cells]. destruct (i <? n) eqn:E.
  - apply Nat.ltb_lt in E. now rewrite nth_error_map_seq.
  - apply Nat.ltb_ge in E. rewrite (proj2 (nth_error_None _ _)); [reflexivity|]. now rewrite map_seq_length.
Qed.
Lemma last_given_2 : forall (A : Type) (a b : option A), last_given [a; b] = or_else b a.
Proof. intros A a b. unfold last_given. cbn. now rewrite or_else_none. Qed.
Lemma last_given_3 : forall (A : Type) (a b c : option A), last_given [a; b; c] = or_else c (or_else b a).
Proof. intros A a b c. unfold last_given. cbn. now rewrite or_else_none. Qed.
Lemma or_else_l : forall (A : Type) (a b : option A), a <> None -> or_else a b <> None.
Proof. intros A [a|] b H; [discriminate|congruence]. Qed.
Lemma or_else_r : forall (A : Type) (a b : option A), b <> None -> or_else a b <> None.
Proof. intros A [a|] b H; [discriminate|exact H]. Qed.

Lemma raw_value_unit : forall acos pr d col, raw_value no_energy acos pr d = Ok col -> has_unit col.
Proof.
  intros acos pr d col E.
  destruct pr as [c1|c1 c2|c1|c1 c2|c1 c2 c3|c1 c2 c3|c2 c3]; cbn [raw_value] in E; try (now apply the_column_unit in E).
  - apply bind_ok in E. destruct E as (x & Ex & E). apply bind_ok in E. destruct E as (y & Ey & E). injection E as <-.
    pose proof (the_column_unit _ _ _ _ Ey) as Uy. pose proof (the_column_length _ _ _ _ Ey) as Ly.
    intros (i & H). unfold high_low_value in *. rewrite cell_map_seq in H. cbn [c_unit]. rewrite last_given_2.
    destruct (i <? numrows d) eqn:Hi; [|congruence]. apply Nat.ltb_lt in Hi. rewrite (at_or_zero_cell y _ i Ly Hi) in H.
    apply or_else_l, Uy. exists i. intros Z. rewrite Z in H. destruct (at_or_zero (c_cells x) i); congruence.
  - apply bind_ok in E. destruct E as (x & Ex & E). apply bind_ok in E. destruct E as (y & Ey & E).
    apply bind_ok in E. destruct E as (z & Ez & E). injection E as <-.
    pose proof (the_column_unit _ _ _ _ Ez) as Uz. pose proof (the_column_length _ _ _ _ Ez) as Lz.
    intros (i & H). unfold high_mid_low_value, high_mid_low in *. rewrite cell_map_seq in H. cbn [c_unit]. rewrite last_given_3.
    destruct (i <? numrows d) eqn:Hi; [|congruence]. apply Nat.ltb_lt in Hi. rewrite (at_or_zero_cell z _ i Lz Hi) in H.
    apply or_else_l, Uz. exists i. intros Z. rewrite Z in H.
    destruct (at_or_zero (c_cells x) i), (at_or_zero (c_cells y) i); congruence.
  - discriminate E.
Qed.
Lemma value_of_unit : forall acos pr d col, value_of acos pr d = Ok col -> has_unit col.
Proof.
  intros acos pr d col E. unfold value_of, value_of0 in E. apply bind_ok in E. destruct E as ([] & _ & E).
  destruct (match_ok pr d); cbn [negb] in E; [|injection E as <-; apply dummy_unit]. now apply raw_value_unit in E.
Qed.

Lemma add_bars_cells : forall d u a b col, add_bars d u a b = Ok col -> c_unit col = u /\
  forall i, cell_of i col <> None -> (exists x, nth_error a i = Some (Some x)) \/ (exists x, nth_error b i = Some (Some x)).
Proof.
  intros d u a b col E. unfold add_bars in E. apply bind_ok in E. destruct E as (cells & E & H). injection H as <-.
  split; [reflexivity|]. intros i Hi. unfold cell_of in Hi. cbn [c_cells] in Hi.
  destruct (nth_error cells i) as [c|] eqn:Ec; [|congruence].
  apply map_res_Forall2 in E. assert (X : exists j, nth_error (seq 0 (numrows d)) i = Some j /\ (x2 <- idx a j;; x3 <- idx b j;;
     match x2, x3 with None, None => Ok None | _, _ => r <- pysqrt (fadd (fmul (match x2 with Some y => y | None => fzero end) (match x2 with Some y => y | None => fzero end))
         (fmul (match x3 with Some y => y | None => fzero end) (match x3 with Some y => y | None => fzero end))) ;; Ok (Some r) end) = Ok c).
  { clear - E Ec. revert i Ec. induction E as [|j y l l' H E IH]; intros i Ec; [now destruct i|].
    destruct i as [|i]; [|exact (IH i Ec)]. cbn in Ec. injection Ec as <-. exists j. split; [reflexivity|]. exact H. }
  destruct X as (j & Ej & X). assert (j = i); [|subst j].
  { pose proof (nth_error_lt _ _ _ _ Ej) as L. rewrite seq_length in L.
    rewrite (nth_error_nth' _ 0) in Ej by (rewrite seq_length; lia). rewrite seq_nth in Ej by lia. injection Ej as <-. reflexivity. }
  apply bind_ok in X. destruct X as (x2 & E2 & X). apply bind_ok in X. destruct X as (x3 & E3 & X).
  apply idx_ok in E2, E3. destruct x2; [left; eauto|]. destruct x3; [right; eauto|]. injection X as <-. congruence.
Qed.

Lemma scaled_some : forall d col1 c i x, nth_error (scaled_by_value d col1 c) i = Some (Some x) -> exists v, nth_error col1 i = Some (Some v).
Proof.
  intros d col1 c i x E. pose proof (nth_error_lt _ _ _ _ E) as L. unfold scaled_by_value in *. rewrite map_seq_length in L.
  rewrite nth_error_map_seq in E by assumption. injection E as E.
  destruct (nth_error col1 i) as [[v|]|]; [eauto| |discriminate]. destruct (nth_error c i); discriminate.
Qed.

Lemma raw_error_unit : forall acos pr d col, raw_error no_energy acos pr d = Ok col -> has_unit col.
Proof.
  intros acos pr d col E.
  destruct pr as [c1|c1 c2|c1|c1 c2|c1 c2 c3|c1 c2 c3|c2 c3]; cbn [raw_error] in E.
  - injection E as <-. apply dummy_unit.
  - apply bind_ok in E. destruct E as (err & E1 & E). destruct (is_percent (c_unit err)) eqn:P.
    + apply bind_ok in E. destruct E as (v & E2 & E). pose proof (the_column_unit _ _ _ _ E2) as U2.
      apply the_column_length in E1, E2. destruct (percent_error_spec v err _ E2 E1) as (cells & Ep & L & C).
      rewrite Ep in E. injection E as <-. intros (i & H). cbn [c_unit]. apply U2. exists i. intros Z. apply H.
      unfold cell_of in *. cbn [c_cells]. destruct (nth_error cells i) as [x|] eqn:Ex; [|reflexivity].
      pose proof (nth_error_lt _ _ _ _ Ex) as Li. destruct (nth_error_ex _ (c_cells v) i) as [a Ea]; [lia|].
      destruct (nth_error_ex _ (c_cells err) i) as [b Eb]; [lia|]. rewrite (C i a b Ea Eb) in Ex. injection Ex as <-.
      rewrite Ea in Z. subst a. reflexivity.
    + injection E as <-. now apply the_column_unit in E1.
  - apply bind_ok in E. destruct E as (v & E1 & E). injection E as <-. intros (i & H). cbn [c_unit].
    apply (the_column_unit _ _ _ _ E1). exists i. intros Z. apply H. unfold cell_of in *. cbn [c_cells].
    rewrite nth_error_map. destruct (nth_error (c_cells v) i) as [a|]; [|reflexivity]. cbn. now subst a.
  - apply bind_ok in E. destruct E as (x & Ex & E). apply bind_ok in E. destruct E as (y & Ey & E). injection E as <-.
    pose proof (the_column_unit _ _ _ _ Ey) as Uy. pose proof (the_column_length _ _ _ _ Ey) as Ly.
    intros (i & H). unfold high_low_error in *. rewrite cell_map_seq in H. cbn [c_unit]. rewrite last_given_2.
    destruct (i <? numrows d) eqn:Hi; [|congruence]. apply Nat.ltb_lt in Hi. rewrite (at_or_zero_cell y _ i Ly Hi) in H.
    apply or_else_l, Uy. exists i. intros Z. rewrite Z in H. destruct (at_or_zero (c_cells x) i); congruence.
  - apply bind_ok in E. destruct E as (x & Ex & E). apply bind_ok in E. destruct E as (y & Ey & E).
    apply bind_ok in E. destruct E as (z & Ez & E). injection E as <-.
    pose proof (the_column_unit _ _ _ _ Ez) as Uz. pose proof (the_column_length _ _ _ _ Ez) as Lz.
    intros (i & H). unfold high_mid_low_error, high_mid_low in *. rewrite cell_map_seq in H. cbn [c_unit]. rewrite last_given_3.
    destruct (i <? numrows d) eqn:Hi; [|congruence]. apply Nat.ltb_lt in Hi. rewrite (at_or_zero_cell z _ i Lz Hi) in H.
    apply or_else_l, Uz. exists i. intros Z. rewrite Z in H.
    destruct (at_or_zero (c_cells x) i), (at_or_zero (c_cells y) i); congruence.
  - apply bind_ok in E. destruct E as (y & Ey & E). apply bind_ok in E. destruct E as (z & Ez & E).
    assert (K : forall c i x, nth_error (c_cells c) i = Some (Some x) -> cell_of i c <> None)
      by (intros c i x N; unfold cell_of; rewrite N; discriminate).
    destruct (_ || _).
    + apply bind_ok in E. destruct E as (x & Ex & E). apply add_bars_cells in E. destruct E as [Eu Ec].
      intros (i & H). rewrite Eu. apply (the_column_unit _ _ _ _ Ex). exists i.
      destruct (Ec i H) as [[w W]|[w W]]; apply scaled_some in W; destruct W as [w' W]; eauto.
    + apply add_bars_cells in E. destruct E as [Eu Ec]. intros (i & H). rewrite Eu, last_given_2.
      destruct (Ec i H) as [[w W]|[w W]].
      * apply or_else_r, (the_column_unit _ _ _ _ Ey). eauto.
      * apply or_else_l, (the_column_unit _ _ _ _ Ez). eauto.
  - discriminate E.
Qed.
Lemma error_of_unit : forall acos pr d col, error_of acos pr d = Ok col -> has_unit col.
Proof.
  intros acos pr d col E. unfold error_of, error_of0 in E.
  assert (H : (_ <- set_res pr d ;; if negb (match_ok pr d) then Ok (dummy_column d)
               else col <- raw_error no_energy acos pr d ;; Ok (absOrNone col)) = Ok col -> has_unit col).
  { clear E. intros E. apply bind_ok in E. destruct E as ([] & _ & E).
    destruct (match_ok pr d); cbn [negb] in E; [|injection E as <-; apply dummy_unit].
    apply bind_ok in E. destruct E as (r & Er & E). injection E as <-. intros (i & Hi). cbn [absOrNone c_unit].
    apply (raw_error_unit _ _ _ _ Er). exists i. intros Z. apply Hi. unfold cell_of in *. cbn [absOrNone c_cells].
    rewrite nth_error_map. destruct (nth_error (c_cells r) i) as [a|]; [|reflexivity]. cbn. now subst a. }
  destruct pr; [injection E as <-; apply dummy_unit|..]; exact (H E).
Qed.

Lemma first_some_in : forall (A : Type) (l : list (option A)) x, first_some l = Some x -> In (Some x) l.
Proof. induction l as [|[y|] l IH]; intros x E; cbn in E; [discriminate| |right; auto]. injection E as <-. now left. Qed.
Lemma first_some_none : forall (A : Type) (l : list (option A)), first_some l = None <-> forall x, In x l -> x = None.
Proof.
  induction l as [|[y|] l IH]; cbn [first_some In].
  - split; [intros _ x []|reflexivity].
  - split; [discriminate|]. intros H. specialize (H (Some y) (or_introl eq_refl)). discriminate.
  - rewrite IH. split; intros H.
    + intros x [<-|I]; [reflexivity|]. now apply H.
    + intros x I. apply H. now right.
Qed.
Lemma condensed_unit : forall cols c, (forall i, cell_of i c = first_some (map (cell_of i) cols)) ->
  c_unit c = first_some (map c_unit cols) -> Forall has_unit cols -> has_unit c.
Proof.
  intros cols c C U F (i & H). rewrite C in H. rewrite U. intros Z. apply H. apply first_some_none.
  intros x I. apply in_map_iff in I. destruct I as (k & <- & Ik). destruct (cell_of i k) eqn:E; [|reflexivity].
  exfalso. rewrite Forall_forall in F. apply (F k Ik); [exists i; congruence|].
  apply (proj1 (first_some_none _ _) Z). now apply in_map.
Qed.
Lemma columns_of_units : forall acos t ps v e none, columns_of acos t ps = Ok (v, e, none) ->
  c_unit v <> None /\ (none = false -> c_unit e <> None).
Proof.
  intros acos t ps v e none E. destruct (columns_of_spec _ _ _ _ _ _ E) as (vs & es & Fv & Fe & _ & _ & Uv & Ue & Cv & Ce & V & N).
  assert (Hv : Forall has_unit vs). { clear - Fv. induction Fv; constructor; auto. now apply value_of_unit in H. }
  assert (He : Forall has_unit es). { clear - Fe. induction Fe; constructor; auto. now apply error_of_unit in H. }
  split; [now apply (condensed_unit vs)|]. intros ->. apply (condensed_unit es e Ce Ue He).
  destruct (Exists_dec (fun x => x <> None) (c_cells e)) as [X|X].
  { intros [x|]; [left; discriminate|right; congruence]. }
  - apply Exists_exists in X. destruct X as (x & I & Nx). apply In_nth_error in I. destruct I as [i Ei].
    exists i. unfold cell_of. now rewrite Ei.
  - exfalso. assert (B : false = true); [|discriminate]. apply N. apply all_none_cells, all_none_iff. intros x I.
    destruct x; [|reflexivity]. exfalso. apply X. apply Exists_exists. exists (Some f). split; [assumption|discriminate].
Qed.
