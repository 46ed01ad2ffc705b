(** setData. *)
From Coq Require Import String List Ascii NArith ZArith Bool Arith Lia.
From Coq Require Import Floats.SpecFloat.
From Verif.Model Require Import Py PyFloat Utilities Dicts Particle Reaction Field Section Entry Columns Dataset.
From Verif.Spec Require Import Text Tables Exfor DataSets Merging.
From Verif.Proofs Require Import StrLemmas FloatLemmas ReactionLemmas DictLemmas DataLemmas UnitLemmas ValueLemmas.
Import ListNotations.
Local Open Scope string_scope.
Local Open Scope list_scope.
Local Open Scope nat_scope.

Lemma nmem_in : forall i l, nmem i l = true <-> In i l.
Proof.
  intros i l. unfold nmem. rewrite existsb_exists. split.
  - intros (x & I & E). apply Nat.eqb_eq in E. now subst.
  - intros I. exists i. split; [assumption|apply Nat.eqb_refl].
Qed.
Lemma keep_own : forall d pointer j, keep_column d pointer j = true <-> own_column d pointer j.
Proof.
  intros d pointer j. unfold keep_column, own_column.
  assert (H : negb (nmem j (other_pointers_columns d pointer)) = true <-> forall p cols, In (p, cols) (d_pointers d) -> pointer <> Some p -> ~ In j cols).
  { rewrite negb_true_iff. rewrite <- not_true_iff_false, nmem_in. unfold other_pointers_columns. rewrite in_flat_map. split.
    - intros N p cols I Np Ij. apply N. exists (p, cols). split; [assumption|]. cbn [fst snd].
      destruct pointer as [q|]; [|assumption]. destruct (Ascii.eqb_spec p q) as [->|]; [congruence|assumption].
    - intros H ([p cols] & I & Ij). cbn [fst snd] in Ij. destruct pointer as [q|].
      + destruct (Ascii.eqb_spec p q) as [->|Npq]; [contradiction|]. apply (H p cols I); congruence.
      + apply (H p cols I); congruence. }
  destruct (d_pointers d) as [|pc l]; [|exact H]. split; [intros _ p cols []|reflexivity].
Qed.

Definition short (s : str) : str := strip (slice_to s 10).
Lemma short_iff : forall h s, short h = s <-> shortened h s.
Proof. intros h s. unfold short, shortened. rewrite <- strip_iff. reflexivity. Qed.

Lemma select_all : forall (A : Type) keep (l : list A) k, (forall j, keep j = true) -> select keep k l = l.
Proof. induction l as [|x l IH]; intros k H; cbn [select]; [reflexivity|]. now rewrite H, IH. Qed.
Lemma select_ext : forall (A : Type) f g (l : list A) k, (forall j, f j = g j) -> select f k l = select g k l.
Proof. induction l as [|x l IH]; intros k H; cbn [select]; [reflexivity|]. rewrite H, (IH _ H). reflexivity. Qed.
Lemma select_map : forall (A B : Type) (f : A -> B) keep l k, select keep k (map f l) = map f (select keep k l).
Proof. induction l as [|x l IH]; intros k; cbn [select map]; [reflexivity|]. rewrite IH. now destruct (keep k). Qed.

Lemma heading_loop : forall d pointer (offsets : list nat) n k (labels units : list str) (filter : list bool),
  k + n <= length (d_labels d) -> length (d_units d) = length (d_labels d) ->
  fold_res (fun (st : list str * list str * list nat * list bool) icol =>
        let '(labels, units, offsets, filter) := st in
        if keep_column d pointer icol then
          l <- idx (d_labels d) icol ;; u <- idx (d_units d) icol ;;
          Ok (labels ++ [strip (slice_to l 10)], units ++ [strip (slice_to u 10)], offsets, filter ++ [true])
        else Ok (labels, units, offsets, filter ++ [false]))
        (seq k n) (labels, units, offsets, filter)
  = Ok (labels ++ map short (select (keep_column d pointer) k (firstn n (skipn k (d_labels d)))),
        units ++ map short (select (keep_column d pointer) k (firstn n (skipn k (d_units d)))), offsets,
        filter ++ map (keep_column d pointer) (seq k n)).
Proof.
  intros d pointer offsets. induction n as [|n IH]; intros k labels units filter L U.
  - cbn. now rewrite !app_nil_r.
  - destruct (nth_error_ex _ (d_labels d) k) as [l El]; [lia|]. destruct (nth_error_ex _ (d_units d) k) as [u Eu]; [lia|].
    assert (Sl : skipn k (d_labels d) = l :: skipn (S k) (d_labels d)).
    { clear - El. revert El. generalize (d_labels d). induction k as [|k IH]; intros [|x m] E; try discriminate; cbn in *; [congruence|auto]. }
    assert (Su : skipn k (d_units d) = u :: skipn (S k) (d_units d)).
    { clear - Eu. revert Eu. generalize (d_units d). induction k as [|k IH]; intros [|x m] E; try discriminate; cbn in *; [congruence|auto]. }
    rewrite Sl, Su. cbn [seq fold_res firstn select map]. destruct (keep_column d pointer k) eqn:K.
    + rewrite (proj2 (idx_ok _ _ _ _) El), (proj2 (idx_ok _ _ _ _) Eu). cbn [bind]. rewrite IH by lia.
      cbn [map]. fold (short l) (short u). now rewrite <- !app_assoc.
    + cbn [bind]. rewrite IH by lia. now rewrite <- !app_assoc.
Qed.

Lemma heading_step_none : forall pointer labels units offsets filter,
  heading_step pointer (labels, units, offsets, filter) None = Ok (labels, units, offsets ++ [length labels], filter).
Proof. reflexivity. Qed.
Lemma heading_step_some : forall pointer labels units offsets filter d, section_ok d ->
  heading_step pointer (labels, units, offsets, filter) (Some d) =
  Ok (labels ++ map short (select (keep_column d pointer) 0 (d_labels d)), units ++ map short (select (keep_column d pointer) 0 (d_units d)),
      offsets ++ [length labels], filter ++ map (keep_column d pointer) (seq 0 (length (d_labels d)))).
Proof.
  intros pointer labels units offsets filter d (L & U & _). unfold heading_step. rewrite <- L.
  rewrite heading_loop by lia. cbn [skipn]. rewrite firstn_all. rewrite L, <- U, firstn_all, U. reflexivity.
Qed.

(** A COMMON section that gives all its columns. *)
Definition full_common (pointer : option ascii) (c : option data_section) : Prop :=
  forall d, c = Some d -> section_ok d /\ all_own d pointer.
Lemma heading_step_common : forall pointer labels units offsets filter c, full_common pointer c ->
  heading_step pointer (labels, units, offsets, filter) c =
  Ok (labels ++ map short (common_labels c), units ++ map short (common_units c), offsets ++ [length labels],
      filter ++ repeat true (length (common_labels c))).
Proof.
  intros pointer labels units offsets filter [d|] F.
  - destruct (F d eq_refl) as [O A]. rewrite heading_step_some by assumption. cbn [common_labels common_units].
    assert (K : forall j, keep_column d pointer j = true) by (intro j; apply keep_own, A).
    rewrite !select_all by assumption. f_equal. f_equal. f_equal.
    rewrite (map_ext _ (fun _ => true)) by assumption. rewrite <- (seq_length (length (d_labels d)) 0) at 2.
    generalize (seq 0 (length (d_labels d))). induction l; cbn; congruence.
  - rewrite heading_step_none. cbn. now rewrite !app_nil_r.
Qed.

Lemma data_row_spec : forall (keep : nat -> bool) filter offset cells,
  (forall i, i < length cells -> nth_error filter (offset + i) = Some (keep i)) ->
  data_row offset filter cells = Ok (repeat VZero offset ++ map as_cell (select keep 0 cells)).
Proof.
  intros keep filter offset cells H. unfold data_row.
  assert (G : forall l k, k + length l = length cells -> 
    exists own, map_res (fun ix => keep0 <- idx filter (offset + fst ix) ;;
                            Ok (if (keep0 : bool) then [match snd ix with Some x => VFloat x | None => VNone end] else []))
                 (combine (seq k (length l)) l) = Ok own /\ concat own = map as_cell (select keep k l)).
  { induction l as [|c l IH]; intros k L; cbn [length seq combine map_res select].
    - exists []. split; reflexivity.
    - cbn [fst snd length] in *. assert (E : idx filter (offset + k) = Ok (keep k)) by (apply idx_ok; apply H; lia).
      rewrite E. cbn [bind]. destruct (IH (S k)) as (own & -> & C); [lia|]. cbn [bind].
      eexists. split; [reflexivity|]. cbn [concat]. rewrite C. destruct (keep k); [|reflexivity]. now destruct c. }
  destruct (G cells 0 eq_refl) as (own & E & C). rewrite E. cbn [bind]. now rewrite C.
Qed.

Lemma set_nth_app : forall (A : Type) (a : list A) x b v, set_nth (a ++ x :: b) (length a) v = Ok (a ++ v :: b).
Proof.
  intros A a x b v. unfold set_nth. rewrite app_length. cbn [length].
  replace (length a <? length a + S (length b)) with true by (symmetry; apply Nat.ltb_lt; lia). f_equal.
  rewrite firstn_app, firstn_all, Nat.sub_diag. cbn [firstn]. rewrite app_nil_r. f_equal. f_equal.
  replace (S (length a)) with (length (a ++ [x])) by (rewrite app_length; cbn; lia).
  replace (a ++ x :: b) with ((a ++ [x]) ++ b) by (now rewrite <- app_assoc).
  rewrite skipn_app, skipn_all, Nat.sub_diag. reflexivity.
Qed.

Lemma write_loop : forall (cells : list (option float)) (rows : res (list (option float))) offset a m k b done rest,
  rows = Ok cells -> cells = done ++ rest -> length done = k -> length m = length rest -> length a = offset ->
  fold_res (fun row icol => cs <- rows ;; v <- idx cs icol ;;
                            set_nth row (offset + icol) (match v with Some x => VFloat x | None => VNone end))
           (seq k (length rest)) (a ++ map as_cell done ++ m ++ b)
  = Ok (a ++ map as_cell cells ++ b).
Proof.
  intros cells rows offset a m k b done rest Er. revert m k done. induction rest as [|c rest IH]; intros m k done E K M A.
  - destruct m; [|discriminate]. cbn. rewrite app_nil_r in E. now subst done.
  - destruct m as [|x m]; [discriminate|]. cbn [length seq fold_res]. rewrite Er at 1. cbn [bind].
    assert (Ec : nth_error cells k = Some c).
    { rewrite E. rewrite nth_error_app2 by lia. now rewrite K, Nat.sub_diag. }
    rewrite (proj2 (idx_ok _ _ _ _) Ec). cbn [bind].
    replace (a ++ map as_cell done ++ (x :: m) ++ b) with ((a ++ map as_cell done) ++ x :: (m ++ b)) by (now rewrite <- app_assoc).
    replace (offset + k) with (length (a ++ map as_cell done)) by (rewrite app_length, map_length; lia).
    rewrite set_nth_app.
    replace ((a ++ map as_cell done) ++ match c with Some x => VFloat x | None => VNone end :: m ++ b)
      with (a ++ map as_cell (done ++ [c]) ++ m ++ b).
    2:{ rewrite map_app, <- !app_assoc. cbn. reflexivity. }
    apply IH; auto.
    + rewrite E, <- app_assoc. reflexivity.
    + rewrite app_length. cbn. lia.
Qed.

Lemma write_common_spec : forall c offset irow cells a m b, section_ok c -> nth_error (d_data c) irow = Some cells ->
  length a = offset -> length m = length (d_labels c) ->
  write_common c offset irow (a ++ m ++ b) = Ok (a ++ map as_cell cells ++ b).
Proof.
  intros c offset irow cells a m b (L & _ & _ & R) E A M. unfold write_common.
  assert (Lc : length cells = Z.to_nat (d_numcols c)) by (apply R; eapply nth_error_In; eassumption).
  rewrite <- Lc. apply (write_loop cells (idx (d_data c) irow) offset a m 0 b [] cells); auto.
  - now apply idx_ok.
  - congruence.
Qed.

Lemma map_res_combine : forall (A B : Type) (f : nat * A -> res B) (g : nat -> A -> B) l,
  (forall i x, nth_error l i = Some x -> f (i, x) = Ok (g i x)) ->
  exists ys, map_res f (combine (seq 0 (length l)) l) = Ok ys /\ length ys = length l /\
    forall i x, nth_error l i = Some x -> nth_error ys i = Some (g i x).
Proof.
  intros A B f g l H.
  assert (G : forall m k, (forall i x, nth_error m i = Some x -> f (k + i, x) = Ok (g (k + i) x)) ->
    exists ys, map_res f (combine (seq k (length m)) m) = Ok ys /\ length ys = length m /\
      forall i x, nth_error m i = Some x -> nth_error ys i = Some (g (k + i) x)).
  { induction m as [|x m IH]; intros k Hm; cbn [length seq combine map_res].
    - exists []. split; [reflexivity|]. split; [reflexivity|]. intros [|i] x E; discriminate.
    - assert (E0 : f (k, x) = Ok (g k x)) by (specialize (Hm 0 x eq_refl); now rewrite Nat.add_0_r in Hm). rewrite E0. cbn [bind].
      destruct (IH (S k)) as (ys & -> & Ly & Ny).
      { intros i y E. specialize (Hm (S i) y E). now rewrite Nat.add_succ_r in Hm. }
      cbn [bind]. eexists. split; [reflexivity|]. split; [cbn; congruence|].
      intros [|i] y E; cbn in E |- *; [injection E as <-; now rewrite Nat.add_0_r|]. rewrite (Ny i y E). now rewrite Nat.add_succ_r. }
  destruct (G l 0) as (ys & E & Ly & Ny); [intros i x E; now apply H|]. exists ys. auto.
Qed.

(** Writing one COMMON section into its place. *)
Lemma add_common_spec : forall common offsets rows id c, section_ok c -> 
  forall offset, nth_error offsets (common_index id common) = Some offset ->
  (forall row, In row rows -> exists a b, row = a ++ repeat VZero (length (d_labels c)) ++ b /\ length a = offset) ->
  exists rows', add_common common offsets rows (Some (id, c)) = Ok rows' /\ length rows' = length rows /\
    forall i a b, nth_error rows i = Some (a ++ repeat VZero (length (d_labels c)) ++ b) -> length a = offset ->
      nth_error rows' i = Some (a ++ common_row (Some c) i ++ b).
Proof.
  intros common offsets rows id c O offset Eo Hr. cbn [add_common].
  destruct (map_res_combine _ _ (fun ir : nat * list dcell => let '(i, row) := ir in
       if i <? (if (d_numrows c =? 1)%Z then length rows else Nat.min (Z.to_nat (d_numrows c)) (length rows)) then
         o <- idx offsets (common_index id common) ;;
         write_common c o (if (d_numrows c =? 1)%Z then 0 else i) row
       else Ok row)
     (fun i row => firstn offset row ++ common_row (Some c) i ++ skipn (offset + length (d_labels c)) row) rows) as (ys & E & Ly & Ny).
  - intros i row Er. destruct (Hr row (nth_error_In _ _ Er)) as (a & b & -> & La). pose proof (nth_error_lt _ _ _ _ Er) as Li.
    assert (F : firstn offset (a ++ repeat VZero (length (d_labels c)) ++ b) = a).
    { rewrite <- La, firstn_app, firstn_all, Nat.sub_diag. cbn. apply app_nil_r. }
    assert (S : skipn (offset + length (d_labels c)) (a ++ repeat VZero (length (d_labels c)) ++ b) = b).
    { rewrite app_assoc. replace (offset + length (d_labels c)) with (length (a ++ repeat VZero (length (d_labels c)))) by
        (rewrite app_length, repeat_length; lia). rewrite skipn_app, skipn_all, Nat.sub_diag. reflexivity. }
    rewrite F, S. destruct O as (OL & OU & OD & OR). unfold common_row.
    destruct (d_numrows c =? 1)%Z eqn:One.
    + apply Z.eqb_eq in One. apply Nat.ltb_lt in Li. rewrite Li. rewrite (proj2 (idx_ok _ _ _ _) Eo). cbn [bind].
      destruct (d_data c) as [|r rs] eqn:D; [rewrite One in OD; discriminate|].
      apply write_common_spec; auto; [repeat split; auto; now rewrite D| now rewrite D | apply repeat_length].
    + destruct (Nat.ltb_spec i (Nat.min (Z.to_nat (d_numrows c)) (length rows))) as [H|H].
      * rewrite (proj2 (idx_ok _ _ _ _) Eo). cbn [bind]. destruct (nth_error_ex _ (d_data c) i) as [r Er']; [lia|]. rewrite Er'.
        apply write_common_spec; auto; [repeat split; auto | apply repeat_length].
      * replace (nth_error (d_data c) i) with (@None (list (option float))) by (symmetry; apply nth_error_None; lia).
        now rewrite <- OL.
  - exists ys. split; [exact E|]. split; [assumption|]. intros i a b Er La. rewrite (Ny _ _ Er).
    assert (F : firstn offset (a ++ repeat VZero (length (d_labels c)) ++ b) = a).
    { rewrite <- La, firstn_app, firstn_all, Nat.sub_diag. cbn. apply app_nil_r. }
    assert (S : skipn (offset + length (d_labels c)) (a ++ repeat VZero (length (d_labels c)) ++ b) = b).
    { rewrite app_assoc. replace (offset + length (d_labels c)) with (length (a ++ repeat VZero (length (d_labels c)))) by
        (rewrite app_length, repeat_length; lia). rewrite skipn_app, skipn_all, Nat.sub_diag. reflexivity. }
    now rewrite F, S.
Qed.

Lemma common_row_length : forall c i, (forall d, c = Some d -> section_ok d) -> length (common_row c i) = length (common_labels c).
Proof.
  intros [d|] i H; [|reflexivity]. destruct (H d eq_refl) as (L & U & D & R). cbn [common_row common_labels].
  destruct (d_numrows d =? 1)%Z eqn:One.
  - apply Z.eqb_eq in One. destruct (d_data d) as [|r rs] eqn:E; [rewrite One in D; discriminate|].
    rewrite map_length, L. apply R. now left.
  - destruct (nth_error (d_data d) i) as [r|] eqn:E; [|rewrite repeat_length; congruence].
    rewrite map_length, L. apply R. eapply nth_error_In; eassumption.
Qed.

(** One COMMON section, present or not, on rows made of a part already written, zeros and a rest. *)
Lemma add_common_any : forall common offsets rows c (pre rest : nat -> list dcell),
  (forall d, option_map snd c = Some d -> section_ok d) ->
  (forall id d, c = Some (id, d) -> exists o, nth_error offsets (common_index id common) = Some o /\ forall i, i < length rows -> length (pre i) = o) ->
  (forall i, i < length rows -> nth_error rows i = Some (pre i ++ repeat VZero (length (common_labels (option_map snd c))) ++ rest i)) ->
  exists rows', add_common common offsets rows c = Ok rows' /\ length rows' = length rows /\
    forall i, i < length rows -> nth_error rows' i = Some (pre i ++ common_row (option_map snd c) i ++ rest i).
Proof.
  intros common offsets rows [[id d]|] pre rest O F R; cbn [option_map snd common_labels] in *.
  - destruct (F id d eq_refl) as (o & Eo & Lo).
    destruct (add_common_spec common offsets rows id d (O d eq_refl) o Eo) as (rows' & E & L & N).
    { intros row I. apply In_nth_error in I. destruct I as [i Ei]. pose proof (nth_error_lt _ _ _ _ Ei) as Li.
      rewrite (R i Li) in Ei. injection Ei as <-. exists (pre i), (rest i). auto. }
    exists rows'. split; [assumption|]. split; [assumption|]. intros i Hi. apply N; auto.
  - exists rows. split; [reflexivity|]. split; [reflexivity|]. intros i Hi. rewrite (R i Hi). reflexivity.
Qed.

Lemma setData_spec : forall data c1 c2 pointer keep,
  section_ok data -> full_common pointer (option_map snd c1) -> full_common pointer (option_map snd c2) -> different c1 c2 ->
  (forall j, keep j = true <-> own_column data pointer j) ->
  exists t, setData data [c1; c2] pointer = Ok t /\
    t_labels t = map short (common_labels (option_map snd c1) ++ common_labels (option_map snd c2) ++ select keep 0 (d_labels data)) /\
    t_units t = map Some (map short (common_units (option_map snd c1) ++ common_units (option_map snd c2) ++ select keep 0 (d_units data))) /\
    length (t_data t) = length (d_data data) /\
    forall i cells, nth_error (d_data data) i = Some cells ->
      nth_error (t_data t) i = Some (common_row (option_map snd c1) i ++ common_row (option_map snd c2) i ++ map as_cell (select keep 0 cells)).
Proof.
  intros data c1 c2 pointer keep O F1 F2 Df K.
  assert (Ke : forall j, keep_column data pointer j = keep j).
  { intro j. apply eq_true_iff_eq. rewrite keep_own. symmetry. apply K. }
  unfold setData. cbn [map app fold_res]. rewrite (heading_step_common _ _ _ _ _ _ F1). cbn [bind app].
  rewrite (heading_step_common _ _ _ _ _ _ F2). cbn [bind app]. rewrite (heading_step_some _ _ _ _ _ _ O). cbn [bind app].
  rewrite (select_ext _ _ _ (d_labels data) 0 Ke), (select_ext _ _ _ (d_units data) 0 Ke), (map_ext _ _ Ke).
  set (l1 := common_labels (option_map snd c1)) in *. set (l2 := common_labels (option_map snd c2)) in *.
  rewrite app_length, !map_length.
  set (offsets := [length (@nil str); length l1; length l1 + length l2]).
  set (filter := (repeat true (length l1) ++ repeat true (length l2)) ++ map keep (seq 0 (length (d_labels data)))).
  destruct O as (OL & OU & OD & OR).
  assert (Rows : exists rows, (offset <- (if (0 <? d_numrows data)%Z then idx offsets 2 else Ok 0) ;;
     map_res (fun irow => cells <- idx (d_data data) irow ;; data_row offset filter cells) (seq 0 (Z.to_nat (d_numrows data)))) = Ok rows /\
     length rows = length (d_data data) /\
     forall i cells, nth_error (d_data data) i = Some cells ->
       nth_error rows i = Some (repeat VZero (length l1) ++ repeat VZero (length l2) ++ map as_cell (select keep 0 cells))).
  { destruct (0 <? d_numrows data)%Z eqn:Pos.
    - change (idx offsets 2) with (@Ok nat (length l1 + length l2)). cbn [bind].
      match goal with |- context[map_res ?f ?l] => destruct (map_res_nth _ _ f l) as (ys & E & Ly & Ny) end.
      { intros i I. apply in_seq in I. destruct (nth_error_ex _ (d_data data) i) as [cells Ec]; [lia|].
        rewrite (proj2 (idx_ok _ _ _ _) Ec). cbn [bind]. rewrite (data_row_spec keep); [eauto|].
        intros j Hj. unfold filter. rewrite nth_error_app2 by (rewrite app_length, !repeat_length; lia).
        rewrite app_length, !repeat_length. replace (length l1 + length l2 + j - (length l1 + length l2)) with j by lia.
        apply nth_error_map_seq. rewrite OL, <- (OR cells); [assumption|]. eapply nth_error_In; eassumption. }
      exists ys. split; [assumption|]. split; [rewrite Ly, seq_length; congruence|].
      intros i cells Ec. pose proof (nth_error_lt _ _ _ _ Ec) as Li.
      assert (I : nth_error (seq 0 (Z.to_nat (d_numrows data))) i = Some i).
      { rewrite (nth_error_nth' _ 0) by (rewrite seq_length; lia). f_equal. rewrite seq_nth by lia. lia. }
      destruct (Ny i i I) as (y & Ey & Hy). rewrite Hy. rewrite (proj2 (idx_ok _ _ _ _) Ec) in Ey. cbn [bind] in Ey.
      rewrite (data_row_spec keep) in Ey.
      + injection Ey as <-. rewrite repeat_app, <- app_assoc. reflexivity.
      + intros j Hj. unfold filter. rewrite nth_error_app2 by (rewrite app_length, !repeat_length; lia).
        rewrite app_length, !repeat_length. replace (length l1 + length l2 + j - (length l1 + length l2)) with j by lia.
        apply nth_error_map_seq. rewrite OL, <- (OR cells); [assumption|]. eapply nth_error_In; eassumption.
    - apply Z.ltb_ge in Pos. replace (Z.to_nat (d_numrows data)) with 0 by lia. cbn [bind seq map_res].
      exists []. split; [reflexivity|]. assert (Z0 : length (d_data data) = 0) by lia. split; [now rewrite Z0|].
      intros i cells Ec. apply nth_error_lt in Ec. lia. }
  destruct Rows as (rows & Er & Lr & Nr).
  apply bind_ok in Er. destruct Er as (offset & Eo & Er). rewrite Eo. cbn [bind]. rewrite Er. cbn [bind].
  set (sel := fun i => match nth_error (d_data data) i with Some cells => map as_cell (select keep 0 cells) | None => [] end).
  destruct (add_common_any [c1; c2] offsets rows c1 (fun _ => []) (fun i => repeat VZero (length l2) ++ sel i)) as (rows1 & E1 & L1 & N1).
  { intros d E. now apply F1. }
  { intros id d ->. exists 0. split; [|reflexivity]. cbn [common_index]. now rewrite Nat.eqb_refl. }
  { intros i Hi. destruct (nth_error_ex _ (d_data data) i) as [cells Ec]; [lia|]. rewrite (Nr i cells Ec). unfold sel. now rewrite Ec. }
  rewrite E1. cbn [bind].
  destruct (add_common_any [c1; c2] offsets rows1 c2 (fun i => common_row (option_map snd c1) i) sel) as (rows2 & E2 & L2 & N2).
  { intros d E. now apply F2. }
  { intros id d E. exists (length l1). split.
    - subst c2. cbn [common_index]. destruct c1 as [[id1 d1]|]; [|now rewrite Nat.eqb_refl].
      replace (id =? id1) with false; [now rewrite Nat.eqb_refl|]. symmetry. apply Nat.eqb_neq. intros ->. now apply (Df id1 d1 id1 d).
    - intros i Hi. apply common_row_length. intros d' E'. now apply F1. }
  { intros i Hi. rewrite L1 in Hi. exact (N1 i Hi). }
  rewrite E2. cbn [bind].
  eexists. split; [reflexivity|]. cbn [t_labels t_units t_data]. split; [|split; [|split]].
  - now rewrite !map_app, <- app_assoc.
  - now rewrite !map_app, <- app_assoc.
  - lia.
  - intros i cells Ec. pose proof (nth_error_lt _ _ _ _ Ec) as Li. rewrite (N2 i) by lia. unfold sel. now rewrite Ec.
Qed.
