(** Lemmas about DATA sections. *)
From Coq Require Import String List Ascii NArith ZArith Bool Arith Lia Sorted.
From Verif.Model Require Import Py PyFloat Utilities Dicts Particle Reaction Field Section.
From Verif.Spec Require Import Text Exfor.
From Verif.Proofs Require Import StrLemmas NumLemmas IntLemmas DictLemmas ReactionLemmas FieldLemmas BibLemmas.
Import ListNotations.
Local Open Scope list_scope.
Local Open Scope nat_scope.

Lemma idx_ok : forall (A : Type) (l : list A) i x, idx l i = Ok x <-> nth_error l i = Some x.
Proof. intros. unfold idx. destruct (nth_error l i); cbn; split; congruence. Qed.

Lemma zidx_nat : forall (A : Type) (l : list A) n x, zidx l (Z.of_nat n) = Ok x <-> nth_error l n = Some x.
Proof.
  intros A l n x. unfold zidx. destruct (Z.ltb_spec (Z.of_nat n) 0); [lia|].
  replace (- Z.of_nat (length l) <=? Z.of_nat n)%Z with true by (symmetry; apply Z.leb_le; lia). cbn [andb].
  rewrite Nat2Z.id. destruct (Z.ltb_spec (Z.of_nat n) (Z.of_nat (length l))) as [L|L].
  - split; intro E; [now apply of_option_ok in E | now rewrite E].
  - split; intro E; [discriminate|]. assert (n < length l) by (apply nth_error_Some; congruence). lia.
Qed.

(** Column positions. *)
Lemma slice_concat : forall k (parts : list str) q r w part, (forall p, In p parts -> length p = k) ->
  nth_error parts q = Some part -> r + w <= k ->
  slice (concat parts) (k * q + r) (k * q + r + w) = slice part r (r + w).
Proof.
  intros k parts q r w part. revert q. induction parts as [|p parts IH]; intros q L N H.
  - destruct q; discriminate.
  - cbn [concat]. unfold slice. replace (k * q + r + w - (k * q + r)) with w by lia.
    replace (r + w - r) with w by lia. destruct q as [|q].
    + cbn in N. injection N as ->. rewrite Nat.mul_0_r. cbn [Nat.add].
      assert (Lp : length part = k) by (apply L; now left).
      rewrite skipn_app, firstn_app, skipn_length.
      replace (w - (length part - r)) with 0 by lia. now rewrite firstn_O, app_nil_r.
    + assert (Lp : length p = k) by (apply L; now left).
      rewrite skipn_app. rewrite (skipn_all2 p) by nia. cbn [app].
      replace (k * S q + r - length p) with (k * q + r) by nia.
      specialize (IH q (fun x I => L x (or_intror I)) N H). unfold slice in IH.
      replace (k * q + r + w - (k * q + r)) with w in IH by lia.
      replace (r + w - r) with w in IH by lia. exact IH.
Qed.

Lemma row_part_card : forall l, card l -> row_part l = ljust 66 l.
Proof.
  intros l [L N]. unfold row_part, slice_to. rewrite firstn_all2 by lia.
  assert (NN : ~ In nl (ljust 66 l)).
  { unfold ljust. intro I. apply in_app_or in I. destruct I as [I|I]; [contradiction|now apply sp_not_nl in I]. }
  unfold replace_char. clear - NN. induction (ljust 66 l) as [|c s IH]; auto. cbn [flat_map].
  destruct (Ascii.eqb c nl) eqn:E.
  - apply Ascii.eqb_eq in E. subst. exfalso. apply NN. now left.
  - cbn [app]. f_equal. apply IH. intro I. apply NN. now right.
Qed.

Lemma cell_card : forall parts j line, (forall l, In l parts -> card l) -> nth_error parts (j / 6) = Some line ->
  trimmed (columns (11 * (j mod 6)) (11 * (j mod 6) + 11) line) (cell (concat (map row_part parts)) j).
Proof.
  intros parts j line C N. apply strip_iff. unfold cell.
  assert (M := Nat.mod_upper_bound j 6 ltac:(lia)).
  assert (D := Nat.div_mod j 6 ltac:(lia)).
  replace (11 * j) with (66 * (j / 6) + 11 * (j mod 6)) by lia.
  replace (11 * (j + 1)) with (66 * (j / 6) + 11 * (j mod 6) + 11) by lia.
  rewrite (slice_concat 66 (map row_part parts) (j / 6) (11 * (j mod 6)) 11 (row_part line)).
  - rewrite row_part_card by (apply C; eapply nth_error_In; eauto). now rewrite strip_slice_ljust.
  - intros p I. apply in_map_iff in I. destruct I as (l & <- & I). rewrite row_part_card by auto.
    rewrite ljust_length. destruct (C l I). lia.
  - now apply map_nth_error.
  - lia.
Qed.

(** ** Unfolding the constructor *)

Definition lpr_of (numcols : Z) : Z := ((numcols - 1) / 6 + 1)%Z.

Lemma lpr_pos : forall nc, 0 < nc -> lpr_of (Z.of_nat nc) = Z.of_nat (lines_per_row nc) /\ 0 < lines_per_row nc.
Proof.
  intros nc H. unfold lpr_of, lines_per_row. split.
  - rewrite Nat2Z.inj_div. rewrite Nat2Z.inj_add. change (Z.of_nat 5) with 5%Z. change (Z.of_nat 6) with 6%Z.
    replace (Z.of_nat nc + 5)%Z with (Z.of_nat nc - 1 + 1 * 6)%Z by lia. rewrite Z.div_add by lia. lia.
  - apply Nat.div_str_pos. lia.
Qed.

Definition row_lines (lines : list str) (k i : nat) : list str := firstn k (skipn (1 + i * k) lines).

Lemma map_res_seq_idx : forall (lines : list str) a k (r : list str),
  map_res (fun j => l <- zidx lines (Z.of_nat a + Z.of_nat j)%Z ;; Ok (row_part l)) (seq 0 k) = Ok r ->
  r = map row_part (firstn k (skipn a lines)) /\ a + k <= Nat.max a (length lines).
Proof.
  intros lines a k.
  assert (G : forall s r, map_res (fun j => l <- zidx lines (Z.of_nat a + Z.of_nat j)%Z ;; Ok (row_part l)) (seq s k) = Ok r ->
     r = map row_part (firstn k (skipn (a + s) lines)) /\ a + s + k <= Nat.max (a + s) (length lines)).
  { induction k as [|k IH]; intros s r H.
    - injection H as <-. split; auto. lia.
    - cbn [seq map_res] in H. apply bind_ok in H. destruct H as (x & X & H).
      apply bind_ok in H. destruct H as (r' & R & H). injection H as <-.
      apply bind_ok in X. destruct X as (l & X & E). injection E as <-.
      apply IH in R. destruct R as [-> B].
      assert (Z1 : nth_error lines (a + s) = Some l).
      { apply zidx_nat. rewrite <- X. f_equal. lia. }
      assert (a + s < length lines) by (apply nth_error_Some; congruence).
      split; [|lia].
      assert (SK : skipn (a + s) lines = l :: skipn (a + S s) lines).
      { clear - Z1. replace (a + S s) with (S (a + s)) by lia. revert lines Z1. generalize (a + s).
        induction n as [|n IHn]; intros [|y ls] H; try discriminate; cbn in *; [congruence|]. auto. }
      rewrite SK. reflexivity. }
  intros r H. specialize (G 0 r). rewrite Nat.add_0_r in G. auto.
Qed.

Lemma Forall2_seq : forall (B : Type) (R : nat -> B -> Prop) m s (l : list B),
  Forall2 R (seq s m) l -> length l = m /\ forall i, i < m -> exists y, nth_error l i = Some y /\ R (s + i) y.
Proof.
  intros B R m. induction m as [|m IH]; intros s l H; cbn [seq] in H; inversion H as [|x y xs ys Rxy F]; subst.
  - split; auto. intros; lia.
  - destruct (IH _ _ F) as [L G]. split; [cbn; lia|]. intros [|i] I.
    + exists y. split; auto. now rewrite Nat.add_0_r.
    + destruct (G i) as (z & Z1 & Z2); [lia|]. exists z. split; auto. now rewrite Nat.add_succ_r.
Qed.

Lemma map_res_seq : forall (B : Type) (f : nat -> res B) m l,
  map_res f (seq 0 m) = Ok l -> length l = m /\ forall i, i < m -> exists y, nth_error l i = Some y /\ f i = Ok y.
Proof. intros B f m l H. apply map_res_Forall2 in H. apply Forall2_seq in H. exact H. Qed.

Lemma map_res_ext : forall (A B : Type) (f g : A -> res B) l, (forall x, In x l -> f x = g x) -> map_res f l = map_res g l.
Proof.
  induction l as [|x l IH]; intro H; auto. cbn [map_res]. rewrite (H x) by now left.
  rewrite IH; auto. intros y I. apply H. now right.
Qed.

Lemma map_res_seq_intro : forall (B : Type) (f : nat -> res B) n (l : list B), length l = n ->
  (forall i, i < n -> option_map Ok (nth_error l i) = Some (f i)) -> map_res f (seq 0 n) = Ok l.
Proof.
  intros B f n l. 
  assert (G : forall s l, length l = n -> (forall i, i < n -> option_map Ok (nth_error l i) = Some (f (s + i))) -> map_res f (seq s n) = Ok l).
  { induction n as [|n IH]; intros s m L H.
    - destruct m; [reflexivity|discriminate].
    - destruct m as [|x m]; [discriminate|]. cbn [seq map_res].
      assert (E := H 0 ltac:(lia)). cbn in E. rewrite Nat.add_0_r in E. injection E as <-. cbn [bind].
      rewrite (IH (S s) m); [reflexivity|cbn in L; lia|]. intros i I. specialize (H (S i) ltac:(lia)). cbn [nth_error] in H.
      now rewrite Nat.add_succ_r in H. }
  intros L H. now apply (G 0).
Qed.

(** Rows of lines put together. *)
Lemma collapse_rows : forall lines k c, 0 < k -> collapse lines (Z.of_nat k) = Ok c ->
  length c * k <= length lines - 1 /\ length lines - 2 <= length c * k /\
  forall i, i < length c -> 1 + i * k + k <= length lines /\
    nth_error c i = Some (concat (map row_part (row_lines lines k i))).
Proof.
  intros lines k c K H. unfold collapse in H.
  destruct (Z.eqb_spec (Z.of_nat k) 0); [lia|]. unfold zrange in H.
  replace (0 <? Z.of_nat k)%Z with true in H by (symmetry; apply Z.ltb_lt; lia).
  set (m := Z.to_nat ((Z.of_nat (length lines) - 1 - 1 + Z.of_nat k - 1) / Z.of_nat k)) in H.
  apply map_res_Forall2 in H.
  assert (G : Forall2 (fun i row => 1 + i * k + k <= length lines /\ row = concat (map row_part (row_lines lines k i)))
                (seq 0 m) c).
  { remember (map _ (seq 0 m)) as zs eqn:E. revert E. generalize (seq 0 m). revert H. clear - K.
    intro H. induction H as [|z row zs c Hz F IH]; intros l E.
    - symmetry in E. apply map_eq_nil in E. subst. constructor.
    - destruct l as [|i l]; [discriminate|]. cbn [map] in E. injection E as E1 E2. constructor; [|now apply IH].
      subst z. apply bind_ok in Hz. destruct Hz as (parts & P & Q). injection Q as <-.
      rewrite Nat2Z.id in P.
      assert (P' : map_res (fun j => l0 <- zidx lines (Z.of_nat (1 + i * k) + Z.of_nat j)%Z ;; Ok (row_part l0)) (seq 0 k) = Ok parts).
      { rewrite <- P. apply map_res_ext. intros j _.
        replace (Z.of_nat (1 + i * k)) with (1 + Z.of_nat i * Z.of_nat k)%Z by (rewrite Nat2Z.inj_add, Nat2Z.inj_mul; reflexivity).
        reflexivity. }
      apply map_res_seq_idx in P'. destruct P' as [-> B]. split; [lia|reflexivity]. }
  apply Forall2_seq in G. destruct G as [L G].
  assert (M : (Z.of_nat (length lines) - 2 <= Z.of_nat m * Z.of_nat k)%Z).
  { subst m. clear n. set (n := (Z.of_nat (length lines) - 1 - 1 + Z.of_nat k - 1)%Z).
    assert (D := Z.div_mod n (Z.of_nat k) ltac:(lia)).
    assert (U := Z.mod_pos_bound n (Z.of_nat k) ltac:(lia)).
    destruct (Z.leb_spec 0 (n / Z.of_nat k)).
    - rewrite Z2Nat.id by lia. nia.
    - replace (Z.to_nat (n / Z.of_nat k)) with 0 by lia. nia. }
  rewrite L. split; [|split].
  - destruct m as [|m']; [lia|]. destruct (G m' ltac:(lia)) as (y & _ & B & _). nia.
  - nia.
  - intros i I. destruct (G i I) as (y & Y & B & ->). cbn [Nat.add] in *. auto.
Qed.

(** ** Header *)

Lemma fold_res_app : forall (A S : Type) (f : S -> A -> res S) l m s,
  fold_res f (l ++ m) s = bind (fold_res f l s) (fold_res f m).
Proof. induction l as [|x l IH]; intros m s; auto. cbn [app fold_res]. destruct (f s x); cbn [bind]; auto. Qed.

Lemma header_fold : forall c n labels units pointers, 
  fold_res (header_step c) (seq 0 n) ([], [], []) = Ok (labels, units, pointers) ->
  (n = 0 /\ labels = [] /\ units = [] /\ pointers = []) \/
  (exists r0 r1, nth_error c 0 = Some r0 /\ nth_error c 1 = Some r1 /\
    labels = map (cell r0) (seq 0 n) /\ units = map (cell r1) (seq 0 n) /\
    forall p, dget Ascii.eqb p pointers =
      match map (fun j => index_str (cell r0 j) labels)
              (filter (fun j => (length (cell r0 j) =? 11) && Ascii.eqb p (nth 10 (cell r0 j) sp)) (seq 0 n)) with
      | [] => None | l => Some l end).
Proof.
  intros c n. destruct n as [|n0].
  { intros ? ? ? H. injection H as <- <- <-. now left. }
  intros labels units pointers H. right.
  assert (E : exists r0 r1, nth_error c 0 = Some r0 /\ nth_error c 1 = Some r1).
  { cbn [seq fold_res] in H. apply bind_ok in H. destruct H as (st & H & _). unfold header_step in H.
    apply bind_ok in H. destruct H as (r0 & E0 & H). apply bind_ok in H. destruct H as (r1 & E1 & _).
    apply idx_ok in E0. apply idx_ok in E1. eauto. }
  destruct E as (r0 & r1 & E0 & E1). exists r0, r1. split; [exact E0|]. split; [exact E1|].
  revert labels units pointers H. generalize (S n0). clear n0. intro n.
  assert (IDX : forall x l m, In x l -> index_str x (l ++ m) = index_str x l).
  { intros x l m. induction l as [|y l IH]; intro I; [destruct I|]. cbn.
    destruct (str_eqb x y) eqn:Q; auto. destruct I as [->|I]; [|now rewrite IH].
    rewrite str_eqb_refl in Q. discriminate. }
  induction n as [|n IH]; intros labels units pointers H.
  - injection H as <- <- <-. repeat split.
  - rewrite seq_S in H. rewrite fold_res_app in H. apply bind_ok in H. destruct H as (((la & un) & po) & F & H).
    specialize (IH _ _ _ F). destruct IH as (-> & -> & P). clear F. cbn [Nat.add fold_res] in H.
    apply bind_ok in H. destruct H as (st & H & Q). injection Q as ->. unfold header_step in H.
    unfold idx in H. rewrite E0, E1 in H. cbn [of_option bind] in H.
    assert (OLD : forall p, map (fun j => index_str (cell r0 j) (map (cell r0) (seq 0 n) ++ [cell r0 n]))
        (filter (fun j => (length (cell r0 j) =? 11) && Ascii.eqb p (nth 10 (cell r0 j) sp)) (seq 0 n))
      = map (fun j => index_str (cell r0 j) (map (cell r0) (seq 0 n)))
        (filter (fun j => (length (cell r0 j) =? 11) && Ascii.eqb p (nth 10 (cell r0 j) sp)) (seq 0 n))).
    { intro p. apply map_ext_in. intros j I. apply filter_In in I. destruct I as [I _]. apply IDX. now apply in_map. }
    destruct (length (cell r0 n) =? 11) eqn:L; injection H as <- <- <-;
      rewrite seq_S; rewrite !map_app; cbn [Nat.add map]; split; auto; split; auto; intro p;
      rewrite filter_app, map_app; cbn [filter]; rewrite L; cbn [andb]; rewrite OLD.
    + rewrite dget_dset. 2: { intros a b. apply Ascii.eqb_eq. }
      rewrite (P (nth 10 (cell r0 n) sp)).
      destruct (Ascii.eqb p (nth 10 (cell r0 n) sp)) eqn:Q.
      * apply Ascii.eqb_eq in Q. subst p. cbn [map].
        destruct (map _ (filter _ (seq 0 n))); reflexivity.
      * cbn [map]. rewrite app_nil_r. apply P.
    + cbn [map]. rewrite app_nil_r. apply P.
Qed.

(** ** What an accepted table looks like *)

Lemma data_ok : forall tag lines d, X4DataSection tag lines = Ok d ->
  exists l0 f1 f2 n0 c rows,
    nth_error lines 0 = Some l0 /\
    nth_error (split_ws (firstn 33 l0)) 1 = Some f1 /\ int_of_str f1 = Some (d_numcols d) /\
    nth_error (split_ws (firstn 33 l0)) 2 = Some f2 /\ int_of_str f2 = Some n0 /\
    d_tag d = tag /\ d_LPR d = lpr_of (d_numcols d) /\
    settle_numrows (Z.of_nat (length lines)) n0 (d_LPR d) = Ok (d_numrows d) /\
    collapse lines (d_LPR d) = Ok c /\
    fold_res (header_step c) (seq 0 (Z.to_nat (d_numcols d))) ([], [], []) = Ok (d_labels d, d_units d, d_pointers d) /\
    map_res (fun i =>
            raw <- map_res (fun j => r <- idx c (2 + i) ;; Ok (cell r j)) (seq 0 (Z.to_nat (d_numcols d))) ;;
            vals <- map_res parseFORTRANNumber raw ;;
            Ok (raw, vals)) (seq 0 (Z.to_nat (d_numrows d))) = Ok rows /\
    d_raw d = map fst rows /\ d_data d = map snd rows.
Proof.
  intros tag lines d H. unfold X4DataSection in H.
  apply bind_ok in H. destruct H as (l0 & E0 & H). apply idx_ok in E0.
  apply bind_ok in H. destruct H as (f1 & E1 & H). apply idx_ok in E1.
  apply bind_ok in H. destruct H as (nc & E2 & H). apply of_option_ok in E2.
  apply bind_ok in H. destruct H as (f2 & E3 & H). apply idx_ok in E3.
  apply bind_ok in H. destruct H as (n0 & E4 & H). apply of_option_ok in E4.
  apply bind_ok in H. destruct H as (nr & E5 & H).
  apply bind_ok in H. destruct H as (c & E6 & H).
  apply bind_ok in H. destruct H as (((la & un) & po) & E7 & H).
  apply bind_ok in H. destruct H as (rows & E8 & H). injection H as <-.
  exists l0, f1, f2, n0, c, rows. repeat (split; [first [assumption|reflexivity]|]). reflexivity.
Qed.

Definition row_ok (ncols : nat) (r : str) (raw : list str) (vals : list (option float)) : Prop :=
  raw = map (cell r) (seq 0 ncols) /\ Forall2 (fun t v => parseFORTRANNumber t = Ok v) raw vals.

Lemma map_res_total : forall (A B : Type) (g : A -> B) l, map_res (fun x => Ok (g x)) l = Ok (map g l).
Proof. induction l as [|x l IH]; auto. cbn [map_res map bind]. now rewrite IH. Qed.

Lemma Forall2_len : forall (A B : Type) (R : A -> B -> Prop) l m, Forall2 R l m -> length l = length m.
Proof. intros A B R l m H. induction H; cbn; auto. Qed.

Lemma data_rows : forall tag lines d, X4DataSection tag lines = Ok d ->
  length (d_labels d) = Z.to_nat (d_numcols d) /\ length (d_units d) = Z.to_nat (d_numcols d) /\
  length (d_raw d) = Z.to_nat (d_numrows d) /\ length (d_data d) = Z.to_nat (d_numrows d) /\
  Forall2 (fun raw vals => length raw = Z.to_nat (d_numcols d) /\ Forall2 (fun t v => parseFORTRANNumber t = Ok v) raw vals)
    (d_raw d) (d_data d).
Proof.
  intros tag lines d H. apply data_ok in H.
  destruct H as (l0 & f1 & f2 & n0 & c & rows & _ & _ & _ & _ & _ & _ & _ & _ & _ & HF & HR & -> & ->).
  apply header_fold in HF.
  assert (LL : length (d_labels d) = Z.to_nat (d_numcols d) /\ length (d_units d) = Z.to_nat (d_numcols d)).
  { destruct HF as [(N & -> & -> & _)|(r0 & r1 & _ & _ & -> & -> & _)]; [now rewrite N|].
    now rewrite !map_length, seq_length. }
  destruct LL as [L1 L2]. split; [exact L1|]. split; [exact L2|].
  assert (S := map_res_seq _ _ _ _ HR). destruct S as [S _]. rewrite !map_length. split; [exact S|]. split; [exact S|].
  apply map_res_Forall2 in HR. clear - HR. revert HR. generalize (seq 0 (Z.to_nat (d_numrows d))). intros ns0 HR.
  induction HR as [|i row ns rows Hi F IH]; [constructor|]. cbn [map]. constructor; [|exact IH].
  apply bind_ok in Hi. destruct Hi as (raw & R & Hi). apply bind_ok in Hi. destruct Hi as (vals & V & Hi).
  injection Hi as <-. cbn [fst snd]. apply map_res_Forall2 in V. split; [|exact V].
  apply map_res_seq in R. tauto.
Qed.

Lemma settle_spec : forall len n0 k n, (0 < k)%Z -> settle_numrows len n0 k = Ok n ->
  (len = 2 + (n0 + 2) * k /\ n = n0)%Z \/
  (len <> 2 + (n0 + 2) * k /\ len = 2 + n0 * k /\ n = n0 - 2)%Z \/
  (len <> 2 + (n0 + 2) * k /\ len <> 2 + n0 * k /\ len = 2 + n0 /\ n = n0 / k - 2)%Z.
Proof.
  intros len n0 k n K H. unfold settle_numrows in H.
  destruct (Z.eqb_spec len (2 + (n0 + 2) * k)) as [E|E]; cbn [negb] in H.
  - injection H as <-. left. auto.
  - destruct (Z.eqb_spec len (2 + n0 * k)) as [E2|E2].
    + injection H as <-. right. left. auto.
    + destruct (Z.eqb_spec len (2 + n0)) as [E3|E3]; [|discriminate].
      destruct (Z.eqb_spec k 0); [lia|]. injection H as <-. right. right. auto.
Qed.

Lemma settle_iff : forall len n0 k, (0 < k)%Z ->
  (exists n, settle_numrows len n0 k = Ok n) \/ settle_numrows len n0 k = Raise IndexError /\
    (len <> 2 + (n0 + 2) * k /\ len <> 2 + n0 * k /\ len <> 2 + n0)%Z.
Proof.
  intros len n0 k K. unfold settle_numrows.
  destruct (Z.eqb_spec len (2 + (n0 + 2) * k)) as [E|E]; cbn [negb]; [eauto|].
  destruct (Z.eqb_spec len (2 + n0 * k)) as [E2|E2]; [eauto|].
  destruct (Z.eqb_spec len (2 + n0)) as [E3|E3]; [|now right].
  destruct (Z.eqb_spec k 0); [lia|]. eauto.
Qed.

(** With at least one column: positions of every cell. *)
Lemma data_cells : forall tag lines d nc, X4DataSection tag lines = Ok d -> d_numcols d = Z.of_nat nc -> 0 < nc ->
  let k := lines_per_row nc in
  exists r0 r1, (* header rows *)
    k + k + 1 <= length lines /\
    r0 = concat (map row_part (row_lines lines k 0)) /\ r1 = concat (map row_part (row_lines lines k 1)) /\
    d_labels d = map (cell r0) (seq 0 nc) /\ d_units d = map (cell r1) (seq 0 nc) /\
    (forall i, i < Z.to_nat (d_numrows d) -> 1 + (2 + i) * k + k <= length lines /\
       nth_error (d_raw d) i = Some (map (cell (concat (map row_part (row_lines lines k (2 + i))))) (seq 0 nc))).
Proof.
  intros tag lines d nc H NC P k. apply data_ok in H.
  destruct H as (l0 & f1 & f2 & n0 & c & rows & _ & _ & _ & _ & _ & _ & HL & _ & HC & HF & HR & -> & _).
  destruct (lpr_pos nc P) as [LP KP]. rewrite HL, NC, LP in HC. fold k in HC, KP.
  apply collapse_rows in HC; auto. destruct HC as (_ & _ & HC).
  apply header_fold in HF. rewrite NC, Nat2Z.id in HF. destruct HF as [(N & _)|(r0 & r1 & H0 & H1 & -> & -> & _)]; [lia|].
  assert (L1 : 1 < length c) by (apply nth_error_Some; congruence).
  destruct (HC 0 ltac:(lia)) as [B0 Q0]. destruct (HC 1 ltac:(lia)) as [B1 Q1].
  exists r0, r1. split; [lia|]. split; [congruence|]. split; [congruence|]. split; [reflexivity|]. split; [reflexivity|].
  intros i I. apply map_res_seq in HR. destruct HR as [LR HR]. destruct (HR i I) as (row & N & R).
  apply bind_ok in R. destruct R as (raw & R & V). apply bind_ok in V. destruct V as (vals & _ & V). injection V as <-.
  rewrite NC, Nat2Z.id in R. destruct nc as [|nc']; [lia|].
  assert (RC : exists r, nth_error c (2 + i) = Some r).
  { cbn [seq map_res] in R. apply bind_ok in R. destruct R as (x & R & _). apply bind_ok in R.
    destruct R as (r & R & _). apply idx_ok in R. eauto. }
  destruct RC as (r & RC).
  assert (LI : 2 + i < length c) by (apply nth_error_Some; congruence).
  destruct (HC (2 + i) LI) as [B Q]. split; [lia|].
  erewrite map_nth_error by exact N. cbn [fst]. f_equal.
  assert (r = concat (map row_part (row_lines lines k (2 + i)))) as -> by congruence.
  assert (R' : map_res (fun j => Ok (cell (concat (map row_part (row_lines lines k (2 + i)))) j)) (seq 0 (S nc')) = Ok raw).
  { rewrite <- R. apply map_res_ext. intros j _. unfold idx. now rewrite RC. }
  rewrite map_res_total in R'. congruence.
Qed.

Lemma nth_error_skipn_add : forall (A : Type) (l : list A) a i, nth_error (skipn a l) i = nth_error l (a + i).
Proof. induction l as [|x l IH]; intros [|a] i; cbn; auto. now destruct i. Qed.
Lemma nth_error_firstn_lt : forall (A : Type) (l : list A) k i, i < k -> nth_error (firstn k l) i = nth_error l i.
Proof. induction l as [|x l IH]; intros [|k] [|i] H; cbn; auto; try lia. apply IH. lia. Qed.

Lemma firstn_In : forall (A : Type) (l : list A) k x, In x (firstn k l) -> In x l.
Proof. induction l as [|y l IH]; intros [|k] x H; cbn in *; try tauto. destruct H; eauto. Qed.
Lemma skipn_In : forall (A : Type) (l : list A) k x, In x (skipn k l) -> In x l.
Proof. induction l as [|y l IH]; intros [|k] x H; cbn in *; try tauto. eauto. Qed.

Lemma row_cell : forall lines k i j, Forall card lines -> 1 + i * k + k <= length lines -> j / 6 < k ->
  table_cell lines (1 + i * k) j (cell (concat (map row_part (row_lines lines k i))) j).
Proof.
  intros lines k i j C L J.
  destruct (nth_error lines (1 + i * k + j / 6)) as [line|] eqn:N; [|apply nth_error_None in N; lia].
  exists line. split; [exact N|]. apply cell_card.
  - intros l I. rewrite Forall_forall in C. apply C. unfold row_lines in I. apply firstn_In in I. now apply skipn_In in I.
  - unfold row_lines. rewrite nth_error_firstn_lt by exact J. now rewrite nth_error_skipn_add.
Qed.

Lemma col_line : forall nc j, j < nc -> j / 6 < lines_per_row nc.
Proof.
  intros nc j H. unfold lines_per_row. apply Nat.div_lt_upper_bound; [lia|].
  assert (D := Nat.div_mod (nc + 5) 6 ltac:(lia)). assert (M := Nat.mod_upper_bound (nc + 5) 6 ltac:(lia)). lia.
Qed.

Lemma nth_error_map_seq : forall (B : Type) (f : nat -> B) n j, j < n -> nth_error (map f (seq 0 n)) j = Some (f j).
Proof.
  intros B f n j H. erewrite map_nth_error; [reflexivity|].
  assert (L : nth_error (seq 0 n) j = Some (nth j (seq 0 n) 0)) by (apply nth_error_nth'; now rewrite seq_length).
  rewrite L. now rewrite seq_nth.
Qed.

Lemma data_layout : forall tag lines d nc, X4DataSection tag lines = Ok d -> d_numcols d = Z.of_nat nc ->
  Forall card lines -> forall j, j < nc ->
  let k := lines_per_row nc in
  (exists t, data_getitem d (inl (lit "LABELS")) (Z.of_nat j) = Ok (DText t) /\ table_cell lines 1 j t) /\
  (exists t, data_getitem d (inl (lit "UNITS")) (Z.of_nat j) = Ok (DText t) /\ table_cell lines (1 + k) j t) /\
  (forall i, i < Z.to_nat (d_numrows d) ->
     exists t v, table_cell lines (1 + (2 + i) * k) j t /\ parseFORTRANNumber t = Ok v /\
                 data_getitem d (inr (Z.of_nat i)) (Z.of_nat j) = Ok (DNum v)).
Proof.
  intros tag lines d nc H NC C j J k.
  assert (DR := data_rows _ _ _ H). destruct DR as (_ & _ & LR & LD & F2).
  destruct (data_cells _ _ _ _ H NC ltac:(lia)) as (r0 & r1 & B & -> & -> & LA & UN & ROWS). fold k in B, LA, UN, ROWS.
  assert (JK := col_line nc j J). fold k in JK.
  split; [|split].
  - eexists. split.
    + unfold data_getitem. change (str_eqb (lit "LABELS") (lit "LABELS")) with true. cbn iota.
      assert (Z1 : zidx (d_labels d) (Z.of_nat j) = Ok (cell (concat (map row_part (row_lines lines k 0))) j)).
      { apply zidx_nat. rewrite LA. now apply nth_error_map_seq. }
      rewrite Z1. reflexivity.
    + apply (row_cell lines k 0 j); auto; lia.
  - eexists. split.
    + unfold data_getitem. change (str_eqb (lit "UNITS") (lit "LABELS")) with false.
      change (str_eqb (lit "UNITS") (lit "UNITS")) with true. cbn iota.
      assert (Z1 : zidx (d_units d) (Z.of_nat j) = Ok (cell (concat (map row_part (row_lines lines k 1))) j)).
      { apply zidx_nat. rewrite UN. now apply nth_error_map_seq. }
      rewrite Z1. reflexivity.
    + replace (1 + k) with (1 + 1 * k) by lia. apply row_cell; auto; lia.
  - intros i I. destruct (ROWS i I) as [BI RI].
    set (r := concat (map row_part (row_lines lines k (2 + i)))) in *.
    destruct (nth_error (d_data d) i) as [vals|] eqn:VI; [|apply nth_error_None in VI; lia].
    assert (RV : Forall2 (fun t v => parseFORTRANNumber t = Ok v) (map (cell r) (seq 0 nc)) vals).
    { clear - F2 RI VI. clearbody r. revert i RI VI. induction F2 as [|a b l m R F IH]; intros [|i] RI VI; cbn in *; try discriminate; eauto.
      injection RI as ->. injection VI as ->. tauto. }
    assert (V : exists v, nth_error vals j = Some v /\ parseFORTRANNumber (cell r j) = Ok v).
    { assert (X := nth_error_map_seq _ (cell r) nc j J). revert X. generalize (cell r j) as t.
      clear - RV. clearbody r. revert j. induction RV as [|a b l m R F IH]; intros [|j] t X; cbn in *; try discriminate; eauto.
      injection X as ->. eauto. }
    destruct V as (v & V1 & V2). exists (cell r j), v. split; [apply row_cell; auto; lia|]. split; [exact V2|].
    unfold data_getitem.
    assert (Z1 : zidx (d_data d) (Z.of_nat i) = Ok vals) by now apply zidx_nat. rewrite Z1. cbn [bind].
    assert (Z2 : zidx vals (Z.of_nat j) = Ok v) by now apply zidx_nat. rewrite Z2. reflexivity.
Qed.

(** ** Length of the section *)
Lemma data_count : forall tag lines d nc, X4DataSection tag lines = Ok d -> d_numcols d = Z.of_nat nc -> 0 < nc ->
  let len := Z.of_nat (length lines) in
  let k := Z.of_nat (lines_per_row nc) in
  (-1 <= d_numrows d)%Z /\
  exists l0 f1 f2 n0, nth_error lines 0 = Some l0 /\ 
     nth_error (split_ws (firstn 33 l0)) 1 = Some f1 /\ int_of_str f1 = Some (d_numcols d) /\
     nth_error (split_ws (firstn 33 l0)) 2 = Some f2 /\ int_of_str f2 = Some n0 /\
    ((len = 2 + (n0 + 2) * k /\ d_numrows d = n0) \/
     (len = 2 + n0 * k /\ d_numrows d = n0 - 2) \/
     (len = 2 + n0 /\ d_numrows d = n0 / k - 2))%Z /\
    (len = 2 + (d_numrows d + 2) * k \/
     len = 1 + (d_numrows d + 3) * k /\ len = 2 + n0 /\ len <> 2 + (n0 + 2) * k /\ len <> 2 + n0 * k)%Z.
Proof.
  intros tag lines d nc H NC P len k.
  destruct (data_cells _ _ _ _ H NC P) as (r0 & r1 & B & _).
  apply data_ok in H.
  destruct H as (l0 & f1 & f2 & n0 & c & rows & H0 & H1 & I1 & H2 & I2 & _ & HL & HS & HC & _).
  destruct (lpr_pos nc P) as [LP KP]. rewrite HL, NC, LP in HS, HC.
  apply collapse_rows in HC; [|exact KP]. destruct HC as (C1 & C2 & _).
  apply settle_spec in HS; [|lia]. fold len in HS. fold k in HS.
  assert (KP' : (0 < k)%Z) by (subst k; lia).
  assert (BL : (2 * k + 1 <= len)%Z) by (subst k len; lia).
  assert (D := Z.div_mod n0 k ltac:(lia)). assert (U := Z.mod_pos_bound n0 k KP').
  split.
  - destruct HS as [(E & ->)|[(_ & E & ->)|(_ & _ & E & ->)]]; nia.
  - exists l0, f1, f2, n0. split; [exact H0|]. split; [exact H1|]. split; [exact I1|]. split; [exact H2|]. split; [exact I2|].
    destruct HS as [(E & ->)|[(_ & E & ->)|(X1 & X2 & E & ->)]]; (split; [tauto|]).
    + left. lia.
    + left. lia.
    + assert (C1' : (Z.of_nat (length c) * k <= len - 1)%Z) by (subst k len; nia).
      assert (C2' : (len - 2 <= Z.of_nat (length c) * k)%Z) by (subst k len; nia).
      assert (CQ : (Z.of_nat (length c) = n0 / k \/ Z.of_nat (length c) = n0 / k + 1)%Z) by nia.
      destruct CQ as [CQ|CQ]; rewrite CQ in *; [left; nia|].
      destruct (Z.eq_dec len (2 + (n0 / k - 2 + 2) * k)) as [Q|Q]; [now left|]. right. split; [|auto]. nia.
Qed.

(** ** Pointers *)
Lemma index_str_first : forall l j x, nth_error l j = Some x -> (forall i y, i < j -> nth_error l i = Some y -> y <> x) ->
  index_str x l = j.
Proof.
  induction l as [|y l IH]; intros [|j] x N D; cbn in *; try discriminate.
  - injection N as ->. now rewrite str_eqb_refl.
  - destruct (str_eqb x y) eqn:E.
    + apply str_eqb_eq in E. subst. exfalso. apply (D 0 y); auto. lia.
    + f_equal. apply IH; auto. intros i z I Z1. apply (D (S i) z); [lia|exact Z1].
Qed.

Lemma filter_sorted : forall f n s, StronglySorted lt (filter f (seq s n)).
Proof.
  intros f n. induction n as [|n IH]; intro s; cbn; [constructor|]. destruct (f s); auto. constructor; auto.
  apply Forall_forall. intros x I. apply filter_In in I. destruct I as [I _]. apply in_seq in I. lia.
Qed.

Lemma data_pointers : forall tag lines d, X4DataSection tag lines = Ok d ->
  (forall i j l p, nth_error (d_labels d) i = Some l -> nth_error (d_labels d) j = Some l -> heading_pointer l p -> i = j) ->
  forall p cols, dget Ascii.eqb p (d_pointers d) = Some cols <->
    cols <> [] /\ StronglySorted lt cols /\
    forall j, In j cols <-> exists l, nth_error (d_labels d) j = Some l /\ heading_pointer l p.
Proof.
  intros tag lines d H U p cols. apply data_ok in H.
  destruct H as (l0 & f1 & f2 & n0 & c & rows & _ & _ & _ & _ & _ & _ & _ & _ & _ & HF & _).
  apply header_fold in HF. destruct HF as [(_ & -> & _ & ->)|(r0 & r1 & _ & _ & L & _ & P)].
  - split; [discriminate|]. intros (N & _ & M). destruct cols as [|j cols]; [contradiction|].
    exfalso. destruct (proj1 (M j) (or_introl eq_refl)) as (l & E & _). destruct j; discriminate.
  - set (n := Z.to_nat (d_numcols d)) in *. rewrite L in *.
    set (f := fun j => (length (cell r0 j) =? 11) && Ascii.eqb p (nth 10 (cell r0 j) sp)) in *.
    assert (F : forall j, j < n -> f j = true <-> heading_pointer (cell r0 j) p).
    { intros j J. unfold f, heading_pointer. rewrite andb_true_iff, Nat.eqb_eq, Ascii.eqb_eq.
      split; intros [A B]; split; auto.
      - rewrite (nth_error_nth' _ sp) by lia. congruence.
      - symmetry. now apply nth_error_nth. }
    assert (IN : forall j, In j (filter f (seq 0 n)) <-> exists l, nth_error (map (cell r0) (seq 0 n)) j = Some l /\ heading_pointer l p).
    { intro j. rewrite filter_In, in_seq. split.
      - intros [J X]. apply F in X; [|lia]. exists (cell r0 j). split; [apply nth_error_map_seq; lia|exact X].
      - intros (l & N & X). assert (J : j < n).
        { rewrite <- (seq_length n 0), <- (map_length (cell r0)). apply nth_error_Some. congruence. }
        rewrite nth_error_map_seq in N by exact J. injection N as <-. split; [lia|]. now apply F. }
    assert (E : map (fun j => index_str (cell r0 j) (map (cell r0) (seq 0 n))) (filter f (seq 0 n)) = filter f (seq 0 n)).
    { rewrite <- (map_id (filter f (seq 0 n))) at 2. apply map_ext_in. intros j I.
      assert (I' := I). apply IN in I'. destruct I' as (l & N & X).
      assert (J : j < n). { apply filter_In in I. destruct I as [I _]. apply in_seq in I. lia. }
      assert (l = cell r0 j). { rewrite nth_error_map_seq in N by exact J. congruence. } subst l.
      apply index_str_first; [exact N|]. intros i y Hi Ny ->. specialize (U i j _ p Ny N X). lia. }
    rewrite P. fold f. rewrite E. split.
    + intro Q. assert (Q' : filter f (seq 0 n) = cols /\ cols <> []).
      { destruct (filter f (seq 0 n)); [discriminate|]. injection Q as <-. split; [reflexivity|discriminate]. }
      destruct Q' as [<- Q']. split; [exact Q'|]. split; [apply filter_sorted|exact IN].
    + intros (Q & S & M).
      assert (cols = filter f (seq 0 n)) as ->.
      { assert (G : forall a b : list nat, StronglySorted lt a -> StronglySorted lt b -> (forall j, In j a <-> In j b) -> a = b).
        { clear. intros a b Sa. revert b. induction Sa as [|x a Sa IH Fa]; intros b Sb M.
          - destruct b as [|y b]; auto. exfalso. apply (M y). now left.
          - destruct Sb as [|y b Sb Fb]; [exfalso; apply (M x); now left|].
            rewrite Forall_forall in Fa, Fb.
            assert (x = y) as <-.
            { destruct (proj1 (M x) (or_introl eq_refl)) as [|Ix]; auto.
              destruct (proj2 (M y) (or_introl eq_refl)) as [|Iy]; auto.
              specialize (Fa _ Iy). specialize (Fb _ Ix). lia. }
            f_equal. apply IH; auto. intro j. split; intro I.
            + destruct (proj1 (M j) (or_intror I)) as [<-|]; auto. specialize (Fa _ I). lia.
            + destruct (proj2 (M j) (or_intror I)) as [<-|]; auto. specialize (Fb _ I). lia. }
        apply G; auto using filter_sorted. intro j. now rewrite M, IN. }
      destruct (filter f (seq 0 n)); [contradiction|reflexivity].
Qed.

(** ** Printing and reading back *)

Definition no_space (w : str) : Prop := forall c, In c w -> is_space c = false.

Lemma split_ws_word : forall w s cur, no_space w -> split_ws_aux (w ++ s) cur = split_ws_aux s (rev w ++ cur).
Proof.
  induction w as [|c w IH]; intros s cur H; auto. cbn [app split_ws_aux]. rewrite (H c) by now left.
  rewrite IH by (intros x I; apply H; now right). cbn [rev]. now rewrite <- app_assoc.
Qed.
Lemma split_ws_gap0 : forall n s, split_ws_aux (repeat sp n ++ s) [] = split_ws_aux s [].
Proof. induction n as [|n IH]; intro s; auto. cbn [repeat app split_ws_aux]. change (is_space sp) with true. cbn iota. apply IH. Qed.
Lemma split_ws_gap : forall n s cur, 0 < n -> cur <> [] -> split_ws_aux (repeat sp n ++ s) cur = rev cur :: split_ws_aux s [].
Proof.
  intros [|n] s cur H N; [lia|]. cbn [repeat app split_ws_aux]. change (is_space sp) with true. cbn iota.
  destruct cur; [contradiction|]. f_equal. apply split_ws_gap0.
Qed.
Lemma rev_nonempty : forall (w : str), w <> [] -> rev w ++ [] <> [].
Proof. intros w H E. rewrite app_nil_r in E. apply (f_equal (@rev ascii)) in E. rewrite rev_involutive in E. contradiction. Qed.

Lemma split_header : forall a b c, no_space a -> no_space b -> no_space c -> a <> [] -> b <> [] -> c <> [] ->
  length a <= 10 -> length c <= 10 -> split_ws (ljust 11 a ++ rjust 11 b ++ rjust 11 c) = [a; b; c].
Proof.
  intros a b c Ha Hb Hc Na Nb Nc La Lc. unfold split_ws, ljust, rjust. rewrite <- !app_assoc.
  rewrite split_ws_word by auto. rewrite split_ws_gap; [|lia|now apply rev_nonempty].
  rewrite app_nil_r, rev_involutive. f_equal. rewrite split_ws_gap0. rewrite split_ws_word by auto.
  rewrite split_ws_gap; [|lia|now apply rev_nonempty]. rewrite app_nil_r, rev_involutive. f_equal.
  rewrite <- (app_nil_r c) at 1. rewrite split_ws_word by auto. cbn [split_ws_aux].
  destruct (rev c ++ []) eqn:E; [exfalso; now apply (rev_nonempty c Nc)|]. rewrite <- E, app_nil_r. now rewrite rev_involutive.
Qed.

(** A cell as it comes out of the parser. *)
Definition clean (t : str) : Prop := length t <= 11 /\ strip t = t /\ ~ In nl t.

Lemma row_part_no_nl : forall l, ~ In nl (row_part l).
Proof.
  intros l H. unfold row_part, replace_char in H. apply in_flat_map in H. destruct H as (x & _ & H).
  destruct (Ascii.eqb x nl) eqn:E; [destruct H|]. destruct H as [H|[]]. apply Ascii.eqb_eq in H. congruence.
Qed.
Lemma cell_clean : forall ls j, clean (cell (concat (map row_part ls)) j).
Proof.
  intros ls j. unfold cell. split; [|split].
  - eapply Nat.le_trans; [apply strip_length|]. unfold slice. rewrite firstn_length. lia.
  - apply strip_strip.
  - intro I. apply FieldLemmas.in_strip in I. apply in_slice in I. apply in_concat in I. destruct I as (p & P & I).
    apply in_map_iff in P. destruct P as (l & <- & _). now apply row_part_no_nl in I.
Qed.

Lemma strip_ljust : forall n s, strip (ljust n s) = strip s.
Proof.
  intros. unfold ljust. rewrite <- (app_nil_l (s ++ _)). rewrite strip_surround; auto; [constructor|apply blank_repeat_sp].
Qed.

Definition print_row (cells : list str) : str := concat (map (ljust 11) cells).

Lemma concat_length_const : forall k (l : list str), (forall p, In p l -> length p = k) -> length (concat l) = k * length l.
Proof.
  induction l as [|x l IH]; intro H; cbn; [lia|]. rewrite app_length, IH by (intros; apply H; now right).
  rewrite (H x) by now left. lia.
Qed.

Lemma print_row_card : forall cells, Forall clean cells -> length cells <= 6 -> card (print_row cells).
Proof.
  intros cells C L. rewrite Forall_forall in C. split.
  - unfold print_row. rewrite (concat_length_const 11).
    + rewrite map_length. lia.
    + intros p I. apply in_map_iff in I. destruct I as (t & <- & I). rewrite ljust_length. destruct (C t I). lia.
  - intro I. apply in_concat in I. destruct I as (p & P & I). apply in_map_iff in P. destruct P as (t & <- & T).
    unfold ljust in I. apply in_app_or in I. destruct I as [I|I]; [|now apply sp_not_nl in I].
    now destruct (C t T) as (_ & _ & N).
Qed.

Lemma print_row_cell : forall cells j t, Forall clean cells -> length cells <= 6 -> nth_error cells j = Some t ->
  cell (row_part (print_row cells)) j = t.
Proof.
  intros cells j t C L N. rewrite row_part_card by now apply print_row_card. unfold cell. rewrite strip_slice_ljust.
  unfold print_row. rewrite Forall_forall in C.
  replace (11 * (j + 1)) with (11 * j + 0 + 11) by lia. replace (11 * j) with (11 * j + 0) at 1 by lia.
  rewrite (slice_concat 11 (map (ljust 11) cells) j 0 11 (ljust 11 t)).
  - destruct (C t (nth_error_In _ _ N)) as (Lt & S & _). unfold slice. rewrite skipn_O.
    rewrite firstn_all2 by (rewrite ljust_length; lia). rewrite strip_ljust. exact S.
  - intros p I. apply in_map_iff in I. destruct I as (x & <- & I). rewrite ljust_length. destruct (C x I). lia.
  - now apply map_nth_error.
  - lia.
Qed.

Lemma print_row_cells : forall cells n, Forall clean cells -> length cells = n -> n <= 6 ->
  map (cell (row_part (print_row cells))) (seq 0 n) = cells.
Proof.
  intros cells n C L B. apply nth_ext with (d := []) (d' := []); [now rewrite map_length, seq_length|].
  intros j J. rewrite map_length, seq_length in J.
  erewrite nth_error_nth by (apply nth_error_map_seq; exact J).
  destruct (nth_error cells j) as [t|] eqn:E; [|apply nth_error_None in E; lia].
  rewrite (print_row_cell cells j t); auto; [|lia]. symmetry. now apply nth_error_nth.
Qed.

Lemma header_fold_ext : forall c c' r0 r1 s0 s1 n, nth_error c 0 = Some r0 -> nth_error c 1 = Some r1 ->
  nth_error c' 0 = Some s0 -> nth_error c' 1 = Some s1 ->
  (forall j, j < n -> cell s0 j = cell r0 j) -> (forall j, j < n -> cell s1 j = cell r1 j) ->
  forall st, fold_res (header_step c') (seq 0 n) st = fold_res (header_step c) (seq 0 n) st.
Proof.
  intros c c' r0 r1 s0 s1 n E0 E1 F0 F1 H0 H1.
  assert (G : forall l, (forall j, In j l -> j < n) -> forall st, fold_res (header_step c') l st = fold_res (header_step c) l st).
  { induction l as [|j l IH]; intros B st; auto. cbn [fold_res].
    assert (header_step c' st j = header_step c st j) as ->.
    { destruct st as ((la & un) & po). unfold header_step, idx. rewrite E0, E1, F0, F1. cbn [of_option bind].
      now rewrite (H0 j), (H1 j) by (apply B; now left). }
    destruct (header_step c st j); cbn [bind]; auto. apply IH. intros; apply B; now right. }
  intro st. apply G. intros j I. apply in_seq in I. lia.
Qed.

Lemma collapse_one : forall l0 ls lf, collapse (l0 :: ls ++ [lf]) 1 = Ok (map row_part ls).
Proof.
  intros l0 ls lf. unfold collapse. change (1 =? 0)%Z with false. cbn iota. unfold zrange.
  change (0 <? 1)%Z with true. cbn iota. rewrite Z.div_1_r.
  replace (Z.to_nat (Z.of_nat (length (l0 :: ls ++ [lf])) - 1 - 1 + 1 - 1)) with (length ls)
    by (cbn [length]; rewrite app_length; cbn [length]; lia).
  change (Z.to_nat 1) with 1. cbn [seq map_res].
  rewrite <- (map_res_total _ _ row_part).
  assert (G : forall pre ls', map_res (fun i => parts <- (y <- (l <- zidx (l0 :: (pre ++ ls') ++ [lf]) (i + Z.of_nat 0)%Z ;; Ok (row_part l)) ;;
                   ys <- Ok [] ;; Ok (y :: ys)) ;; Ok (concat parts))
       (map (fun k => (1 + Z.of_nat k * 1)%Z) (seq (length pre) (length ls'))) = map_res (fun x => Ok (row_part x)) ls').
  { intros pre ls'. revert pre. induction ls' as [|x ls' IH]; intro pre; auto.
    cbn [length seq map map_res].
    assert (Z1 : zidx (l0 :: (pre ++ x :: ls') ++ [lf]) (1 + Z.of_nat (length pre) * 1 + Z.of_nat 0)%Z = Ok x).
    { replace (1 + Z.of_nat (length pre) * 1 + Z.of_nat 0)%Z with (Z.of_nat (S (length pre))) by lia.
      apply zidx_nat. cbn [nth_error]. rewrite <- app_assoc. rewrite nth_error_app2 by lia. now rewrite Nat.sub_diag. }
    rewrite Z1. cbn [bind concat]. rewrite app_nil_r. specialize (IH (pre ++ [x])).
    rewrite app_length in IH. cbn [length] in IH. rewrite Nat.add_1_r in IH. 
    replace ((pre ++ [x]) ++ ls') with (pre ++ x :: ls') in IH by now rewrite <- app_assoc.
    cbn [bind concat] in IH. now rewrite IH. }
  exact (G [] ls).
Qed.

Lemma no_space_digits : forall ds, is_digits ds -> no_space (digits_text ds).
Proof.
  intros ds D c I. unfold digits_text in I. apply in_map_iff in I. destruct I as (d & <- & I).
  unfold is_digits in D. rewrite Forall_forall in D. specialize (D d I). clear I.
  assert (X : forall n, (n < 10)%N -> is_space (ascii_of_N (48 + n)) = false).
  { intros n Hn. unfold is_space, code. rewrite N_ascii_embedding by lia.
    repeat match goal with |- context[(?a <=? ?b)%N] => destruct (N.leb_spec a b); try lia end;
    repeat match goal with |- context[(?a =? ?b)%N] => destruct (N.eqb_spec a b); try lia end; reflexivity. }
  apply X. exact D.
Qed.

Lemma z_to_str_word : forall n k, 0 < k -> (Z.of_nat n < 10 ^ Z.of_nat k)%Z ->
  no_space (z_to_str (Z.of_nat n)) /\ z_to_str (Z.of_nat n) <> [] /\ length (z_to_str (Z.of_nat n)) <= k.
Proof.
  intros n k K H.
  assert (E : z_to_str (Z.of_nat n) = n_to_str (N.of_nat n)).
  { unfold z_to_str. destruct n as [|n]; [reflexivity|]. cbn [Z.of_nat N.of_nat]. reflexivity. }
  rewrite E. destruct (n_to_str_spec (N.of_nat n)) as (ds & Q & D & NE & V).
  split; [rewrite Q; now apply no_space_digits|]. split.
  - rewrite Q. destruct ds; [contradiction|]. discriminate.
  - apply n_to_str_length; auto. apply N2Z.inj_lt. rewrite N2Z.inj_pow, !nat_N_Z. exact H.
Qed.

Lemma no_space_no_nl : forall w, no_space w -> ~ In nl w.
Proof. intros w H I. specialize (H nl I). discriminate. Qed.

Lemma repr_lines : forall d, data_repr d = join [nl]
  ((ljust 11 (d_tag d) ++ rjust 11 (z_to_str (d_numcols d)) ++ rjust 11 (z_to_str (d_numrows d)))
   :: (print_row (d_labels d) :: print_row (d_units d) :: map print_row (d_raw d))
   ++ [ljust 11 (lit "END" ++ d_tag d) ++ rjust 11 (z_to_str (d_numrows d + 2))]).
Proof.
  intro d. unfold data_repr.
  rewrite join_cons by discriminate. cbn [app]. rewrite (join_cons _ (print_row (d_labels d))) by discriminate.
  rewrite (join_cons _ (print_row (d_units d))) by (intro E; apply app_eq_nil in E; destruct E; discriminate).
  set (F := ljust 11 (lit "END" ++ d_tag d) ++ rjust 11 (z_to_str (d_numrows d + 2))).
  assert (T : forall raw, concat (map (fun row => concat (map (ljust 11) row) ++ [nl]) raw) ++ F = join [nl] (map print_row raw ++ [F])).
  { induction raw as [|r raw IH]; [reflexivity|]. cbn [map concat app].
    rewrite join_cons by (intro E; apply app_eq_nil in E; destruct E; discriminate).
    rewrite <- IH. unfold print_row. now rewrite <- !app_assoc. }
  rewrite T. unfold print_row at 2 3. now rewrite <- !app_assoc.
Qed.

Lemma data_roundtrip : forall tag lines d nc nr, X4DataSection tag lines = Ok d ->
  d_numcols d = Z.of_nat nc -> 1 <= nc <= 6 -> d_numrows d = Z.of_nat nr -> (Z.of_nat nr < 10 ^ 10)%Z ->
  no_space tag -> tag <> [] -> length tag <= 10 ->
  X4DataSection tag (split_char nl (data_repr d)) = Ok d.
Proof.
  intros tag lines d nc nr H NC B NR R T1 T2 T3.
  assert (OK := data_ok _ _ _ H). assert (DR := data_rows _ _ _ H).
  destruct (data_cells _ _ _ _ H NC ltac:(lia)) as (r0 & r1 & _ & Hr0 & Hr1 & LA & UN & ROWS).
  destruct OK as (l0 & f1 & f2 & n0 & c & rows & _ & _ & _ & _ & _ & TAG & HL & _ & HC & HF & HR & RAW & DAT).
  destruct DR as (_ & _ & LR & LD & F2).
  set (k := lines_per_row nc) in *.
  assert (CL : Forall clean (d_labels d)).
  { rewrite LA, Hr0. apply Forall_forall. intros t I. apply in_map_iff in I. destruct I as (j & <- & _). apply cell_clean. }
  assert (CU : Forall clean (d_units d)).
  { rewrite UN, Hr1. apply Forall_forall. intros t I. apply in_map_iff in I. destruct I as (j & <- & _). apply cell_clean. }
  assert (CR : forall row, In row (d_raw d) -> Forall clean row /\ length row = nc).
  { intros row I. apply In_nth_error in I. destruct I as (i & I).
    assert (Hi : i < Z.to_nat (d_numrows d)) by (rewrite <- LR; apply nth_error_Some; congruence).
    destruct (ROWS i Hi) as [_ Q]. rewrite Q in I. injection I as <-. split.
    - apply Forall_forall. intros t I. apply in_map_iff in I. destruct I as (j & <- & _). apply cell_clean.
    - now rewrite map_length, seq_length. }
  assert (LL : length (d_labels d) = nc) by (rewrite LA; now rewrite map_length, seq_length).
  assert (LU : length (d_units d) = nc) by (rewrite UN; now rewrite map_length, seq_length).
  assert (W1 := z_to_str_word nc 1 ltac:(lia) ltac:(change (10 ^ Z.of_nat 1)%Z with 10%Z; lia)).
  assert (W2 := z_to_str_word nr 10 ltac:(lia) R).
  destruct W1 as (W1 & W1' & W1''). destruct W2 as (W2 & W2' & W2'').
  set (hdr := ljust 11 tag ++ rjust 11 (z_to_str (d_numcols d)) ++ rjust 11 (z_to_str (d_numrows d))).
  set (body := print_row (d_labels d) :: print_row (d_units d) :: map print_row (d_raw d)).
  set (ftr := ljust 11 (lit "END" ++ tag) ++ rjust 11 (z_to_str (d_numrows d + 2))).
  assert (BODY : forall l, In l body -> card l).
  { intros l [<-|[<-|I]].
    - apply print_row_card; auto; lia.
    - apply print_row_card; auto; lia.
    - apply in_map_iff in I. destruct I as (row & <- & I). destruct (CR row I). apply print_row_card; auto; lia. }
  assert (PAD : forall n w, ~ In nl w -> ~ In nl (ljust n w) /\ ~ In nl (rjust n w)).
  { intros n w Hw. unfold ljust, rjust. split; intro I; apply in_app_or in I; destruct I as [I|I]; auto; now apply sp_not_nl in I. }
  assert (SPLIT : split_char nl (data_repr d) = hdr :: body ++ [ftr]).
  { rewrite repr_lines. rewrite TAG. fold hdr body ftr. apply split_comma; [discriminate|].
    intros x I. destruct I as [<-|I]; [|apply in_app_or in I; destruct I as [I|[<-|[]]]].
    - unfold hdr. rewrite !in_app_iff. intros [I|[I|I]]; revert I; apply PAD; apply no_space_no_nl; auto.
      + rewrite NC. exact W1.
      + rewrite NR. exact W2.
    - now destruct (BODY x I).
    - unfold ftr. rewrite in_app_iff. intros [I|I]; revert I; apply PAD.
      + rewrite in_app_iff. intros [I|I].
        * cbn in I. repeat (destruct I as [I|I]; [discriminate|]). destruct I.
        * now apply (no_space_no_nl tag T1).
      + apply no_space_no_nl. rewrite NR.
        replace (Z.of_nat nr + 2)%Z with (Z.of_nat (nr + 2)) by lia.
        apply (z_to_str_word (nr + 2) 11); [lia|]. change (10 ^ Z.of_nat 11)%Z with 100000000000%Z.
        change (10 ^ 10)%Z with 10000000000%Z in R. lia. }
  rewrite SPLIT.
  assert (LH : length hdr = 33).
  { unfold hdr. rewrite !app_length, ljust_length, !rjust_length, NC, NR. lia. }
  assert (SP : split_ws (slice_to hdr 33) = [tag; z_to_str (d_numcols d); z_to_str (d_numrows d)]).
  { unfold slice_to. rewrite firstn_all2 by lia. unfold hdr. rewrite NC, NR. apply split_header; auto. }
  assert (K1 : d_LPR d = 1%Z).
  { rewrite HL, NC. unfold lpr_of. rewrite Z.div_small by lia. reflexivity. }
  assert (LB : length (hdr :: body ++ [ftr]) = nr + 4).
  { unfold body. cbn [length app]. rewrite app_length, map_length, LR, NR, Nat2Z.id. cbn [length]. lia. }
  unfold X4DataSection. unfold idx at 1. cbn [nth_error of_option bind]. rewrite SP.
  unfold idx at 1. cbn [nth_error of_option bind]. rewrite int_of_z_to_str. cbn [of_option bind].
  unfold idx at 1. cbn [nth_error of_option bind]. rewrite int_of_z_to_str. cbn [of_option bind].
  change ((d_numcols d - 1) / 6 + 1)%Z with (lpr_of (d_numcols d)). rewrite <- HL, K1, LB.
  assert (ST : settle_numrows (Z.of_nat (nr + 4)) (d_numrows d) 1 = Ok (d_numrows d)).
  { unfold settle_numrows. rewrite NR.
    replace (Z.of_nat (nr + 4) =? 2 + (Z.of_nat nr + 2) * 1)%Z with true by (symmetry; apply Z.eqb_eq; lia). reflexivity. }
  rewrite ST. cbn [bind]. rewrite collapse_one. cbn [bind].
  rewrite K1 in HC.
  assert (C0 : nth_error c 0 = Some r0 /\ nth_error c 1 = Some r1).
  { assert (HF' := HF). apply header_fold in HF'. rewrite NC, Nat2Z.id in HF'.
    destruct HF' as [(N & _)|(q0 & q1 & Q0 & Q1 & L0 & L1 & _)]; [lia|].
    assert (KK : k = 1). { unfold k, lines_per_row. clear - B. assert (nc + 5 = 6 * 1 + (nc - 1)) as -> by lia.
      symmetry. apply Nat.div_unique with (r := nc - 1); lia. }
    apply (collapse_rows lines 1) in HC; [|lia]. destruct HC as (_ & _ & HC).
    assert (1 < length c) by (apply nth_error_Some; congruence).
    destruct (HC 0 ltac:(lia)) as [_ G0]. destruct (HC 1 ltac:(lia)) as [_ G1]. rewrite KK in Hr0, Hr1.
    rewrite G0, G1, Hr0, Hr1. split; reflexivity. }
  destruct C0 as [C0 C1].
  rewrite (header_fold_ext c _ r0 r1 (row_part (print_row (d_labels d))) (row_part (print_row (d_units d)))); auto.
  3: { intros j J. rewrite NC, Nat2Z.id in J. apply print_row_cell; auto; [lia|]. rewrite UN. now apply nth_error_map_seq. }
  2: { intros j J. rewrite NC, Nat2Z.id in J. apply print_row_cell; auto; [lia|]. rewrite LA. now apply nth_error_map_seq. }
  rewrite HF. cbn [bind].
  match goal with |- bind (map_res ?f ?l) _ = _ => assert (ROW : map_res f l = Ok rows) end.
  { apply map_res_seq in HR. destruct HR as [LRW HR].
    apply map_res_seq_intro; [exact LRW|]. intros i I. destruct (HR i I) as (row & N & Q).
    rewrite N. cbn [option_map]. f_equal. symmetry. rewrite <- Q.
    apply bind_ok in Q. destruct Q as (raw & Q & V). rewrite Q. cbn [bind].
    assert (NR' : nth_error (d_raw d) i = Some raw).
    { apply bind_ok in V. destruct V as (vals & _ & V). injection V as <-. rewrite RAW. erewrite map_nth_error by exact N. reflexivity. }
    destruct (CR raw (nth_error_In _ _ NR')) as [CC CN].
    assert (IX : idx (row_part (print_row (d_labels d)) :: row_part (print_row (d_units d)) :: map row_part (map print_row (d_raw d))) (2 + i)
             = Ok (row_part (print_row raw))).
    { apply idx_ok. cbn [Nat.add nth_error]. apply map_nth_error. now apply map_nth_error. }
    assert (M : map_res (fun j => r <- idx (map row_part body) (2 + i) ;; Ok (cell r j)) (seq 0 (Z.to_nat (d_numcols d))) = Ok raw).
    { unfold body. cbn [map]. rewrite IX. cbn [bind]. rewrite map_res_total. f_equal. apply print_row_cells; auto.
      - rewrite NC, Nat2Z.id. exact CN.
      - rewrite NC, Nat2Z.id. lia. }
    rewrite M. reflexivity. }
  rewrite ROW. cbn [bind]. rewrite <- RAW, <- DAT, <- K1. rewrite <- TAG. now destruct d.
Qed.

(** ** Words *)
Lemma no_space_white : forall w, no_space w <-> Forall (fun c => ~ white c) w.
Proof.
  intro w. rewrite Forall_forall. unfold no_space. split; intros H c I.
  - intro W. apply is_space_white in W. rewrite H in W by auto. discriminate.
  - destruct (is_space c) eqn:E; auto. apply is_space_white in E. exfalso. now apply (H c).
Qed.

Lemma words_split : forall s ws, words s ws -> split_ws s = ws.
Proof.
  intros s ws H. unfold split_ws.
  assert (GAP : forall b s, blank b -> split_ws_aux (b ++ s) [] = split_ws_aux s []).
  { clear. intros b s B. induction B as [|c b W B IH]; auto. cbn [app split_ws_aux].
    apply is_space_white in W. now rewrite W. }
  induction H as [b B|b w B N F|b w c rest ws B N F W R IH].
  - rewrite <- (app_nil_r b). now rewrite GAP.
  - rewrite GAP by auto. rewrite <- (app_nil_r w) at 1. rewrite split_ws_word by now apply no_space_white.
    cbn [split_ws_aux]. destruct (rev w ++ []) eqn:E; [exfalso; now apply (rev_nonempty w N)|].
    rewrite <- E, app_nil_r. now rewrite rev_involutive.
  - rewrite GAP by auto. rewrite split_ws_word by now apply no_space_white. cbn [split_ws_aux].
    apply is_space_white in W. rewrite W. destruct (rev w ++ []) eqn:E; [exfalso; now apply (rev_nonempty w N)|].
    rewrite <- E, app_nil_r. rewrite rev_involutive. now rewrite IH.
Qed.

Lemma split_words : forall s, words s (split_ws s).
Proof.
  intro s. unfold split_ws.
  assert (G : forall n s, length s <= n ->
     words s (split_ws_aux s []) /\
     forall w, w <> [] -> Forall (fun c => ~ white c) w -> words (w ++ s) (split_ws_aux s (rev w))).
  { induction n as [|n IH]; intros t L.
    - destruct t; [|cbn in L; lia]. split; [apply words_nil; constructor|]. intros w N F. cbn.
      destruct (rev w) eqn:E; [apply (f_equal (@rev ascii)) in E; rewrite rev_involutive in E; contradiction|].
      rewrite <- E, rev_involutive, app_nil_r. apply (words_last [] w); auto. constructor.
    - destruct t as [|c t].
      { apply IH. cbn. lia. }
      cbn [length] in L. destruct (IH t ltac:(lia)) as [I1 I2]. cbn [split_ws_aux].
      destruct (is_space c) eqn:E.
      + assert (W := E). apply is_space_white in W. split.
        * inversion I1 as [b B Q|b w B N F Q|b w d rest ws B N F D R Q]; subst.
          -- apply words_nil. now constructor.
          -- apply (words_last (c :: b) w); auto. now constructor.
          -- apply (words_cons (c :: b) w d rest ws); auto. now constructor.
        * intros w N F. destruct (rev w) eqn:Q; [apply (f_equal (@rev ascii)) in Q; rewrite rev_involutive in Q; contradiction|].
          rewrite <- Q, rev_involutive. apply (words_cons [] w c t); auto. constructor.
      + assert (W : ~ white c) by (intro W; apply is_space_white in W; congruence). split.
        * apply (I2 [c]); [discriminate|]. now repeat constructor.
        * intros w N F. replace (w ++ c :: t) with ((w ++ [c]) ++ t) by now rewrite <- app_assoc.
          replace (c :: rev w) with (rev (w ++ [c])) by apply rev_unit.
          apply I2; [destruct w; discriminate|]. apply Forall_app. split; auto. }
  exact (proj1 (G (length s) s (le_n _))).
Qed.

(** The DATA line announces the number of columns and a count of rows. *)
Lemma announced : forall lines l0 f1 f2 (nc n0 : Z), nth_error lines 0 = Some l0 ->
  nth_error (split_ws (firstn 33 l0)) 1 = Some f1 -> int_of_str f1 = Some nc ->
  nth_error (split_ws (firstn 33 l0)) 2 = Some f2 -> int_of_str f2 = Some n0 ->
  exists rest w0 ws, lines = l0 :: rest /\ words (columns 0 33 l0) (w0 :: f1 :: f2 :: ws).
Proof.
  intros lines l0 f1 f2 nc n0 H0 H1 _ H2 _. destruct lines as [|l rest]; [discriminate|]. injection H0 as ->.
  assert (W := split_words (firstn 33 l0)).
  destruct (split_ws (firstn 33 l0)) as [|w0 [|w1 [|w2 ws]]]; try discriminate.
  injection H1 as ->. injection H2 as ->. exists rest, w0, ws. split; [reflexivity|]. exact W.
Qed.

Lemma data_shape : forall tag lines d, X4DataSection tag lines = Ok d ->
  (exists l0 rest w0 w1 w2 ws n0, lines = l0 :: rest /\ words (columns 0 33 l0) (w0 :: w1 :: w2 :: ws) /\
     int_of_str w1 = Some (d_numcols d) /\ int_of_str w2 = Some n0) /\
  length (d_labels d) = Z.to_nat (d_numcols d) /\ length (d_units d) = Z.to_nat (d_numcols d) /\
  length (d_data d) = Z.to_nat (d_numrows d) /\
  (forall row, In row (d_data d) -> length row = Z.to_nat (d_numcols d)) /\
  ((0 < d_numcols d)%Z -> (-1 <= d_numrows d)%Z) /\
  ((0 <= d_numrows d)%Z -> data_len d = Ok (d_numrows d)).
Proof.
  intros tag lines d H. assert (DR := data_rows _ _ _ H). destruct DR as (L1 & L2 & _ & L4 & F).
  assert (OK := data_ok _ _ _ H). destruct OK as (l0 & f1 & f2 & n0 & c & rows & H0 & H1 & I1 & H2 & I2 & _).
  destruct (announced _ _ _ _ _ _ H0 H1 I1 H2 I2) as (rest & w0 & ws & E & W).
  split; [exists l0, rest, w0, f1, f2, ws, n0; auto|]. split; [exact L1|]. split; [exact L2|]. split; [exact L4|]. split.
  - intros row I. clear - F I. induction F as [|a b l m [La R] F IH]; [destruct I|]. destruct I as [<-|I]; auto.
    rewrite <- La. symmetry. now apply Forall2_len in R.
  - split.
    + intro P. destruct (data_count tag lines d (Z.to_nat (d_numcols d)) H ltac:(lia) ltac:(lia)) as [B _]. exact B.
    + intro P. unfold data_len. destruct (Z.ltb_spec (d_numrows d) 0); [lia|reflexivity].
Qed.

Lemma data_accounts : forall tag lines d nc, X4DataSection tag lines = Ok d -> d_numcols d = Z.of_nat nc -> 0 < nc ->
  counts_rows (length lines) nc (d_numrows d) \/
  exists l0 rest w0 w1 w2 ws n0, lines = l0 :: rest /\ words (columns 0 33 l0) (w0 :: w1 :: w2 :: ws) /\
    int_of_str w2 = Some n0 /\
    ~ counts_rows (length lines) nc n0 /\ ~ counts_rows_and_headers (length lines) nc n0 /\ counts_lines (length lines) n0 /\
    Z.of_nat (length lines) = (1 + (d_numrows d + 3) * Z.of_nat (lines_per_row nc))%Z.
Proof.
  intros tag lines d nc H NC P.
  destruct (data_count _ _ _ _ H NC P) as (_ & l0 & f1 & f2 & n0 & H0 & H1 & I1 & H2 & I2 & _ & [B|(B1 & B2 & B3 & B4)]).
  - now left.
  - right. destruct (announced _ _ _ _ _ _ H0 H1 I1 H2 I2) as (rest & w0 & ws & E & W).
    exists l0, rest, w0, f1, f2, ws, n0. unfold counts_rows, counts_rows_and_headers, counts_lines. auto 10.
Qed.

(** With a convention that counts rows, the number delivered is the number announced. *)
Lemma data_announced : forall tag lines d nc l0 rest w0 w1 w2 ws n0, X4DataSection tag lines = Ok d ->
  d_numcols d = Z.of_nat nc -> 0 < nc -> lines = l0 :: rest -> words (columns 0 33 l0) (w0 :: w1 :: w2 :: ws) ->
  int_of_str w2 = Some n0 ->
  (counts_rows (length lines) nc n0 -> d_numrows d = n0) /\
  (~ counts_rows (length lines) nc n0 -> counts_rows_and_headers (length lines) nc n0 -> d_numrows d = n0 - 2)%Z.
Proof.
  intros tag lines d nc l0 rest w0 w1 w2 ws n0 H NC P E W I.
  apply data_ok in H. destruct H as (l0' & f1 & f2 & n0' & c & rows & H0 & H1 & I1 & H2 & I2 & _ & HL & HS & _).
  rewrite E in H0. injection H0 as <-. apply words_split in W. change (columns 0 33 l0) with (firstn 33 l0) in W.
  rewrite W in H2. injection H2 as <-. rewrite I2 in I. injection I as ->.
  destruct (lpr_pos nc P) as [LP KP]. rewrite HL, NC, LP in HS.
  unfold counts_rows, counts_rows_and_headers. apply settle_spec in HS; [|lia]. split.
  - intro C. destruct HS as [(_ & Q)|[(N & _)|(N & _)]]; [exact Q|contradiction|contradiction].
  - intros N C. destruct HS as [(Q & _)|[(_ & _ & Q)|(_ & N2 & _)]]; [contradiction|exact Q|contradiction].
Qed.

Lemma data_refused : forall tag l0 rest w0 w1 w2 ws nc n0,
  words (columns 0 33 l0) (w0 :: w1 :: w2 :: ws) -> int_of_str w1 = Some (Z.of_nat nc) -> 0 < nc ->
  int_of_str w2 = Some n0 ->
  let len := length (l0 :: rest) in
  ~ counts_rows len nc n0 -> ~ counts_rows_and_headers len nc n0 -> ~ counts_lines len n0 ->
  X4DataSection tag (l0 :: rest) = Raise IndexError.
Proof.
  intros tag l0 rest w0 w1 w2 ws nc n0 W I1 P I2 len N1 N2 N3. apply words_split in W.
  change (columns 0 33 l0) with (firstn 33 l0) in W.
  unfold X4DataSection. unfold idx at 1. cbn [nth_error of_option bind]. unfold slice_to. rewrite W.
  unfold idx at 1. cbn [nth_error of_option bind]. rewrite I1. cbn [of_option bind].
  unfold idx at 1. cbn [nth_error of_option bind]. rewrite I2. cbn [of_option bind].
  destruct (lpr_pos nc P) as [LP KP]. change ((Z.of_nat nc - 1) / 6 + 1)%Z with (lpr_of (Z.of_nat nc)). rewrite LP.
  destruct (settle_iff (Z.of_nat (length (l0 :: rest))) n0 (Z.of_nat (lines_per_row nc)) ltac:(lia)) as [(n & S)|(S & _)].
  - exfalso. apply settle_spec in S; [|lia]. unfold counts_rows, counts_rows_and_headers, counts_lines in *. fold len in S. intuition.
  - fold len in S. fold len. rewrite S. reflexivity.
Qed.

Lemma data_roundtrip_white : forall tag lines d nc nr, X4DataSection tag lines = Ok d ->
  d_numcols d = Z.of_nat nc -> 1 <= nc <= 6 -> d_numrows d = Z.of_nat nr -> (Z.of_nat nr < 10 ^ 10)%Z ->
  Forall (fun c => ~ white c) tag -> tag <> [] -> length tag <= 10 ->
  X4DataSection tag (split_char nl (data_repr d)) = Ok d.
Proof. intros. apply no_space_white in H4. eapply data_roundtrip; eauto. Qed.
