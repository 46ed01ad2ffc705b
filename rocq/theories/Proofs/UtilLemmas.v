(** Proofs about Model/Utilities.v (lists, chunking, tables). *)
From Coq Require Import String List Ascii NArith ZArith Bool Arith Lia.
From Verif.Model Require Import Py PyFloat Utilities.
From Verif.Spec Require Import Text.
From Verif.Proofs Require Import StrLemmas.
Import ListNotations.
Local Open Scope list_scope.

(** ** unique *)
Section Unique.
  Context {A : Type} (eqb : A -> A -> bool).
  Hypothesis eqb_eq : forall a b, eqb a b = true <-> a = b.

  Lemma existsb_eqb_In : forall x l, existsb (eqb x) l = true <-> In x l.
  Proof.
    intros x l. rewrite existsb_exists. split.
    - intros (y & Hy & E). apply eqb_eq in E. now subst.
    - intro H. exists x. split; auto. now apply eqb_eq.
  Qed.

  Lemma unique_snoc : forall l x,
    unique eqb (l ++ [x]) =
    if existsb (eqb x) (unique eqb l) then unique eqb l else unique eqb l ++ [x].
  Proof. intros. unfold unique. rewrite fold_left_app. reflexivity. Qed.

  Lemma unique_In : forall l x, In x (unique eqb l) <-> In x l.
  Proof.
    induction l as [|y l IH] using rev_ind; intro x; [reflexivity|].
    rewrite unique_snoc. destruct (existsb (eqb y) (unique eqb l)) eqn:E.
    - apply existsb_eqb_In in E. rewrite IH, in_app_iff. cbn. apply IH in E. split; intuition congruence.
    - rewrite !in_app_iff, IH. reflexivity.
  Qed.

  Lemma NoDup_snoc : forall (l : list A) x, NoDup l -> ~ In x l -> NoDup (l ++ [x]).
  Proof.
    induction l as [|y l IH]; intros x H N; cbn.
    - constructor; [now intros []|constructor].
    - inversion H; subst. constructor.
      + rewrite in_app_iff. cbn. intros [?|[->|[]]]; auto. apply N. now left.
      + apply IH; auto. intro; apply N; now right.
  Qed.

  Lemma unique_NoDup : forall l, NoDup (unique eqb l).
  Proof.
    induction l as [|y l IH] using rev_ind; [constructor|].
    rewrite unique_snoc. destruct (existsb (eqb y) (unique eqb l)) eqn:E; auto.
    apply NoDup_snoc; auto. rewrite <- existsb_eqb_In, E. discriminate.
  Qed.

  Lemma first_split : forall (l : list A) x, In x l ->
    exists l1 l2, l = l1 ++ x :: l2 /\ ~ In x l1.
  Proof.
    induction l as [|z l IH]; intros x H; [contradiction|].
    destruct (eqb x z) eqn:E.
    - apply eqb_eq in E. subst. exists [], l. split; auto.
    - assert (x <> z) by (intro K; subst z; rewrite (proj2 (eqb_eq x x) eq_refl) in E; discriminate).
      destruct H as [->|H]; [contradiction|].
      destruct (IH x H) as (l1 & l2 & -> & N). exists (z :: l1), l2. split; auto.
      intros [->|K]; auto.
  Qed.

  (** Order: if x comes before y in unique l, the first x in l comes before every y. *)
  Lemma unique_order : forall l u1 u2 u3 x y,
    unique eqb l = u1 ++ x :: u2 ++ y :: u3 ->
    exists l1 l2, l = l1 ++ x :: l2 /\ ~ In x l1 /\ ~ In y l1.
  Proof.
    induction l as [|z l IH] using rev_ind; intros u1 u2 u3 x y H.
    - destruct u1; discriminate.
    - rewrite unique_snoc in H. destruct (existsb (eqb z) (unique eqb l)) eqn:E.
      + destruct (IH _ _ _ _ _ H) as (l1 & l2 & -> & N1 & N2).
        exists l1, (l2 ++ [z]). split; auto. now rewrite <- app_assoc.
      + destruct (app_last_inv _ u3) as [->|(u3' & w & ->)].
        * assert (unique eqb l = u1 ++ x :: u2 /\ z = y) as [K ->].
          { apply app_inj_tail. rewrite H. now rewrite <- app_assoc. }
          assert (In x l) as Hx. { apply unique_In. rewrite K, in_app_iff. cbn. auto. }
          destruct (first_split l x Hx) as (l1 & l2 & -> & N).
          exists l1, (l2 ++ [y]). split; [now rewrite <- app_assoc|]. split; auto.
          intro Hy. assert (In y (unique eqb (l1 ++ x :: l2))) as HH.
          { apply unique_In. rewrite in_app_iff. auto. }
          apply existsb_eqb_In in HH. congruence.
        * assert (unique eqb l = u1 ++ x :: u2 ++ y :: u3' /\ z = w) as [K ->].
          { apply app_inj_tail. rewrite H. now rewrite <- !app_assoc, <- app_comm_cons, <- app_assoc. }
          destruct (IH _ _ _ _ _ K) as (l1 & l2 & -> & N1 & N2).
          exists l1, (l2 ++ [w]). split; auto. now rewrite <- app_assoc.
  Qed.

  Lemma unique_NoDup_id : forall l, NoDup l -> unique eqb l = l.
  Proof.
    induction l as [|y l IH] using rev_ind; intro H; [reflexivity|].
    apply NoDup_rev in H. rewrite rev_app_distr in H. cbn in H. inversion H; subst.
    apply NoDup_rev in H3. rewrite rev_involutive in H3.
    rewrite unique_snoc, IH by auto.
    destruct (existsb (eqb y) l) eqn:E; auto.
    apply existsb_eqb_In in E. exfalso. apply H2. now apply in_rev in E.
  Qed.

  Lemma unique_idem : forall l, unique eqb (unique eqb l) = unique eqb l.
  Proof. intro l. apply unique_NoDup_id. apply unique_NoDup. Qed.
End Unique.

(** ** chunking *)
Section Chunk.
  Variables (s e : str -> bool).

  Lemma chunk_body : forall body done cur,
    Forall (fun l => e l = false) body ->
    fold_left (chunk_step s e) body (done, true, cur) = (done, true, cur ++ body).
  Proof.
    induction body as [|l body IH]; intros done cur H; cbn; [now rewrite app_nil_r|].
    inversion H; subst. rewrite H2. rewrite IH by auto. now rewrite <- app_assoc.
  Qed.

  Lemma chunk_blocks : forall (S E : str -> Prop),
    (forall l, s l = true <-> S l) -> (forall l, e l = true <-> E l) ->
    forall lines bs, blocks S E lines bs -> forall done cur,
    fst (fst (fold_left (chunk_step s e) lines (done, false, cur))) = done ++ bs.
  Proof.
    intros S E HS HE lines bs H. induction H; intros done cur.
    - cbn. now rewrite app_nil_r.
    - cbn. destruct (s line) eqn:K; [apply HS in K; contradiction|]. apply IHblocks.
    - cbn. rewrite (proj2 (HS first) H). rewrite fold_left_app.
      rewrite chunk_body.
      2:{ eapply Forall_impl; [|exact H0]. cbn. intros l K. destruct (e l) eqn:X; auto.
          apply HE in X. contradiction. }
      cbn. rewrite (proj2 (HE last) H1). rewrite IHblocks. rewrite <- !app_assoc. reflexivity.
    - cbn. rewrite (proj2 (HS first) H). rewrite chunk_body.
      2:{ eapply Forall_impl; [|exact H0]. cbn. intros l K. destruct (e l) eqn:X; auto.
          apply HE in X. contradiction. }
      cbn. now rewrite app_nil_r.
  Qed.

  Lemma chunkify_lines_blocks : forall (S E : str -> Prop),
    (forall l, s l = true <-> S l) -> (forall l, e l = true <-> E l) ->
    forall lines bs, blocks S E lines bs -> chunkify_lines s e lines = bs.
  Proof.
    intros S E HS HE lines bs H. unfold chunkify_lines.
    pose proof (chunk_blocks S E HS HE lines bs H [] []) as K.
    destruct (fold_left (chunk_step s e) lines ([], false, [])) as [[d i] c]. exact K.
  Qed.

  (** Every list of lines has a layout. *)
  Lemma first_end : forall lines,
    Forall (fun l => e l = false) lines \/
    exists body last rest, lines = body ++ last :: rest /\
      Forall (fun l => e l = false) body /\ e last = true.
  Proof.
    induction lines as [|l lines IH]; [left; constructor|].
    destruct (e l) eqn:E.
    - right. exists [], l, lines. auto.
    - destruct IH as [IH|(b & x & r & -> & Hb & Hx)].
      + left. constructor; auto.
      + right. exists (l :: b), x, r. auto.
  Qed.

  Lemma layout_exists : forall (S E : str -> Prop),
    (forall l, s l = true <-> S l) -> (forall l, e l = true <-> E l) ->
    forall lines, exists bs, blocks S E lines bs.
  Proof.
    intros S E HS HE.
    assert (forall n lines, length lines <= n -> exists bs, blocks S E lines bs) as G.
    { induction n as [|n IH]; intros lines L.
      - destruct lines; [|cbn in L; lia]. exists []. constructor.
      - destruct lines as [|l lines]; [exists []; constructor|]. cbn in L.
        destruct (s l) eqn:K.
        + apply HS in K.
          destruct (first_end lines) as [H|(b & x & r & -> & Hb & Hx)].
          * exists []. apply blocks_open; auto. eapply Forall_impl; [|exact H]. cbn.
            intros a Ha X. apply HE in X. congruence.
          * rewrite app_length in L. cbn in L.
            destruct (IH r ltac:(lia)) as (bs & Hbs).
            exists ((l :: b ++ [x]) :: bs). apply blocks_block; auto.
            -- eapply Forall_impl; [|exact Hb]. cbn. intros a Ha X. apply HE in X. congruence.
            -- now apply HE.
        + destruct (IH lines ltac:(lia)) as (bs & Hbs). exists bs. apply blocks_junk; auto.
          intro X. apply HS in X. congruence. }
    intro lines. apply (G (length lines)). lia.
  Qed.
End Chunk.

(** A layout determines its blocks. *)
Lemma chunkify_lines_iff : forall s e (S E : str -> Prop),
    (forall l, s l = true <-> S l) -> (forall l, e l = true <-> E l) ->
    forall lines bs, chunkify_lines s e lines = bs <-> blocks S E lines bs.
Proof.
  intros s e S E HS HE lines bs. split.
  - intros <-. destruct (layout_exists s e S E HS HE lines) as (bs & H).
    now rewrite (chunkify_lines_blocks s e S E HS HE _ _ H).
  - apply chunkify_lines_blocks; auto.
Qed.

Lemma chunkifyX4Request_iff : forall lines bs,
  chunkifyX4Request lines = bs <->
  blocks (keyword_line "ENTRY") (keyword_line "ENDENTRY") lines bs.
Proof.
  intros. unfold chunkifyX4Request. apply chunkify_lines_iff; intro; apply keyword_line_iff.
Qed.

(** ** tables *)
Section Table.
  Context {V : Type}.


  Definition cols_step (cols : list str) (k : str) := if smem k cols then cols else cols ++ [k].

  Lemma cols_fold_concat : forall (ds : list (list (str * V))) acc,
    fold_left (fun cols i => fold_left cols_step (dkeys i) cols) ds acc =
    fold_left cols_step (flat_map dkeys ds) acc.
  Proof.
    induction ds as [|d ds IH]; intro acc; cbn; auto.
    rewrite fold_left_app. apply IH.
  Qed.

  Lemma table_cols_unique : forall ds : list (list (str * V)),
    fst (list_of_dicts_to_table ds None) = unique str_eqb (flat_map dkeys ds).
  Proof.
    intro ds. unfold list_of_dicts_to_table. cbn [fst].
    change (fold_left (fun cols i => fold_left cols_step (dkeys i) cols) ds [] =
            unique str_eqb (flat_map dkeys ds)).
    rewrite cols_fold_concat. reflexivity.
  Qed.
End Table.

Lemma table_spec : forall (V : Type) (ds : list (list (str * V))) cols hd rows,
  list_of_dicts_to_table ds cols = (hd, rows) ->
  (forall c, cols = Some c -> hd = c) /\
  (cols = None -> NoDup hd /\ forall k, In k hd <-> exists d v, In d ds /\ In (k, v) d) /\
  length rows = length ds /\
  (forall i d, nth_error ds i = Some d -> NoDup (map fst d) ->
     exists row, nth_error rows i = Some row /\ length row = length hd /\
     forall j k, nth_error hd j = Some k ->
       exists cell, nth_error row j = Some cell /\
       (forall v, cell = Some v <-> In (k, v) d) /\
       (cell = None <-> ~ In k (map fst d))).
Proof.
  intros V ds cols hd rows H. pose proof (f_equal fst H) as Hh. pose proof (f_equal snd H) as Hr.
  cbn [fst snd] in Hh, Hr. repeat split.
  - intros c ->. cbn in Hh. auto.
  - subst cols. rewrite table_cols_unique in Hh. subst hd. apply unique_NoDup. apply str_eqb_eq.
  - subst cols. rewrite table_cols_unique in Hh. subst hd. rewrite unique_In by apply str_eqb_eq.
    rewrite in_flat_map. intros (d & Hd & Hk). unfold dkeys in Hk. apply in_map_iff in Hk.
    destruct Hk as ([k' v] & <- & Hk). eauto.
  - subst cols. rewrite table_cols_unique in Hh. subst hd. rewrite unique_In by apply str_eqb_eq.
    rewrite in_flat_map. intros (d & v & Hd & Hk). exists d. split; auto. unfold dkeys.
    apply in_map_iff. exists (k, v). auto.
  - rewrite <- Hr. cbn. apply map_length.
  - intros i d Hi ND. unfold list_of_dicts_to_table in Hr. cbn [snd] in Hr.
    assert (rows = map (fun i => map (fun k => dget str_eqb k i) hd) ds) as ->.
    { rewrite <- Hr, <- Hh. reflexivity. }
    exists (map (fun k => dget str_eqb k d) hd). split; [now apply (map_nth_error (fun i => map (fun k => dget str_eqb k i) hd))|].
    split; [apply map_length|]. intros j k Hj.
    exists (dget str_eqb k d). split; [now apply (map_nth_error (fun k => dget str_eqb k d))|]. repeat split.
    + intro K. now apply dget_In in K; [|apply str_eqb_eq].
    + intro K. apply In_dget; auto. apply str_eqb_eq.
    + intro K. apply dget_None in K; auto. apply str_eqb_eq.
    + intro K. apply dget_None; auto. apply str_eqb_eq.
Qed.
