(** Lemmas about the string fragment of Model/Py.v. *)
From Coq Require Import String List Ascii NArith ZArith Bool Arith Lia.
From Verif.Model Require Import Py.
From Verif.Spec Require Import Text.
Import ListNotations.
Local Open Scope list_scope.

Lemma str_eqb_eq : forall a b, str_eqb a b = true <-> a = b.
Proof.
  induction a as [|x a IH]; destruct b as [|y b]; cbn; split; intro H; try congruence; auto.
  - apply andb_true_iff in H. destruct H as [H1 H2].
    apply Ascii.eqb_eq in H1. apply IH in H2. congruence.
  - injection H as -> ->. rewrite Ascii.eqb_refl. now apply IH.
Qed.

Lemma str_eqb_refl : forall a, str_eqb a a = true.
Proof. intro a. now apply str_eqb_eq. Qed.

Lemma str_eqb_neq : forall a b, str_eqb a b = false <-> a <> b.
Proof.
  intros a b. destruct (str_eqb a b) eqn:E; split; intro H; try congruence.
  - apply str_eqb_eq in E. contradiction.
  - intro K. subst. rewrite str_eqb_refl in E. discriminate.
Qed.

Lemma str_eqb_spec : forall a b, reflect (a = b) (str_eqb a b).
Proof.
  intros a b. destruct (str_eqb a b) eqn:E; constructor.
  - now apply str_eqb_eq.
  - now apply str_eqb_neq.
Qed.

Lemma str_eqb_sym : forall a b, str_eqb a b = str_eqb b a.
Proof.
  intros. destruct (str_eqb_spec a b), (str_eqb_spec b a); congruence.
Qed.

Lemma smem_In : forall x l, smem x l = true <-> In x l.
Proof.
  intros x l. unfold smem. rewrite existsb_exists. split.
  - intros (y & Hy & E). apply str_eqb_eq in E. now subst.
  - intro H. exists x. split; auto. apply str_eqb_refl.
Qed.

Lemma smem_not_In : forall x l, smem x l = false <-> ~ In x l.
Proof.
  intros x l. rewrite <- smem_In. destruct (smem x l); split; intro; try congruence; tauto.
Qed.

Lemma cmem_In : forall c s, cmem c s = true <-> In c s.
Proof.
  intros c s. unfold cmem. rewrite existsb_exists. split.
  - intros (y & Hy & E). apply Ascii.eqb_eq in E. now subst.
  - intro H. exists c. split; auto. apply Ascii.eqb_refl.
Qed.

(** Quantification over one character by computation over the 256 values. *)
Definition all_ascii : list ascii := map (fun n => ascii_of_nat n) (seq 0 256).

Lemma all_ascii_In : forall c, In c all_ascii.
Proof.
  intro c. unfold all_ascii. apply in_map_iff. exists (nat_of_ascii c). split.
  - apply ascii_nat_embedding.
  - apply in_seq. pose proof (nat_ascii_bounded c). lia.
Qed.

Lemma forall_ascii : forall P : ascii -> bool,
  forallb P all_ascii = true -> forall c, P c = true.
Proof. intros P H c. rewrite forallb_forall in H. apply H. apply all_ascii_In. Qed.

Lemma is_space_white : forall c, is_space c = true <-> white c.
Proof.
  intro c. unfold white.
  pose proof (forall_ascii
    (fun c => Bool.eqb (is_space c)
       (existsb (N.eqb (N_of_ascii c)) [9; 10; 11; 12; 13; 28; 29; 30; 31; 32; 133; 160]%N))
    ltac:(vm_compute; reflexivity) c) as H.
  cbn beta in H. apply Bool.eqb_prop in H. rewrite H. rewrite existsb_exists. split.
  - intros (y & Hy & E). apply N.eqb_eq in E. now subst.
  - intro K. exists (N_of_ascii c). split; auto. apply N.eqb_refl.
Qed.

Lemma not_space_white : forall c, is_space c = false <-> ~ white c.
Proof.
  intro c. rewrite <- is_space_white. destruct (is_space c); split; intro; try congruence; tauto.
Qed.

Lemma blank_forallb : forall s, blank s <-> forallb is_space s = true.
Proof.
  intro s. unfold blank. rewrite Forall_forall, forallb_forall.
  split; intros H x Hx; apply is_space_white; auto.
Qed.

(** ** strip *)

Lemma lstrip_blank : forall a s, blank a -> lstrip (a ++ s) = lstrip s.
Proof.
  induction a as [|c a IH]; intros s H; cbn; auto.
  inversion H; subst. assert (is_space c = true) as -> by now apply is_space_white. auto.
Qed.

Lemma lstrip_decomp : forall s, exists a, s = a ++ lstrip s /\ blank a.
Proof.
  induction s as [|c s IH]; cbn.
  - exists []. split; auto. constructor.
  - destruct (is_space c) eqn:E.
    + destruct IH as (a & Ha & Hb). exists (c :: a). split.
      * cbn. congruence.
      * constructor; auto. now apply is_space_white.
    + exists []. split; auto. constructor.
Qed.

Lemma lstrip_head : forall s c t, lstrip s = c :: t -> is_space c = false.
Proof.
  induction s as [|d s IH]; cbn; intros c t H; try discriminate.
  destruct (is_space d) eqn:E; eauto. congruence.
Qed.

Lemma lstrip_id : forall s, (forall c t, s = c :: t -> is_space c = false) -> lstrip s = s.
Proof.
  destruct s as [|c s]; cbn; intro H; auto. rewrite (H c s); auto.
Qed.

Lemma blank_rev : forall s, blank s -> blank (rev s).
Proof. intros s H. unfold blank in *. rewrite Forall_forall in *. intros x Hx. apply H. now apply in_rev. Qed.

Lemma blank_app : forall a b, blank (a ++ b) <-> blank a /\ blank b.
Proof. intros. unfold blank. apply Forall_app. Qed.

Lemma rstrip_blank : forall s b, blank b -> rstrip (s ++ b) = rstrip s.
Proof.
  intros. unfold rstrip. rewrite rev_app_distr. rewrite lstrip_blank; auto. now apply blank_rev.
Qed.

Lemma rstrip_decomp : forall s, exists b, s = rstrip s ++ b /\ blank b.
Proof.
  intro s. unfold rstrip. destruct (lstrip_decomp (rev s)) as (a & Ha & Hb).
  exists (rev a). split.
  - rewrite <- rev_app_distr, <- Ha. now rewrite rev_involutive.
  - now apply blank_rev.
Qed.

Lemma rstrip_last : forall s t c, rstrip s = t ++ [c] -> is_space c = false.
Proof.
  unfold rstrip. intros s t c H.
  assert (lstrip (rev s) = c :: rev t) as K.
  { rewrite <- (rev_involutive (lstrip (rev s))), H, rev_app_distr. reflexivity. }
  eapply lstrip_head; eauto.
Qed.

Lemma rstrip_id : forall s, (forall t c, s = t ++ [c] -> is_space c = false) -> rstrip s = s.
Proof.
  intros s H. unfold rstrip. rewrite lstrip_id.
  - apply rev_involutive.
  - intros c t E. apply (H (rev t)). rewrite <- (rev_involutive s), E. reflexivity.
Qed.

Lemma strip_trimmed : forall s, trimmed s (strip s).
Proof.
  intro s. unfold strip.
  destruct (lstrip_decomp s) as (a & Ha & Hba).
  destruct (rstrip_decomp (lstrip s)) as (b & Hb & Hbb).
  exists a, b. repeat split; auto.
  - rewrite <- Hb. auto.
  - intros c t E. apply not_space_white.
    apply (lstrip_head s c (t ++ b)). rewrite Hb, E. reflexivity.
  - intros c t E. apply not_space_white. eapply rstrip_last; eauto.
Qed.

Lemma app_last_inv : forall (A : Type) (l : list A), l = [] \/ exists t c, l = t ++ [c].
Proof.
  intros A l. destruct l as [|x l] using rev_ind; auto. right. eauto.
Qed.

Lemma trimmed_unique : forall s c, trimmed s c -> strip s = c.
Proof.
  intros s c (a & b & -> & Ha & Hb & Hh & Hl). unfold strip.
  rewrite lstrip_blank by auto.
  destruct c as [|x c].
  - cbn. assert (lstrip b = []) as ->.
    { clear - Hb. induction b as [|y b IH]; cbn; auto.
      inversion Hb; subst. assert (is_space y = true) as -> by now apply is_space_white. auto. }
    reflexivity.
  - rewrite lstrip_id.
    + rewrite rstrip_blank by auto. apply rstrip_id.
      intros t d E. apply not_space_white. eapply Hl; eauto.
    + intros d t E. cbn in E. injection E as <- <-. apply not_space_white. eapply Hh; eauto.
Qed.

Lemma strip_iff : forall s c, strip s = c <-> trimmed s c.
Proof.
  intros s c. split.
  - intros <-. apply strip_trimmed.
  - apply trimmed_unique.
Qed.

Lemma strip_surround : forall a s b, blank a -> blank b -> strip (a ++ s ++ b) = strip s.
Proof.
  intros a s b Ha Hb. apply trimmed_unique.
  destruct (strip_trimmed s) as (a' & b' & E & Ha' & Hb' & Hh & Hl).
  exists (a ++ a'), (b' ++ b). repeat split; auto.
  - rewrite E at 1. now rewrite !app_assoc.
  - apply blank_app; auto.
  - apply blank_app; auto.
Qed.

Lemma strip_blank : forall s, strip s = [] <-> blank s.
Proof.
  intro s. split; intro H.
  - apply strip_iff in H. destruct H as (a & b & -> & Ha & Hb & _). apply blank_app; auto.
  - apply trimmed_unique. exists s, []. rewrite app_nil_r. repeat split; auto.
    + constructor.
    + intros; discriminate.
    + intros c t E. destruct t; discriminate.
Qed.

Lemma strip_strip : forall s, strip (strip s) = strip s.
Proof.
  intro s. apply trimmed_unique.
  destruct (strip_trimmed s) as (a & b & E & Ha & Hb & Hh & Hl).
  exists [], []. repeat split; auto; try constructor. now rewrite app_nil_r.
Qed.

Lemma strip_id : forall s,
  (forall c t, s = c :: t -> is_space c = false) ->
  (forall t c, s = t ++ [c] -> is_space c = false) -> strip s = s.
Proof. intros s H1 H2. unfold strip. rewrite lstrip_id by auto. now apply rstrip_id. Qed.

Lemma strip_length : forall s, length (strip s) <= length s.
Proof.
  intro s. destruct (strip_trimmed s) as (a & b & E & _).
  rewrite E at 2. rewrite !app_length. lia.
Qed.

Lemma rstrip_length : forall s, length (rstrip s) <= length s.
Proof.
  intro s. destruct (rstrip_decomp s) as (b & E & _).
  rewrite E at 2. rewrite !app_length. lia.
Qed.

(** ** num_strip *)

Lemma is_num_space_white : forall c, is_num_space c = true <-> num_white c.
Proof.
  intro c.
  pose proof (forall_ascii (fun c => Bool.eqb (is_num_space c)
     (existsb (N.eqb (N_of_ascii c)) [9; 10; 11; 12; 13; 32; 133; 160]%N)) ltac:(vm_compute; reflexivity) c) as K.
  cbn beta in K. apply eqb_prop in K. rewrite K. rewrite existsb_exists. unfold num_white. split.
  - intros (x & Hx & E). apply N.eqb_eq in E. now subst.
  - intro H. exists (N_of_ascii c). split; auto. apply N.eqb_refl.
Qed.

Lemma num_space_space : forall c, is_num_space c = true -> is_space c = true.
Proof. intros c H. unfold is_num_space in H. now apply andb_true_iff in H. Qed.

Lemma not_space_num_space : forall c, is_space c = false -> is_num_space c = false.
Proof. intros c H. unfold is_num_space. now rewrite H. Qed.

Lemma num_white_white : forall c, num_white c -> white c.
Proof. intros c H. apply is_space_white. apply num_space_space. now apply is_num_space_white. Qed.

Lemma num_blank_blank : forall s, num_blank s -> blank s.
Proof. intros s H. eapply Forall_impl; [|exact H]. exact num_white_white. Qed.

Lemma num_lstrip_blank : forall a s, num_blank a -> num_lstrip (a ++ s) = num_lstrip s.
Proof.
  intros a s H. induction H as [|c a Hc H IH]; cbn; auto.
  apply is_num_space_white in Hc. now rewrite Hc.
Qed.

Lemma num_lstrip_decomp : forall s, exists a, s = a ++ num_lstrip s /\ num_blank a.
Proof.
  induction s as [|c s (a & E & H)]; cbn.
  - exists []. split; auto. constructor.
  - destruct (is_num_space c) eqn:K.
    + exists (c :: a). cbn. split; [now rewrite <- E|]. constructor; auto. now apply is_num_space_white.
    + exists []. split; auto. constructor.
Qed.

Lemma num_lstrip_id : forall s, (forall c t, s = c :: t -> is_num_space c = false) -> num_lstrip s = s.
Proof. intros [|c s] H; cbn; auto. now rewrite (H c s eq_refl). Qed.

Lemma num_lstrip_head : forall s c t, num_lstrip s = c :: t -> is_num_space c = false.
Proof.
  induction s as [|d s IH]; cbn; intros c t H; [discriminate|].
  destruct (is_num_space d) eqn:K; [eauto|]. now injection H as <- _.
Qed.

Lemma num_strip_id : forall s,
  (forall c t, s = c :: t -> is_num_space c = false) ->
  (forall t c, s = t ++ [c] -> is_num_space c = false) -> num_strip s = s.
Proof.
  intros s H1 H2. unfold num_strip. rewrite (num_lstrip_id s H1).
  rewrite num_lstrip_id; [apply rev_involutive|].
  intros c t E. apply (H2 (rev t) c). apply (f_equal (@rev ascii)) in E.
  rewrite rev_involutive in E. exact E.
Qed.

Lemma num_lstrip_app_head : forall s b, num_lstrip s <> [] -> num_lstrip (s ++ b) = num_lstrip s ++ b.
Proof.
  induction s as [|c s IH]; cbn; intros b H; [contradiction|].
  destruct (is_num_space c); auto.
Qed.

Lemma num_lstrip_nil : forall s, num_lstrip s = [] -> num_blank s.
Proof.
  intros s H. destruct (num_lstrip_decomp s) as (a & E & Ha). rewrite H, app_nil_r in E. now subst.
Qed.

Lemma num_lstrip_all : forall s, num_blank s -> num_lstrip s = [].
Proof.
  intros s H. rewrite <- (app_nil_r s). rewrite num_lstrip_blank by auto. reflexivity.
Qed.

Lemma num_blank_rev : forall s, num_blank s -> num_blank (rev s).
Proof. intros s H. unfold num_blank. now apply Forall_rev. Qed.

Lemma num_strip_surround : forall a s b, num_blank a -> num_blank b -> num_strip (a ++ s ++ b) = num_strip s.
Proof.
  intros a s b Ha Hb. unfold num_strip. rewrite num_lstrip_blank by auto.
  destruct (num_lstrip s) eqn:E.
  - assert (num_blank (s ++ b)) as K.
    { apply Forall_app. split; auto. now apply num_lstrip_nil. }
    now rewrite (num_lstrip_all _ K).
  - rewrite num_lstrip_app_head by (rewrite E; discriminate). rewrite E.
    rewrite rev_app_distr. now rewrite num_lstrip_blank by now apply num_blank_rev.
Qed.

Lemma num_strip_decomp : forall s, exists a b, s = a ++ num_strip s ++ b /\ num_blank a /\ num_blank b.
Proof.
  intro s. destruct (num_lstrip_decomp s) as (a & Ea & Ha).
  destruct (num_lstrip_decomp (rev (num_lstrip s))) as (b & Eb & Hb).
  exists a, (rev b). unfold num_strip. split; [|split; auto; now apply num_blank_rev].
  rewrite <- rev_app_distr, <- Eb, rev_involutive. exact Ea.
Qed.

Lemma num_strip_ends : forall s c t,
  (num_strip s = c :: t -> is_num_space c = false) /\ (num_strip s = t ++ [c] -> is_num_space c = false).
Proof.
  intros s c t. unfold num_strip. split; intro H.
  - destruct (num_lstrip s) as [|x u] eqn:E; [discriminate|].
    pose proof (num_lstrip_head _ _ _ E) as Hx.
    destruct (num_lstrip_decomp (rev (x :: u))) as (b & Eb & Hb).
    set (r := num_lstrip (rev (x :: u))) in *. apply (f_equal (@rev ascii)) in Eb.
    rewrite rev_involutive, rev_app_distr, H in Eb. cbn in Eb. now injection Eb as <- _.
  - apply (f_equal (@rev ascii)) in H. rewrite rev_involutive, rev_app_distr in H. cbn in H.
    now apply num_lstrip_head in H.
Qed.

Lemma num_strip_num_strip : forall s, num_strip (num_strip s) = num_strip s.
Proof.
  intro s. apply num_strip_id; intros.
  - now apply (proj1 (num_strip_ends s c t)).
  - now apply (proj2 (num_strip_ends s c t)).
Qed.

(** num_strip only removes what strip removes. *)
Lemma strip_num_strip : forall s, strip (num_strip s) = strip s.
Proof.
  intro s. destruct (num_strip_decomp s) as (a & b & E & Ha & Hb).
  rewrite E at 2. symmetry. apply strip_surround; now apply num_blank_blank.
Qed.

Lemma blank_repeat_sp : forall n, blank (repeat sp n).
Proof.
  intro n. unfold blank. rewrite Forall_forall. intros x H. apply repeat_spec in H. subst.
  apply is_space_white. reflexivity.
Qed.

Lemma keyword_line_iff : forall kw line,
  str_eqb (strip (slice line 0 11)) (lit kw) = true <-> keyword_line kw line.
Proof.
  intros. rewrite str_eqb_eq. unfold keyword_line, columns, slice, lit. apply strip_iff.
Qed.

(** ** slices, padding *)

Lemma slice_columns : forall s i j, slice s i j = columns i j s.
Proof. reflexivity. Qed.

Lemma ljust_length : forall n s, length (ljust n s) = Nat.max n (length s).
Proof. intros. unfold ljust. rewrite app_length, repeat_length. lia. Qed.

Lemma rjust_length : forall n s, length (rjust n s) = Nat.max n (length s).
Proof. intros. unfold rjust. rewrite app_length, repeat_length. lia. Qed.

Lemma ljust_long : forall n s, n <= length s -> ljust n s = s.
Proof. intros. unfold ljust. replace (n - length s) with 0 by lia. apply app_nil_r. Qed.

Lemma slice_length : forall s i j, length (slice s i j) = Nat.min (j - i) (length s - i).
Proof. intros. unfold slice. rewrite firstn_length, skipn_length. reflexivity. Qed.

(** ** dictionaries with string keys *)

Section DictLemmas.
  Context {K V : Type} (keqb : K -> K -> bool).
  Hypothesis keqb_eq : forall a b, keqb a b = true <-> a = b.

  Lemma keqb_refl : forall a, keqb a a = true.
  Proof. intro a. now apply keqb_eq. Qed.

  Lemma dget_dset_same : forall k v (d : list (K * V)), dget keqb k (dset keqb k v d) = Some v.
  Proof.
    induction d as [|[k' v'] d IH]; cbn.
    - now rewrite keqb_refl.
    - destruct (keqb k k') eqn:E; cbn; rewrite E; auto.
  Qed.

  Lemma dget_dset_other : forall k k' v (d : list (K * V)),
    k <> k' -> dget keqb k (dset keqb k' v d) = dget keqb k d.
  Proof.
    intros k k' v d N. induction d as [|[k1 v1] d IH]; cbn.
    - destruct (keqb k k') eqn:E; auto. apply keqb_eq in E. contradiction.
    - destruct (keqb k' k1) eqn:E; cbn.
      + apply keqb_eq in E. subst. destruct (keqb k k1) eqn:E; auto.
        apply keqb_eq in E. contradiction.
      + destruct (keqb k k1); auto.
  Qed.

  Lemma dget_In : forall k v (d : list (K * V)), dget keqb k d = Some v -> In (k, v) d.
  Proof.
    induction d as [|[k' v'] d IH]; cbn; intro H; try discriminate.
    destruct (keqb k k') eqn:E; auto. apply keqb_eq in E. injection H as ->. subst. auto.
  Qed.

  Lemma dget_None : forall k (d : list (K * V)), dget keqb k d = None <-> ~ In k (dkeys d).
  Proof.
    induction d as [|[k' v'] d IH]; cbn.
    - tauto.
    - destruct (keqb k k') eqn:E.
      + apply keqb_eq in E. subst. split; try discriminate. intro H. exfalso. auto.
      + rewrite IH. assert (k' <> k) by (intro; subst; rewrite keqb_refl in E; discriminate). tauto.
  Qed.

  Lemma dget_Some_keys : forall k (d : list (K * V)), In k (dkeys d) <-> exists v, dget keqb k d = Some v.
  Proof.
    intros k d. destruct (dget keqb k d) eqn:E.
    - split; eauto. intros _. apply dget_In in E. apply (in_map fst) in E. exact E.
    - apply dget_None in E. split; [contradiction|]. intros (v & H). discriminate.
  Qed.

  Lemma dhas_keys : forall k (d : list (K * V)), dhas keqb k d = true <-> In k (dkeys d).
  Proof.
    intros. unfold dhas. rewrite dget_Some_keys. destruct (dget keqb k d); split; intro H; eauto; try discriminate.
    destruct H. discriminate.
  Qed.

  Lemma dkeys_dset : forall k v (d : list (K * V)),
    dkeys (dset keqb k v d) = if dhas keqb k d then dkeys d else dkeys d ++ [k].
  Proof.
    unfold dhas, dkeys. induction d as [|[k' v'] d IH]; cbn; auto.
    destruct (keqb k k') eqn:E; cbn; auto. rewrite IH. destruct (dget keqb k d); auto.
  Qed.

  Lemma NoDup_dset : forall k v (d : list (K * V)), NoDup (dkeys d) -> NoDup (dkeys (dset keqb k v d)).
  Proof.
    intros k v d H. rewrite dkeys_dset. destruct (dhas keqb k d) eqn:E; auto.

    assert (~ In k (dkeys d)). { rewrite <- dhas_keys. rewrite E. discriminate. }
    clear E. revert H H0. generalize (dkeys d). intro l. induction l as [|x l IH]; intros H N; cbn.
    - constructor; [now intros []|constructor].
    - inversion H; subst. constructor.
      + rewrite in_app_iff. cbn. intros [?|[->|[]]]; auto. apply N. now left.
      + apply IH; auto. intro; apply N; now right.
  Qed.

  Lemma In_dget : forall k v (d : list (K * V)), NoDup (dkeys d) -> In (k, v) d -> dget keqb k d = Some v.
  Proof.
    induction d as [|[k' v'] d IH]; cbn; intros ND H; [contradiction|].
    inversion ND; subst. destruct H as [E|H].
    - injection E as -> ->. now rewrite keqb_refl.
    - destruct (keqb k k') eqn:E; auto. apply keqb_eq in E. subst.
      exfalso. apply H2. apply (in_map fst) in H. exact H.
  Qed.

  Lemma dset_fresh : forall k v (d : list (K * V)), ~ In k (dkeys d) -> dset keqb k v d = d ++ [(k, v)].
  Proof.
    induction d as [|[k' v'] d IH]; cbn; intro H; auto.
    destruct (keqb k k') eqn:E.
    - apply keqb_eq in E. subst. exfalso. auto.
    - rewrite IH; auto.
  Qed.
End DictLemmas.

Lemma ascii_eqb_eq' : forall a b, Ascii.eqb a b = true <-> a = b.
Proof. intros. apply Ascii.eqb_eq. Qed.
