(** Proofs about Model/Sql.v and Model/Manager.v. *)
From Coq Require Import String List Ascii NArith ZArith Bool Arith Lia Sorted.
From Verif.Model Require Import Py Utilities Sql Manager.
From Verif.Spec Require Import Text Query.
From Verif.Proofs Require Import StrLemmas UtilLemmas NumLemmas.
Import ListNotations.
Local Open Scope list_scope.

(** ** order on strings *)

Lemma code_inj : forall a b, code a = code b -> a = b.
Proof.
  intros a b H. unfold code in H. rewrite <- (ascii_N_embedding a), <- (ascii_N_embedding b). now rewrite H.
Qed.

Lemma str_leb_refl : forall a, str_leb a a = true.
Proof. induction a as [|x a IH]; cbn; auto. rewrite N.ltb_irrefl. auto. Qed.

Lemma str_leb_total : forall a b, str_leb a b = true \/ str_leb b a = true.
Proof.
  induction a as [|x a IH]; intros [|y b]; cbn; auto.
  destruct (code x <? code y)%N eqn:E1; auto. destruct (code y <? code x)%N eqn:E2; auto.
Qed.

Lemma str_leb_antisym : forall a b, str_leb a b = true -> str_leb b a = true -> a = b.
Proof.
  induction a as [|x a IH]; intros [|y b]; cbn; intros H1 H2; auto; try discriminate.
  destruct (code x <? code y)%N eqn:E1.
  - assert (code y <? code x = false)%N as E2 by (apply N.ltb_ge; apply N.ltb_lt in E1; lia).
    rewrite E2 in H2. discriminate.
  - destruct (code y <? code x)%N eqn:E2; [discriminate|].
    apply N.ltb_ge in E1, E2. f_equal; [apply code_inj; lia|auto].
Qed.

Lemma str_leb_trans : forall a b c, str_leb a b = true -> str_leb b c = true -> str_leb a c = true.
Proof.
  induction a as [|x a IH]; intros [|y b] [|z c]; cbn; intros H1 H2; auto; try discriminate.
  destruct (N.ltb_spec (code x) (code y)).
  - destruct (N.ltb_spec (code y) (code z)).
    + destruct (N.ltb_spec (code x) (code z)); auto; lia.
    + destruct (N.ltb_spec (code z) (code y)); [discriminate|].
      destruct (N.ltb_spec (code x) (code z)); auto; lia.
  - destruct (N.ltb_spec (code y) (code x)); [discriminate|].
    destruct (N.ltb_spec (code y) (code z)).
    + destruct (N.ltb_spec (code x) (code z)); auto; lia.
    + destruct (N.ltb_spec (code z) (code y)); [discriminate|].
      destruct (N.ltb_spec (code x) (code z)); auto.
      destruct (N.ltb_spec (code z) (code x)); [lia|eauto].
Qed.

Lemma str_lt_iff : forall a b, str_lt a b <-> str_leb a b = true /\ a <> b.
Proof.
  induction a as [|x a IH]; intros [|y b].
  - split; [|intros [_ N]; contradiction].
    intros [(c & r & H)|(p & x & y & ra & rb & H & _)]; [discriminate|destruct p; discriminate].
  - split; [split; [auto|discriminate]|]. intros _. left. exists y, b. reflexivity.
  - split; [|intros [H _]; discriminate].
    intros [(c & r & H)|(p & u & v & ra & rb & _ & H & _)]; [discriminate|destruct p; discriminate].
  - split.
    + intros [(c & r & H)|(p & u & v & ra & rb & H1 & H2 & H3)].
      * cbn in H. injection H as -> ->. cbn. rewrite N.ltb_irrefl. split.
        -- apply IH. left. eauto.
        -- intro K. injection K as K. apply (f_equal (@length ascii)) in K.
           rewrite app_length in K. cbn in K. lia.
      * destruct p as [|w p]; cbn in H1, H2; injection H1 as -> ->; injection H2 as -> ->.
        -- cbn. unfold code. apply N.ltb_lt in H3. rewrite H3. split; auto.
           intro K. injection K as -> _. rewrite N.ltb_irrefl in H3. discriminate.
        -- cbn. rewrite N.ltb_irrefl.
           assert (str_lt (p ++ u :: ra) (p ++ v :: rb)) as K by (right; exists p, u, v, ra, rb; auto).
           apply IH in K. destruct K as [K1 K2]. split; auto. intro K. injection K as K. contradiction.
    + cbn. intros [H N]. destruct (N.ltb_spec (code x) (code y)).
      * right. exists [], x, y, a, b. auto.
      * destruct (N.ltb_spec (code y) (code x)); [discriminate|].
        assert (x = y) as -> by (apply code_inj; lia).
        assert (str_lt a b) as K by (apply IH; split; auto; congruence).
        destruct K as [(c & r & ->)|(p & u & v & ra & rb & -> & -> & K)].
        -- left. exists c, r. reflexivity.
        -- right. exists (y :: p), u, v, ra, rb. auto.
Qed.

(** ** sorting *)

Lemma sinsert_In : forall x l y, In y (sinsert x l) <-> y = x \/ In y l.
Proof.
  induction l as [|z l IH]; intro y; cbn; [intuition|].
  destruct (str_leb x z); cbn; rewrite ?IH; intuition.
Qed.

Lemma ssort_In : forall l y, In y (ssort l) <-> In y l.
Proof.
  induction l as [|x l IH]; intro y; cbn; [reflexivity|]. rewrite sinsert_In, IH. intuition.
Qed.

Lemma sinsert_NoDup : forall x l, NoDup l -> ~ In x l -> NoDup (sinsert x l).
Proof.
  induction l as [|z l IH]; intros H N; cbn; [constructor; auto; constructor|].
  destruct (str_leb x z); [constructor; auto|]. inversion H; subst.
  constructor.
  - rewrite sinsert_In. intros [->|K]; auto. apply N. now left.
  - apply IH; auto. intro; apply N; now right.
Qed.

Lemma ssort_NoDup : forall l, NoDup l -> NoDup (ssort l).
Proof.
  induction l as [|x l IH]; intro H; cbn; [constructor|]. inversion H; subst.
  apply sinsert_NoDup; auto. now rewrite ssort_In.
Qed.

Definition sle (a b : str) : Prop := str_leb a b = true.

Lemma sinsert_sorted : forall x l, StronglySorted sle l -> StronglySorted sle (sinsert x l).
Proof.
  induction l as [|z l IH]; intro H; cbn; [repeat constructor|].
  inversion H; subst. destruct (str_leb x z) eqn:E.
  - constructor; auto. constructor; auto. eapply Forall_impl; [|exact H3].
    intros a Ha. eapply str_leb_trans; eauto.
  - constructor; auto. apply Forall_forall. intros y Hy. apply sinsert_In in Hy.
    destruct Hy as [->|Hy].
    + destruct (str_leb_total x z); [congruence|auto].
    + rewrite Forall_forall in H3. auto.
Qed.

Lemma ssort_sorted : forall l, StronglySorted sle (ssort l).
Proof. induction l as [|x l IH]; cbn; [constructor|]. now apply sinsert_sorted. Qed.

Lemma sorted_strict : forall l, NoDup l -> StronglySorted sle l -> StronglySorted str_lt l.
Proof.
  induction l as [|x l IH]; intros N S; [constructor|]. inversion N; inversion S; subst.
  constructor; auto. apply Forall_forall. intros y Hy. apply str_lt_iff. split.
  - rewrite Forall_forall in H6. now apply H6.
  - intros ->. contradiction.
Qed.

Lemma firstn_mono : forall n a b, str_leb a b = true -> str_leb (firstn n a) (firstn n b) = true.
Proof.
  induction n as [|n IH]; intros [|x a] [|y b]; cbn; intros H; auto; try discriminate.
  destruct (code x <? code y)%N; auto. destruct (code y <? code x)%N; [discriminate|auto].
Qed.

Lemma StronglySorted_map_mono : forall (f : str -> str) l,
  (forall a b, sle a b -> sle (f a) (f b)) -> StronglySorted sle l -> StronglySorted sle (map f l).
Proof.
  intros f l Hf H. induction H; cbn; constructor; auto.
  apply Forall_map. eapply Forall_impl; [|exact H0]. auto.
Qed.

Lemma unique_sorted : forall l, StronglySorted sle l -> StronglySorted sle (unique str_eqb l).
Proof.
  induction l as [|y l IH] using rev_ind; intro H; [constructor|].
  assert (StronglySorted sle l /\ Forall (fun x => sle x y) l) as [H1 H2].
  { clear IH. induction l as [|x l IH]; cbn in *; [split; constructor|].
    inversion H; subst. destruct (IH H2) as [A B]. apply Forall_app in H3. destruct H3 as [H3 H4].
    inversion H4; subst. split; constructor; auto. }
  rewrite unique_snoc. destruct (existsb (str_eqb y) (unique str_eqb l)); auto.
  specialize (IH H1).
  assert (Forall (fun x => sle x y) (unique str_eqb l)) as H3.
  { apply Forall_forall. intros x Hx. apply unique_In in Hx; [|apply str_eqb_eq].
    rewrite Forall_forall in H2. auto. }
  clear - IH H3. induction IH; cbn; [repeat constructor|]. inversion H3; subst.
  constructor; auto. apply Forall_app. auto.
Qed.

(** ** the result map *)

Definition ekey (r : str) : str := slice r 0 5.
Definition in_group (e r : str) : bool := str_eqb (ekey r) e && negb (str_eqb r (e ++ lit "001")).
Definition group_of (l : list str) (e : str) : str * list str :=
  (e, (e ++ lit "001") :: filter (in_group e) l).

Lemma dget_map_pair : forall (V : Type) (g : str -> V) ks k,
  In k ks -> dget str_eqb k (map (fun e => (e, g e)) ks) = Some (g k).
Proof.
  intros V g ks k. induction ks as [|x ks IH]; cbn; intro H; [contradiction|].
  destruct (str_eqb_spec k x) as [->|N]; auto.
  apply IH. destruct H; auto. congruence.
Qed.

Lemma dset_map_pair : forall (V : Type) (g : str -> V) ks k v,
  NoDup ks -> In k ks ->
  dset str_eqb k v (map (fun e => (e, g e)) ks) =
  map (fun e => (e, if str_eqb e k then v else g e)) ks.
Proof.
  intros V g ks k v. induction ks as [|x ks IH]; cbn; intros N H; [contradiction|].
  inversion N; subst. destruct (str_eqb_spec k x) as [->|E].
  - rewrite str_eqb_refl. f_equal. apply map_ext_in. intros e He.
    destruct (str_eqb_spec e x) as [->|]; [contradiction|reflexivity].
  - destruct (str_eqb_spec x k) as [->|]; [congruence|]. f_equal. apply IH; auto.
    destruct H; [congruence|auto].
Qed.

Lemma dkeys_map_pair : forall (V : Type) (g : str -> V) ks, dkeys (map (fun e => (e, g e)) ks) = ks.
Proof. intros. unfold dkeys. rewrite map_map. cbn. apply map_id. Qed.

Lemma result_map_spec : forall l, NoDup l ->
  fold_left result_step l [] =
  map (group_of l) (unique str_eqb (map ekey l)).
Proof.
  induction l as [|r l IH] using rev_ind; intro ND; [reflexivity|].
  assert (NoDup l /\ ~ In r l) as [ND1 Nr].
  { apply NoDup_rev in ND. rewrite rev_app_distr in ND. cbn in ND. inversion ND; subst.
    apply NoDup_rev in H2. rewrite rev_involutive in H2. split; auto. now rewrite in_rev. }
  rewrite fold_left_app. cbn [fold_left]. rewrite IH by auto. clear IH.
  rewrite map_app. cbn [map]. rewrite unique_snoc.
  set (ks := unique str_eqb (map ekey l)). set (e := ekey r).
  assert (NoDup ks) as NDk by (apply unique_NoDup; apply str_eqb_eq).
  assert (forall k, group_of (l ++ [r]) k =
            (k, ((k ++ lit "001") :: filter (in_group k) l) ++ (if in_group k r then [r] else []))) as Hg.
  { intro k. unfold group_of. rewrite filter_app. cbn [filter]. destruct (in_group k r); reflexivity. }
  assert (forall k, In r ((k ++ lit "001") :: filter (in_group k) l) <-> r = k ++ lit "001") as Hin.
  { intro k. cbn. rewrite filter_In. split; [|auto]. intros [H|[H _]]; [auto|contradiction]. }
  unfold result_step. change (slice r 0 5) with e.
  assert (existsb (str_eqb e) ks = dhas str_eqb e (map (group_of l) ks)) as HD.
  { unfold group_of. apply eq_iff_eq_true. rewrite dhas_keys by apply str_eqb_eq.
    rewrite dkeys_map_pair. now rewrite existsb_eqb_In by apply str_eqb_eq. }
  rewrite HD. destruct (dhas str_eqb e (map (group_of l) ks)) eqn:E.
  - apply dhas_keys in E; [|apply str_eqb_eq]. unfold group_of in E. rewrite dkeys_map_pair in E.
    unfold group_of at 1. rewrite dget_map_pair by auto.
    destruct (smem r ((e ++ lit "001") :: filter (in_group e) l)) eqn:M.
    + apply smem_In in M. apply Hin in M. apply map_ext. intro k. rewrite Hg.
      assert (in_group k r = false) as ->.
      { unfold in_group. destruct (str_eqb_spec (ekey r) k) as [<-|]; auto. cbn [andb].
        apply negb_false_iff, str_eqb_eq. exact M. }
      now rewrite app_nil_r.
    + assert (r <> e ++ lit "001") as Nr1.
      { intro K. apply Hin in K. apply smem_In in K. congruence. }
      unfold group_of at 1. rewrite dset_map_pair by auto. apply map_ext. intro k. rewrite Hg.
      destruct (str_eqb_spec k e) as [->|Nk].
      * assert (in_group e r = true) as ->; [|reflexivity].
        unfold in_group. fold e. rewrite str_eqb_refl. cbn. apply negb_true_iff. now apply str_eqb_neq.
      * assert (in_group k r = false) as ->.
        { unfold in_group. fold e. destruct (str_eqb_spec e k); [congruence|reflexivity]. }
        now rewrite app_nil_r.
  - assert (~ In e ks) as Ne.
    { intro K. rewrite <- (dkeys_map_pair _ (fun e => (e ++ lit "001") :: filter (in_group e) l) ks) in K.
      apply (dhas_keys str_eqb str_eqb_eq) in K. exact (eq_true_false_abs _ K E). }
    assert (filter (in_group e) l = []) as Fe.
    { destruct (filter (in_group e) l) as [|x t] eqn:F; auto. exfalso. apply Ne.
      assert (In x (filter (in_group e) l)) as K by (rewrite F; now left).
      apply filter_In in K. destruct K as [K1 K2]. unfold in_group in K2.
      apply andb_true_iff in K2. destruct K2 as [K2 _]. apply str_eqb_eq in K2.
      apply unique_In; [apply str_eqb_eq|]. rewrite <- K2. now apply in_map. }
    rewrite (dset_fresh str_eqb str_eqb_eq e) by (unfold group_of; now rewrite dkeys_map_pair).
    rewrite map_app. cbn [map].
    assert (dget str_eqb e (map (group_of l) ks ++ [(e, [e ++ lit "001"])]) = Some [e ++ lit "001"]) as G.
    { assert (map (group_of l) ks ++ [(e, [e ++ lit "001"])] =
              map (fun k => (k, (k ++ lit "001") :: filter (in_group k) l)) (ks ++ [e])) as ->.
      { unfold group_of. rewrite map_app. cbn [map]. now rewrite Fe. }
      rewrite dget_map_pair by (rewrite in_app_iff; cbn; auto). now rewrite Fe. }
    rewrite G.
    assert (map (group_of l) ks = map (group_of (l ++ [r])) ks) as Hold.
    { apply map_ext_in. intros k Hk. rewrite Hg.
      assert (in_group k r = false) as ->.
      { unfold in_group. fold e. destruct (str_eqb_spec e k) as [->|]; [contradiction|reflexivity]. }
      now rewrite app_nil_r. }
    rewrite (Hg e), Fe. cbn [app].
    destruct (smem r [e ++ lit "001"]) eqn:M.
    + apply smem_In in M. destruct M as [M|[]]. rewrite Hold. do 2 f_equal.
      unfold in_group. fold e. rewrite str_eqb_refl. cbn [andb].
      rewrite M, str_eqb_refl. reflexivity.
    + assert (r <> e ++ lit "001") as Nr1.
      { intro K. apply smem_not_In in M. apply M. rewrite K. now left. }
      assert (in_group e r = true) as ->.
      { unfold in_group. fold e. rewrite str_eqb_refl. cbn. apply negb_true_iff. now apply str_eqb_neq. }
      assert (map (group_of l) ks ++ [(e, [e ++ lit "001"])] =
              map (fun k => (k, (k ++ lit "001") :: filter (in_group k) l)) (ks ++ [e])) as Hm.
      { unfold group_of. rewrite map_app. cbn [map]. now rewrite Fe. }
      rewrite Hm.
      assert (NoDup (ks ++ [e])) as NDe by (apply NoDup_snoc; auto).
      rewrite dset_map_pair; auto; [|rewrite in_app_iff; cbn; auto].
      rewrite map_app. cbn [map]. rewrite str_eqb_refl. f_equal. rewrite <- Hold.
      apply map_ext_in. intros k Hk. destruct (str_eqb_spec k e) as [->|]; [contradiction|reflexivity].
Qed.

Lemma slice05 : forall s, slice s 0 5 = firstn 5 s.
Proof. reflexivity. Qed.

Lemma grouping_of : forall subents,
  grouping (fun s => In s subents) (fold_left result_step (ssort (unique str_eqb subents)) []).
Proof.
  intro subents. set (rl := ssort (unique str_eqb subents)).
  assert (NoDup rl) as ND by (apply ssort_NoDup; apply unique_NoDup; apply str_eqb_eq).
  assert (forall s, In s rl <-> In s subents) as Hin.
  { intro s. unfold rl. rewrite ssort_In. apply unique_In. apply str_eqb_eq. }
  assert (StronglySorted sle rl) as Hs by apply ssort_sorted.
  rewrite result_map_spec by auto. unfold grouping.
  assert (map fst (map (group_of rl) (unique str_eqb (map ekey rl))) = unique str_eqb (map ekey rl)) as Hf.
  { rewrite map_map. cbn. apply map_id. }
  rewrite Hf. split; [|split].
  - apply sorted_strict; [apply unique_NoDup; apply str_eqb_eq|]. apply unique_sorted.
    apply StronglySorted_map_mono; auto. intros a b. apply firstn_mono.
  - intro e. rewrite unique_In by apply str_eqb_eq. rewrite in_map_iff. split.
    + intros (s & E & H). exists s. split; [now apply Hin|exact E].
    + intros (s & H & E). exists s. split; [exact E|now apply Hin].
  - intros e l H. apply in_map_iff in H. destruct H as (k & E & _). unfold group_of in E.
    injection E as -> <-. exists (filter (in_group e) rl). split; auto. split.
    + apply sorted_strict; [now apply NoDup_filter|].
      clear - Hs. induction Hs; cbn; [constructor|]. destruct (in_group e a); auto.
      constructor; auto. apply Forall_forall. intros x Hx. apply filter_In in Hx.
      rewrite Forall_forall in H. now apply H.
    + intro s. rewrite filter_In, Hin. unfold in_group. rewrite andb_true_iff, str_eqb_eq, negb_true_iff, str_eqb_neq.
      unfold ekey. rewrite slice05. tauto.
Qed.

(** ** lexing generated conditions *)

Lemma quote_char : sql_quote = ascii_of_N 39.
Proof. reflexivity. Qed.

Lemma lex_str : forall v acc rest, ~ In sql_quote v ->
  sql_lex (LStr acc) (v ++ sql_quote :: rest) = sql_lex (LStrQ (rev v ++ acc)) rest.
Proof.
  induction v as [|c v IH]; intros acc rest N.
  - cbn. reflexivity.
  - cbn [app sql_lex]. destruct (Ascii.eqb_spec c sql_quote) as [->|].
    + exfalso. apply N. now left.
    + rewrite IH by (intro; apply N; now right). cbn [rev]. now rewrite <- app_assoc.
Qed.

Lemma lex_strq_sp : forall acc rest,
  sql_lex (LStrQ acc) (sp :: rest) = lex_cons (TStr (rev acc)) (sql_lex LStart rest).
Proof. reflexivity. Qed.

Lemma lex_id : forall name acc rest, forallb sql_idchar name = true ->
  sql_lex (LId acc) (name ++ sp :: rest) = lex_cons (TId (rev acc ++ name)) (sql_lex LStart rest).
Proof.
  induction name as [|c name IH]; intros acc rest H.
  - rewrite app_nil_r. reflexivity.
  - cbn [forallb] in H. apply andb_true_iff in H. destruct H as [H1 H2].
    cbn [app]. rewrite <- (app_nil_l rest) at 1.
    change (sql_lex (LId acc) (c :: name ++ sp :: [] ++ rest)) with
      (if sql_idchar c then sql_lex (LId (c :: acc)) (name ++ sp :: rest)
       else lex_cons (TId (rev acc))
        (if sql_space c then sql_lex LStart (name ++ sp :: rest)
        else if sql_idstart c then sql_lex (LId [c]) (name ++ sp :: rest)
        else if Ascii.eqb c sql_quote then sql_lex (LStr []) (name ++ sp :: rest)
        else if Ascii.eqb c "="%char then lex_cons TEq (sql_lex LStart (name ++ sp :: rest))
        else LexOutside)).
    rewrite H1, IH by auto. cbn [rev]. now rewrite <- app_assoc.
Qed.

Lemma lex_start : forall c rest, sql_lex LStart (c :: rest) =
        (if sql_space c then sql_lex LStart rest
        else if sql_idstart c then sql_lex (LId [c]) rest
        else if Ascii.eqb c sql_quote then sql_lex (LStr []) rest
        else if Ascii.eqb c "="%char then lex_cons TEq (sql_lex LStart rest)
        else LexOutside).
Proof. reflexivity. Qed.

Lemma lex_name : forall c t rest, sql_space c = false -> sql_idstart c = true ->
  forallb sql_idchar t = true ->
  sql_lex LStart ((c :: t) ++ sp :: rest) = lex_cons (TId (c :: t)) (sql_lex LStart rest).
Proof.
  intros c t rest H1 H2 H3. rewrite <- app_comm_cons, lex_start, H1, H2.
  now rewrite lex_id.
Qed.

Lemma lex_literal : forall v rest, ~ In sql_quote v ->
  sql_lex LStart (sql_quote :: v ++ sql_quote :: sp :: rest) =
  lex_cons (TStr v) (sql_lex LStart rest).
Proof.
  intros v rest N. rewrite lex_start. cbn [sql_space]. 
  change (sql_space sql_quote) with false. change (sql_idstart sql_quote) with false.
  rewrite Ascii.eqb_refl. rewrite lex_str by auto. rewrite lex_strq_sp.
  now rewrite app_nil_r, rev_involutive.
Qed.

Definition sql_names : list string :=
  ["author"; "target"; "reaction"; "projectile"; "quantity"; "subent"; "entry"; "LIKE"; "and"]%string.

Lemma lex_known_name : forall n rest, In n sql_names ->
  sql_lex LStart (lit n ++ sp :: rest) = lex_cons (TId (lit n)) (sql_lex LStart rest).
Proof.
  intros n rest H. unfold sql_names in H.
  cbn [In] in H.
  repeat (destruct H as [<-|H]; [apply lex_name; reflexivity|]). contradiction.
Qed.

Definition op_tok (op : string) : sqltok := if str_eqb (lit op) (lit "=") then TEq else TId (lit op).

Lemma lex_op : forall op rest, op = "="%string \/ op = "LIKE"%string ->
  sql_lex LStart (lit op ++ sp :: rest) = lex_cons (op_tok op) (sql_lex LStart rest).
Proof.
  intros op rest [->| ->].
  - cbn [lit list_ascii_of_string app]. rewrite lex_start.
    change (sql_space "="%char) with false. change (sql_idstart "="%char) with false.
    change (Ascii.eqb "="%char sql_quote) with false. cbv iota. rewrite Ascii.eqb_refl.
    now rewrite lex_start.
  - apply lex_known_name. cbn. auto 12.
Qed.

Lemma lex_criterion : forall col op v rest,
  In col sql_names -> op = "="%string \/ op = "LIKE"%string -> ~ In sql_quote v ->
  sql_lex LStart (criterion col op v ++ rest) =
  lex_cons (TId (lit col)) (lex_cons (op_tok op) (lex_cons (TStr v) (sql_lex LStart rest))).
Proof.
  intros col op v rest Hc Ho N. unfold criterion.
  replace ((lit col ++ [sp] ++ lit op ++ [sp; sql_quote] ++ v ++ [sql_quote; sp]) ++ rest)
    with (lit col ++ sp :: lit op ++ sp :: sql_quote :: v ++ sql_quote :: sp :: rest)
    by (rewrite <- !app_assoc; reflexivity).
  rewrite lex_known_name by auto. rewrite lex_op by auto. now rewrite lex_literal.
Qed.

(** ** from criteria to conditions *)

(** A criterion as (column, operator, value). *)
Definition crit : Type := string * string * str.
Definition crit_text (x : crit) : str := let '(col, op, v) := x in criterion col op v.
Definition crit_ok (x : crit) : Prop :=
  let '(col, op, v) := x in
  In col sql_names /\ (op = "="%string \/ op = "LIKE"%string) /\ ~ In sql_quote v.

Definition crits (c : criteria) : list crit :=
  opt_list (option_map (fun a => ("author", "=", capitalize a)%string) (c_author c)) ++
  opt_list (option_map (fun a => ("target", "=", upper a)%string) (c_target c)) ++
  opt_list (option_map
    (fun a => if cmem "*"%char a
              then ("reaction", "LIKE", (upper (replace_char "*"%char ["%"%char] a)))%string
              else ("reaction", "=", (upper a))%string) (c_reaction c)) ++
  opt_list (option_map (fun a => ("projectile", "=", (upper a))%string) (c_projectile c)) ++
  opt_list (option_map
    (fun a => if str_eqb a (lit "CS") then ("quantity", "=", (lit "SIG"))%string
              else ("quantity", "=", (upper a))%string) (c_quantity c)) ++
  opt_list (option_map (fun a => ("subent", "=", a)%string) (c_SUBENT c)) ++
  opt_list (option_map (fun a => ("entry", "=", a)%string) (c_ENTRY c)).

Lemma crits_text : forall c, criteria_list c = map crit_text (crits c).
Proof.
  intros [a r t p q pr mf mt cc s i su en]. unfold criteria_list, crits. cbn [c_author c_reaction c_target
    c_projectile c_quantity c_SUBENT c_ENTRY]. rewrite !map_app.
  repeat (f_equal; [match goal with |- context [option_map _ ?x] => destruct x end; try reflexivity;
    cbn [option_map opt_list map]; try (destruct (cmem _ _)); try (destruct (str_eqb _ _)); reflexivity|]).
  destruct en; reflexivity.
Qed.

Definition crit_cmp (x : crit) : option cmp :=
  let '(col, op, v) := x in sql_cmp (TId (lit col)) (op_tok op) (TStr v).

Fixpoint crit_toks (l : list crit) : list sqltok :=
  match l with
  | [] => []
  | x :: l' => let '(col, op, v) := x in
      TId (lit col) :: op_tok op :: TStr v ::
      match l' with [] => [] | _ => TId (lit "and") :: crit_toks l' end
  end.

Lemma lex_crits : forall l, Forall crit_ok l ->
  sql_lex LStart (join (lit " and ") (map crit_text l)) = LexOk (crit_toks l).
Proof.
  induction l as [|x l IH]; intro H; [reflexivity|]. inversion H; subst. destruct x as [[col op] v].
  destruct H2 as (H4 & H5 & H6). specialize (IH H3). destruct l as [|y l].
  - cbn [map join crit_text]. rewrite <- (app_nil_r (criterion col op v)). rewrite lex_criterion by auto.
    reflexivity.
  - set (j := join (lit " and ") (map crit_text (y :: l))) in *.
    change (join (lit " and ") (map crit_text ((col, op, v) :: y :: l))) with
      (criterion col op v ++ sp :: lit "and" ++ sp :: j).
    rewrite lex_criterion by auto.
    rewrite lex_start. change (sql_space sp) with true. cbv iota.
    rewrite lex_known_name by (cbn; auto 12).
    rewrite IH. reflexivity.
Qed.

Lemma parse_crits : forall l cs, l <> [] -> map crit_cmp l = map Some cs ->
  sql_parse (crit_toks l) = Some [cs].
Proof.
  induction l as [|x l IH]; intros cs N H; [contradiction|]. destruct x as [[col op] v].
  destruct cs as [|c cs]; [discriminate|]. cbn [map] in H. injection H as H1 H2.
  destruct l as [|y l].
  - destruct cs; [|discriminate]. cbn [crit_toks sql_parse].
    unfold crit_cmp in H1. rewrite H1. reflexivity.
  - specialize (IH cs ltac:(discriminate) H2). unfold crit_cmp in H1.
    change (crit_toks ((col, op, v) :: y :: l)) with
      (TId (lit col) :: op_tok op :: TStr v :: TId (lit "and") :: crit_toks (y :: l)).
    cbn [sql_parse]. rewrite H1. rewrite IH. reflexivity.
Qed.

(** The column function a criterion compares. *)
Definition col_of (col : string) : row -> option str :=
  match sql_column (lit col) with Some g => g | None => fun _ => None end.

Definition cols : list string :=
  ["author"; "target"; "reaction"; "projectile"; "quantity"; "subent"; "entry"]%string.

Definition crit_to_cmp (x : crit) : cmp :=
  let '(col, op, v) := x in
  if str_eqb (lit op) (lit "=") then CEq (ACol (col_of col)) (ALit v)
  else CLike (ACol (col_of col)) (ALit v).

Lemma crit_cmp_some : forall col op v, In col cols -> op = "="%string \/ op = "LIKE"%string ->
  crit_cmp (col, op, v) = Some (crit_to_cmp (col, op, v)).
Proof.
  intros col op v H Ho. unfold cols in H. cbn [In] in H.
  destruct Ho as [->| ->];
  repeat (destruct H as [<-|H]; [reflexivity|]); contradiction.
Qed.

Lemma select_crits : forall table l, l <> [] ->
  Forall (fun x => let '(col, op, v) := x in
     In col cols /\ (op = "="%string \/ op = "LIKE"%string) /\ ~ In sql_quote v /\ ~ In (ch 0) v) l ->
  sql_select table (join (lit " and ") (map crit_text l)) =
  Ok (map r_subent (filter (fun r => forallb (cmp_true r) (map crit_to_cmp l)) table)).
Proof.
  intros table l N H. unfold sql_select.
  assert (Forall crit_ok l) as Hok.
  { eapply Forall_impl; [|exact H]. intros [[col op] v] (H1 & H2 & H3 & H4). repeat split; auto.
    unfold cols in H1. unfold sql_names. cbn in H1. cbn. intuition. }
  assert (cmem (ch 0) (join (lit " and ") (map crit_text l)) = false) as HZ.
  { destruct (cmem (ch 0) (join (lit " and ") (map crit_text l))) eqn:E; auto. exfalso.
    apply cmem_In in E. clear N Hok.
    induction l as [|x l IH]; [contradiction|]. inversion H; subst. destruct x as [[col op] v].
    assert (~ In (ch 0) (crit_text (col, op, v))) as NZ.
    { destruct H2 as (H4 & H5 & H6 & H7). unfold crit_text, criterion.
      rewrite !in_app_iff. intros [K|[K|[K|[K|[K|K]]]]].
      - unfold cols in H4. cbn [In] in H4.
        repeat (destruct H4 as [<-|H4]; [apply cmem_In in K; discriminate|]); contradiction.
      - destruct K as [K|[]]; discriminate.
      - destruct H5 as [->| ->]; apply cmem_In in K; discriminate.
      - apply cmem_In in K. discriminate.
      - contradiction.
      - apply cmem_In in K. discriminate. }
    destruct l as [|y l]; cbn [map join] in E; [contradiction|].
    rewrite !in_app_iff in E. destruct E as [E|[E|E]]; [contradiction| |auto].
    apply cmem_In in E. discriminate. }
  rewrite HZ, lex_crits by auto.
  rewrite (parse_crits l (map crit_to_cmp l)); auto.
  - do 2 f_equal. apply filter_ext. intro r. unfold dnf_true. cbn. now rewrite orb_false_r.
  - rewrite map_map. apply map_ext_in. intros [[col op] v] Hx. rewrite Forall_forall in H.
    destruct (H _ Hx) as (H1 & H2 & _). now apply crit_cmp_some.
Qed.

(** ** LIKE and stars *)

Lemma same_letter_iff : forall a b, Ascii.eqb (ascii_lower a) (ascii_lower b) = true <-> same_letter a b.
Proof.
  assert (forall a b, Bool.eqb (Ascii.eqb (ascii_lower a) (ascii_lower b))
     (Ascii.eqb a b || ((97 <=? code b)%N && (code b <=? 122)%N && (code b =? code a + 32)%N) ||
      ((97 <=? code a)%N && (code a <=? 122)%N && (code a =? code b + 32)%N)) = true) as K.
  { intros a b.
    pose proof (forall_ascii (fun a => forallb (fun b => Bool.eqb (Ascii.eqb (ascii_lower a) (ascii_lower b))
     (Ascii.eqb a b || ((97 <=? code b)%N && (code b <=? 122)%N && (code b =? code a + 32)%N) ||
      ((97 <=? code a)%N && (code a <=? 122)%N && (code a =? code b + 32)%N))) all_ascii)
      ltac:(vm_compute; reflexivity) a) as K. cbn beta in K.
    rewrite forallb_forall in K. apply K. apply all_ascii_In. }
  intros a b. specialize (K a b). apply eqb_prop in K. rewrite K.
  rewrite !orb_true_iff, !andb_true_iff, Ascii.eqb_eq, !N.leb_le, !N.eqb_eq.
  unfold same_letter, code. tauto.
Qed.

Definition unstar (p : str) : str := replace_char "*"%char ["%"%char] p.

Lemma like_any : forall p s, (fix any (s : str) : bool :=
          sql_like p s || match s with [] => false | _ :: s' => any s' end) s = true <->
  exists x y, s = x ++ y /\ sql_like p y = true.
Proof.
  intros p s. induction s as [|c s IH].
  - rewrite orb_false_r. split.
    + intro H. exists [], []. auto.
    + intros (x & y & E & H). symmetry in E. apply app_eq_nil in E. destruct E as [-> ->]. auto.
  - rewrite orb_true_iff, IH. split.
    + intros [H|(x & y & -> & H)]; [exists [], (c :: s); auto|exists (c :: x), y; auto].
    + intros ([|d x] & y & E & H); cbn in E.
      * left. now subst.
      * right. injection E as -> ->. eauto.
Qed.

Lemma like_glob : forall p s, ~ In "%"%char p -> ~ In "_"%char p ->
  (sql_like (unstar p) s = true <-> glob p s).
Proof.
  induction p as [|c p IH]; intros s N1 N2.
  - cbn. destruct s; split; intro H; try discriminate; try constructor. inversion H.
  - assert (~ In "%"%char p) as M1 by (intro; apply N1; now right).
    assert (~ In "_"%char p) as M2 by (intro; apply N2; now right).
    unfold unstar, replace_char. cbn [flat_map]. fold (replace_char "*"%char ["%"%char] p). fold (unstar p).
    destruct (Ascii.eqb_spec c "*"%char) as [->|Nc].
    + cbn [app sql_like]. change (Ascii.eqb "%"%char "%"%char) with true. cbv iota.
      rewrite like_any. split.
      * intros (x & y & -> & H). constructor. now apply IH.
      * intro H. inversion H; subst; [contradiction|]. exists x, s0. split; auto. now apply IH.
    + cbn [app sql_like]. destruct (Ascii.eqb_spec c "%"%char) as [->|]; [exfalso; apply N1; now left|].
      destruct (Ascii.eqb_spec c "_"%char) as [->|]; [exfalso; apply N2; now left|]. cbn [orb].
      destruct s as [|d s].
      * split; intro H; [discriminate|inversion H]. subst. contradiction.
      * rewrite andb_true_iff, same_letter_iff, IH by auto. split.
        -- intros [H1 H2]. constructor; auto.
        -- intro H. inversion H; subst; auto. contradiction.
Qed.

Lemma upper_c_cases : forall x c, In x (lit "%_*'")%string \/ x = ch 0 -> (upper_c c = x <-> c = x).
Proof.
  intros x c Hx.
  assert (forall c, forallb (fun x => Bool.eqb (Ascii.eqb (upper_c c) x) (Ascii.eqb c x)) (ch 0 :: lit "%_*'") = true) as K.
  { apply (forall_ascii (fun c => forallb (fun x => Bool.eqb (Ascii.eqb (upper_c c) x) (Ascii.eqb c x)) (ch 0 :: lit "%_*'"))).
    vm_compute. reflexivity. }
  specialize (K c). rewrite forallb_forall in K. specialize (K x ltac:(destruct Hx as [Hx| ->]; [right; exact Hx|now left])).
  apply eqb_prop in K. rewrite <- !Ascii.eqb_eq, K. reflexivity.
Qed.

Lemma in_upper : forall x s, In x (lit "%_*'")%string \/ x = ch 0 -> (In x (upper s) <-> In x s).
Proof.
  intros x s Hx. unfold upper. rewrite in_map_iff. split.
  - intros (c & E & H). apply (upper_c_cases x c Hx) in E. now rewrite <- E.
  - intro H. exists x. split; auto. now apply upper_c_cases.
Qed.

Lemma lower_c_cases : forall x c, In x (lit "%_*'")%string \/ x = ch 0 -> (lower_c c = x <-> c = x).
Proof.
  intros x c Hx.
  assert (forall c, forallb (fun x => Bool.eqb (Ascii.eqb (lower_c c) x) (Ascii.eqb c x)) (ch 0 :: lit "%_*'") = true) as K.
  { apply (forall_ascii (fun c => forallb (fun x => Bool.eqb (Ascii.eqb (lower_c c) x) (Ascii.eqb c x)) (ch 0 :: lit "%_*'"))).
    vm_compute. reflexivity. }
  specialize (K c). rewrite forallb_forall in K. specialize (K x ltac:(destruct Hx as [Hx| ->]; [right; exact Hx|now left])).
  apply eqb_prop in K. rewrite <- !Ascii.eqb_eq, K. reflexivity.
Qed.

Lemma in_capitalize : forall x s, In x (lit "%_*'")%string \/ x = ch 0 -> (In x (capitalize s) <-> In x s).
Proof.
  intros x [|c s] Hx; cbn; [reflexivity|].
  rewrite upper_c_cases by auto. unfold lower. rewrite in_map_iff. split.
  - intros [H|(d & E & H)]; auto. apply (lower_c_cases x d Hx) in E. right. now rewrite <- E.
  - intros [H|H]; auto. right. exists x. split; auto. now apply lower_c_cases.
Qed.

Lemma upper_unstar : forall s, upper (unstar s) = unstar (upper s).
Proof.
  unfold unstar, replace_char, upper.
  induction s as [|c s IH]; [reflexivity|]. cbn [flat_map map]. rewrite map_app, IH. f_equal.
  destruct (Ascii.eqb_spec c "*"%char) as [->|N]; [reflexivity|].
  destruct (Ascii.eqb_spec (upper_c c) "*"%char) as [E|]; [|reflexivity].
  exfalso. apply N. apply (upper_c_cases "*"%char c); auto. left. cbn. auto.
Qed.

Lemma in_unstar : forall x s, x <> "%"%char -> In x (unstar s) -> In x s.
Proof.
  intros x s N H. unfold unstar, replace_char in H. apply in_flat_map in H.
  destruct H as (c & H1 & H2). destruct (Ascii.eqb_spec c "*"%char).
  - destruct H2 as [<-|[]]. contradiction.
  - destruct H2 as [<-|[]]. auto.
Qed.

(** ** the meaning of a query *)

Lemma cmp_eq_iff : forall col v r,
  cmp_true r (crit_to_cmp (col, "="%string, v)) = true <-> col_of col r = Some v.
Proof.
  intros. cbn. destruct (col_of col r) as [x|].
  - rewrite str_eqb_eq. split; congruence.
  - split; discriminate.
Qed.

Lemma cmp_like_iff : forall col v r,
  cmp_true r (crit_to_cmp (col, "LIKE"%string, v)) = true <-> exists t, col_of col r = Some t /\ sql_like v t = true.
Proof.
  intros. cbn. destruct (col_of col r) as [x|].
  - split; [eauto|]. intros (t & E & H). now injection E as ->.
  - split; [discriminate|]. intros (t & E & _). discriminate.
Qed.

Lemma used_plain : forall c v, clean_criteria c -> In v (used_values c) ->
  ~ In sql_quote v /\ ~ In (ch 0) v.
Proof.
  intros c v [H _] Hv. rewrite Forall_forall in H. exact (H v Hv).
Qed.

Lemma forall_some_iff : forall (A : Type) (o : option A) (P : A -> Prop) (f : A -> bool),
  (forall v, o = Some v -> (f v = true <-> P v)) ->
  (forallb f (opt_list o) = true <-> (forall v, o = Some v -> P v)).
Proof.
  intros A [a|] P f H; cbn.
  - rewrite andb_true_r, (H a eq_refl). split; [intros K v E; injection E as <-; auto|auto].
  - split; auto. discriminate.
Qed.

Lemma forallb_opt_map : forall (A B : Type) (f : B -> bool) (g : A -> B) o,
  forallb f (opt_list (option_map g o)) = forallb (fun a => f (g a)) (opt_list o).
Proof. intros A B f g [a|]; reflexivity. Qed.

Lemma forallb_map' : forall (A B : Type) (f : B -> bool) (g : A -> B) l,
  forallb f (map g l) = forallb (fun a => f (g a)) l.
Proof. intros. induction l; cbn; congruence. Qed.

Lemma crits_match : forall c r, clean_criteria c ->
  (forallb (cmp_true r) (map crit_to_cmp (crits c)) = true <-> row_matches c r).
Proof.
  intros c r Hc. rewrite forallb_map'. unfold crits, row_matches. rewrite !forallb_app, !andb_true_iff, !forallb_opt_map.
  rewrite !(forall_some_iff _ (c_author c) (fun v => r_author r = Some (capitalize v)))
    by (intros v _; apply cmp_eq_iff).
  rewrite !(forall_some_iff _ (c_target c) (fun v => r_target r = Some (upper v)))
    by (intros v _; apply cmp_eq_iff).
  rewrite !(forall_some_iff _ (c_reaction c) (fun v =>
     (~ In "*"%char v -> r_reaction r = Some (upper v)) /\
     (In "*"%char v -> exists t, r_reaction r = Some t /\ glob (upper v) t))).
  2:{ intros v Ev. destruct (cmem "*"%char v) eqn:E.
      - apply cmem_In in E. rewrite cmp_like_iff.
        destruct Hc as [_ Hp]. destruct (Hp v Ev E) as [N1 N2].
        fold (unstar v). rewrite upper_unstar.
        assert (forall t, sql_like (unstar (upper v)) t = true <-> glob (upper v) t) as L.
        { intro t. apply like_glob; rewrite in_upper; auto; left; cbn; auto. }
        split.
        + intros (t & Ht & K). split; [contradiction|]. intros _. exists t. split; auto. now apply L.
        + intros [_ K]. destruct (K E) as (t & Ht & K2). exists t. split; auto. now apply L.
      - assert (~ In "*"%char v) as N by (intro K; apply cmem_In in K; congruence).
        rewrite cmp_eq_iff. split; [intro K; split; [auto|contradiction]|]. intros [K _]. now apply K. }
  rewrite !(forall_some_iff _ (c_projectile c) (fun v => r_projectile r = Some (upper v)))
    by (intros v _; apply cmp_eq_iff).
  rewrite !(forall_some_iff _ (c_quantity c) (fun v =>
     r_quantity r = Some (if str_eqb v (lit "CS") then lit "SIG" else upper v)))
    by (intros v _; destruct (str_eqb v (lit "CS")); apply cmp_eq_iff).
  rewrite !(forall_some_iff _ (c_SUBENT c) (fun v => r_subent r = v)).
  2:{ intros v _. rewrite cmp_eq_iff. change (col_of "subent" r) with (Some (r_subent r)). split; congruence. }
  rewrite !(forall_some_iff _ (c_ENTRY c) (fun v => r_entry r = Some v))
    by (intros v _; apply cmp_eq_iff).
  reflexivity.
Qed.

Lemma in_opt_map : forall (A B : Type) (g : A -> B) o x,
  In x (opt_list (option_map g o)) -> exists a, o = Some a /\ x = g a.
Proof. intros A B g [a|] x H; cbn in H; [|contradiction]. destruct H as [<-|[]]. eauto. Qed.

Lemma in_opt : forall (A : Type) (o : option A) a, o = Some a -> In a (opt_list o).
Proof. intros A o a ->. now left. Qed.

Lemma crits_ok : forall c, clean_criteria c ->
  Forall (fun x => let '(col, op, v) := x in
     In col cols /\ (op = "="%string \/ op = "LIKE"%string) /\ ~ In sql_quote v /\ ~ In (ch 0) v) (crits c).
Proof.
  intros c Hc. pose proof (used_plain c) as U.
  assert (forall v, In v (used_values c) -> (~ In sql_quote (upper v) /\ ~ In (ch 0) (upper v)) /\
     (~ In sql_quote (capitalize v) /\ ~ In (ch 0) (capitalize v)) /\
     (~ In sql_quote (upper (unstar v)) /\ ~ In (ch 0) (upper (unstar v)))) as P.
  { intros v Hv. destruct (U v Hc Hv) as [N1 N2].
    rewrite !in_upper, !in_capitalize by (try (now right); left; cbn; auto 10).
    repeat split; auto; intro K; apply in_unstar in K; auto; discriminate. }
  apply Forall_forall. intros x Hx. unfold crits in Hx. rewrite !in_app_iff in Hx.
  unfold used_values in *.
  destruct Hx as [H|[H|[H|[H|[H|[H|H]]]]]]; apply in_opt_map in H; destruct H as (a & E & ->);
    pose proof (in_opt _ _ _ E) as I;
    [ specialize (P a ltac:(rewrite !in_app_iff; tauto)); split; [cbn; auto 10|]; tauto
    | specialize (P a ltac:(rewrite !in_app_iff; tauto)); split; [cbn; auto 10|]; tauto
    | specialize (P a ltac:(rewrite !in_app_iff; tauto)); fold (unstar a);
      destruct (cmem "*"%char a); (split; [cbn; auto 10|]; tauto)
    | specialize (P a ltac:(rewrite !in_app_iff; tauto)); split; [cbn; auto 10|]; tauto
    | specialize (P a ltac:(rewrite !in_app_iff; tauto)); destruct (str_eqb a (lit "CS"));
      (split; [cbn; auto 10|]); [split; [now left|]; split; intro K; apply cmem_In in K; discriminate|tauto]
    | specialize (U a Hc ltac:(rewrite !in_app_iff; tauto)); split; [cbn; auto 10|]; tauto
    | specialize (U a Hc ltac:(rewrite !in_app_iff; tauto)); split; [cbn; auto 10|]; tauto ].
Qed.

Lemma opt_nil : forall (A : Type) (o : option A), opt_list o = [] -> o = None.
Proof. intros A [a|] H; [discriminate|reflexivity]. Qed.

Lemma crits_nil : forall c, used_values c = [] -> crits c = [].
Proof.
  intros c H. unfold used_values in H.
  apply app_eq_nil in H. destruct H as [H1 H]. apply app_eq_nil in H. destruct H as [H2 H].
  apply app_eq_nil in H. destruct H as [H3 H]. apply app_eq_nil in H. destruct H as [H4 H].
  apply app_eq_nil in H. destruct H as [H5 H]. apply app_eq_nil in H. destruct H as [H6 H7].
  apply opt_nil in H1, H2, H3, H4, H5, H6, H7. unfold crits.
  rewrite H1, H2, H3, H4, H5, H6, H7. reflexivity.
Qed.

Lemma crits_not_nil : forall c, used_values c <> [] -> crits c <> [].
Proof.
  intros c H K. apply H. unfold crits in K. unfold used_values.
  destruct (c_author c), (c_target c), (c_reaction c), (c_projectile c), (c_quantity c), (c_SUBENT c), (c_ENTRY c);
    cbn in K; try discriminate; reflexivity.
Qed.

Lemma cond_not_nil : forall l, l <> [] -> join (lit " and ") (map crit_text l) <> [].
Proof.
  intros [|[[col op] v] l] N; [contradiction|].
  assert (crit_text (col, op, v) <> []) as K.
  { unfold crit_text, criterion. intro E. apply app_eq_nil in E. destruct E as [_ E].
    apply app_eq_nil in E. destruct E as [E _]. discriminate. }
  destruct l as [|y l]; cbn [map join]; auto.
  intro E. apply app_eq_nil in E. destruct E as [E _]. contradiction.
Qed.

Lemma query_empty : forall table c, used_values c = [] -> query table c = Ok [].
Proof. intros table c H. unfold query. rewrite crits_text, crits_nil by auto. reflexivity. Qed.

Lemma query_select : forall table c, clean_criteria c -> used_values c <> [] ->
  query table c = Ok (fold_left result_step (ssort (unique str_eqb
     (map r_subent (filter (fun r => forallb (cmp_true r) (map crit_to_cmp (crits c))) table)))) []).
Proof.
  intros table c Hc Hu. unfold query. rewrite crits_text.
  rewrite (proj2 (str_eqb_neq _ _) (cond_not_nil _ (crits_not_nil c Hu))).
  rewrite select_crits; [reflexivity|now apply crits_not_nil|now apply crits_ok].
Qed.

Lemma grouping_ext : forall P Q m, (forall s, P s <-> Q s) -> grouping P m -> grouping Q m.
Proof.
  intros P Q m H (G1 & G2 & G3). split; [auto|split].
  - intro e. rewrite G2. split; intros (s & K & E); exists s; split; auto; now apply H.
  - intros e l K. destruct (G3 e l K) as (rest & -> & S & R). exists rest. split; auto. split; auto.
    intro s. rewrite R, H. reflexivity.
Qed.

Lemma query_spec : forall table c, clean_criteria c -> used_values c <> [] ->
  exists m, query table c = Ok m /\
  grouping (fun s => exists r, In r table /\ row_matches c r /\ r_subent r = s) m.
Proof.
  intros table c Hc Hu. eexists. split; [now apply query_select|].
  eapply grouping_ext; [|apply grouping_of].
  intro s. cbn beta. rewrite in_map_iff. split.
  - intros (r & E & H). apply filter_In in H. destruct H as [H1 H2].
    exists r. split; auto. split; auto. now apply crits_match.
  - intros (r & H1 & H2 & E). exists r. split; auto. apply filter_In. split; auto. now apply crits_match.
Qed.

(** A grouping is determined by the set it groups. *)
Lemma sorted_lt_unique : forall l1 l2, StronglySorted str_lt l1 -> StronglySorted str_lt l2 ->
  (forall s, In s l1 <-> In s l2) -> l1 = l2.
Proof.
  assert (forall a b, str_lt a b -> ~ str_lt b a) as AS.
  { intros a b H1 H2. apply str_lt_iff in H1, H2. destruct H1, H2. apply H0. now apply str_leb_antisym. }
  assert (forall a, ~ str_lt a a) as IR.
  { intros a H. apply str_lt_iff in H. now destruct H. }
  induction l1 as [|x l1 IH]; intros l2 S1 S2 H.
  - destruct l2 as [|y l2]; auto. exfalso. apply (H y). now left.
  - destruct l2 as [|y l2]; [exfalso; apply (H x); now left|].
    inversion S1; inversion S2; subst. rewrite Forall_forall in H3, H7.
    assert (x = y) as ->.
    { destruct (proj1 (H x) ltac:(now left)) as [E|E]; auto.
      destruct (proj2 (H y) ltac:(now left)) as [E'|E']; auto.
      exfalso. eapply AS; eauto. }
    f_equal. apply IH; auto. intro s. specialize (H s). cbn in H. split; intro K.
    + destruct (proj1 H (or_intror K)) as [E|E]; auto. subst. exfalso. eapply IR; eauto.
    + destruct (proj2 H (or_intror K)) as [E|E]; auto. subst. exfalso. eapply IR; eauto.
Qed.

Lemma sorted_lt_NoDup : forall l, StronglySorted str_lt l -> NoDup l.
Proof.
  intros l H. induction H; constructor; auto. intro K. rewrite Forall_forall in H0.
  apply H0 in K. apply str_lt_iff in K. now destruct K.
Qed.

Lemma grouping_unique : forall P m1 m2, grouping P m1 -> grouping P m2 -> m1 = m2.
Proof.
  intros P m1 m2 (A1 & A2 & A3) (B1 & B2 & B3).
  assert (map fst m1 = map fst m2) as E.
  { apply sorted_lt_unique; auto. intro s. rewrite A2, B2. reflexivity. }
  assert (forall e l1 l2, In (e, l1) m1 -> In (e, l2) m2 -> l1 = l2) as V.
  { intros e l1 l2 H1 H2. destruct (A3 _ _ H1) as (r1 & -> & S1 & R1).
    destruct (B3 _ _ H2) as (r2 & -> & S2 & R2). f_equal. apply sorted_lt_unique; auto.
    intro s. rewrite R1, R2. reflexivity. }
  clear - E V. revert m2 E V. induction m1 as [|[e l] m1 IH]; intros [|[e' l'] m2] E V; try discriminate; auto.
  cbn in E. injection E as -> E. f_equal.
  - f_equal. apply (V e'); now left.
  - apply IH; auto. intros. eapply V; right; eauto.
Qed.

(** ** adding criteria *)

Lemma extends_matches : forall c c' r, extends c c' -> row_matches c' r -> row_matches c r.
Proof.
  intros c c' r (E1 & E2 & E3 & E4 & E5 & E6 & E7) (M1 & M2 & M3 & M4 & M5 & M6 & M7).
  repeat split; intros; auto.
  - apply (M3 v); auto.
  - apply (M3 v); auto.
Qed.

Lemma query_monotone : forall table c c' m m',
  clean_criteria c -> clean_criteria c' -> used_values c <> [] -> extends c c' ->
  query table c = Ok m -> query table c' = Ok m' ->
  incl (map fst m') (map fst m) /\ forall s, listed m' s -> listed m s.
Proof.
  intros table c c' m m' Hc Hc' Hu He Q Q'.
  destruct (query_spec table c Hc Hu) as (m0 & Q0 & G). rewrite Q in Q0. injection Q0 as <-.
  assert (used_values c' <> []) as Hu'.
  { intro K. apply Hu. unfold used_values in *. destruct He as (E1 & E2 & E3 & E4 & E5 & E6 & E7).
    destruct (c_author c) as [v|]; [rewrite (E1 _ eq_refl) in K; discriminate|].
    destruct (c_target c) as [v|]; [rewrite (E2 _ eq_refl) in K; destruct (c_author c'); discriminate|].
    destruct (c_reaction c) as [v|];
      [rewrite (E3 _ eq_refl) in K; destruct (c_author c'), (c_target c'); discriminate|].
    destruct (c_projectile c) as [v|];
      [rewrite (E4 _ eq_refl) in K; destruct (c_author c'), (c_target c'), (c_reaction c'); discriminate|].
    destruct (c_quantity c) as [v|];
      [rewrite (E5 _ eq_refl) in K; destruct (c_author c'), (c_target c'), (c_reaction c'), (c_projectile c'); discriminate|].
    destruct (c_SUBENT c) as [v|];
      [rewrite (E6 _ eq_refl) in K;
       destruct (c_author c'), (c_target c'), (c_reaction c'), (c_projectile c'), (c_quantity c'); discriminate|].
    destruct (c_ENTRY c) as [v|]; auto.
    rewrite (E7 _ eq_refl) in K;
       destruct (c_author c'), (c_target c'), (c_reaction c'), (c_projectile c'), (c_quantity c'), (c_SUBENT c'); discriminate. }
  destruct (query_spec table c' Hc' Hu') as (m0 & Q0 & G'). rewrite Q' in Q0. injection Q0 as <-.
  destruct G as (A1 & A2 & A3), G' as (B1 & B2 & B3).
  assert (forall s, (exists r, In r table /\ row_matches c' r /\ r_subent r = s) ->
                    (exists r, In r table /\ row_matches c r /\ r_subent r = s)) as M.
  { intros s (r & H1 & H2 & H3). exists r. split; auto. split; auto. eapply extends_matches; eauto. }
  assert (incl (map fst m') (map fst m)) as I.
  { intros e H. apply B2 in H. destruct H as (s & H & E). apply A2. exists s. split; auto. }
  split; auto. intros s (e & l & H1 & H2).
  assert (In e (map fst m)) as Hk by (apply I; apply in_map_iff; exists (e, l); auto).
  apply in_map_iff in Hk. destruct Hk as ([e' l'] & E & Hk). cbn in E. subst e'.
  exists e, l'. split; auto.
  destruct (A3 _ _ Hk) as (rest & -> & S & R). destruct (B3 _ _ H1) as (rest' & -> & S' & R').
  destruct H2 as [<-|H2]; [now left|]. right. apply R. apply R' in H2. destruct H2 as (H3 & H4 & H5). auto.
Qed.

Lemma query_ignores : forall table c c',
  c_author c = c_author c' -> c_target c = c_target c' -> c_reaction c = c_reaction c' ->
  c_projectile c = c_projectile c' -> c_quantity c = c_quantity c' ->
  c_SUBENT c = c_SUBENT c' -> c_ENTRY c = c_ENTRY c' ->
  query table c = query table c'.
Proof.
  intros table c c' H1 H2 H3 H4 H5 H6 H7. unfold query, criteria_list.
  now rewrite H1, H2, H3, H4, H5, H6, H7.
Qed.

(** ** keys *)

Lemma fixkey_spec : forall i,
  let s := match i with KStr s => s | KInt z => z_to_str z end in
  ((length s = 5 \/ length s = 8) /\ fixkey i = Ok s) \/
  (length s <> 5 /\ length s <> 8 /\ fixkey i = Raise KeyError).
Proof.
  intros i s. unfold fixkey. fold s.
  destruct (Nat.eqb_spec (length s) 5); [left; auto|].
  destruct (Nat.eqb_spec (length s) 8); [left; auto|right; auto].
Qed.

Lemma by_entry_clean : forall s, plain_text s -> clean_criteria (by_entry s).
Proof.
  intros s H. split; [|discriminate]. unfold used_values, by_entry. cbn. constructor; auto.
Qed.
Lemma by_subent_clean : forall s, plain_text s -> clean_criteria (by_subent s).
Proof.
  intros s H. split; [|discriminate]. unfold used_values, by_subent. cbn. constructor; auto.
Qed.

Lemma by_entry_matches : forall s r, row_matches (by_entry s) r <-> r_entry r = Some s.
Proof.
  intros s r. unfold row_matches, by_entry. cbn. split.
  - intros (_ & _ & _ & _ & _ & _ & H). now apply H.
  - intro H. repeat split; try discriminate; intros v E; injection E as <-; auto.
Qed.
Lemma by_subent_matches : forall s r, row_matches (by_subent s) r <-> r_subent r = s.
Proof.
  intros s r. unfold row_matches, by_subent. cbn. split.
  - intros (_ & _ & _ & _ & _ & H & _). now apply H.
  - intro H. repeat split; try discriminate; intros v E; injection E as <-; auto.
Qed.

Lemma contains_entry : forall table s, length s = 5 -> plain_text s ->
  exists b, db_contains table (KStr s) = Ok b /\
  (b = true <-> exists r, In r table /\ r_entry r = Some s).
Proof.
  intros table s L P. unfold db_contains, fixkey. rewrite L. cbn [Nat.eqb orb bind].
  rewrite L. cbn [Nat.eqb].
  destruct (query_spec table (by_entry s) (by_entry_clean s P) ltac:(discriminate)) as (m & -> & G1 & G2 & G3).
  cbn [bind]. eexists. split; [reflexivity|]. rewrite Nat.ltb_lt. split.
  - intro H. destruct m as [|[e l] m]; [cbn in H; lia|].
    destruct (proj1 (G2 e) ltac:(now left)) as (s' & (r & H1 & H2 & H3) & E).
    exists r. split; auto. now apply by_entry_matches.
  - intros (r & H1 & H2). destruct m as [|x m]; [|cbn; lia]. exfalso.
    apply (proj2 (G2 (firstn 5 (r_subent r)))). exists (r_subent r). split; auto.
    exists r. split; auto. split; auto. now apply by_entry_matches.
Qed.

Lemma contains_subent : forall table s, length s = 8 -> plain_text s ->
  db_contains table (KStr s) = Raise TypeError.
Proof.
  intros table s L P. unfold db_contains, fixkey. rewrite L. cbn [Nat.eqb orb bind].
  rewrite L. cbn [Nat.eqb].
  destruct (query_spec table (by_subent s) (by_subent_clean s P) ltac:(discriminate)) as (m & -> & _).
  reflexivity.
Qed.

Lemma query_no_match : forall table c, clean_criteria c -> used_values c <> [] ->
  (forall r, In r table -> ~ row_matches c r) -> query table c = Ok [].
Proof.
  intros table c Hc Hu H. destruct (query_spec table c Hc Hu) as (m & -> & G1 & G2 & G3).
  destruct m as [|[e l] m]; auto. exfalso.
  destruct (proj1 (G2 e) ltac:(now left)) as (s & (r & H1 & H2 & H3) & E). eapply H; eauto.
Qed.

Lemma getitem_absent : forall (E : Type) (mk : list str -> res E) table fs s,
  (length s = 5 \/ length s = 8) -> plain_text s ->
  (length s = 5 -> forall r, In r table -> r_entry r <> Some s) ->
  (length s = 8 -> forall r, In r table -> r_subent r <> s) ->
  db_getitem mk table fs (KStr s) = Ok [].
Proof.
  intros E mk table fs s L P H5 H8. unfold db_getitem, fixkey.
  destruct L as [L|L]; rewrite L; cbn [Nat.eqb orb bind]; rewrite L; cbn [Nat.eqb]; unfold retrieve.
  - rewrite query_no_match; auto; [apply by_entry_clean; auto|discriminate|].
    intros r Hr K. apply by_entry_matches in K. eapply H5; eauto.
  - rewrite query_no_match; auto; [apply by_subent_clean; auto|discriminate|].
    intros r Hr K. apply by_subent_matches in K. eapply H8; eauto.
Qed.

Lemma bad_keys : forall (E : Type) (mk : list str -> res E) table fs i,
  let s := match i with KStr s => s | KInt z => z_to_str z end in
  length s <> 5 -> length s <> 8 ->
  db_getitem mk table fs i = Raise KeyError /\ db_contains table i = Raise KeyError /\
  db_setitem table i = Raise KeyError.
Proof.
  intros E mk table fs i s H5 H8.
  assert (fixkey i = Raise KeyError) as K.
  { destruct (fixkey_spec i) as [[[?|?] _]|(_ & _ & ?)]; auto; contradiction. }
  unfold db_getitem, db_contains, db_setitem. rewrite K. auto.
Qed.

Lemma getitem_dispatch : forall (E : Type) (mk : list str -> res E) table fs i,
  let s := match i with KStr s => s | KInt z => z_to_str z end in
  (length s = 5 -> db_getitem mk table fs i = retrieve mk table fs (by_entry s)) /\
  (length s = 8 -> db_getitem mk table fs i = retrieve mk table fs (by_subent s)).
Proof.
  intros E mk table fs i s. split; intro H; unfold db_getitem, fixkey; fold s; rewrite H; cbn [Nat.eqb orb bind];
    rewrite H; reflexivity.
Qed.

Lemma setitem_fails : forall table i, exists e, db_setitem table i = Raise e.
Proof. intros. unfold db_setitem. destruct (fixkey i); cbn; eauto. Qed.

Lemma sql_select_incl : forall table cond l, sql_select table cond = Ok l -> incl l (map r_subent table).
Proof.
  intros table cond l H. unfold sql_select in H. destruct (cmem _ _); [discriminate|].
  destruct (sql_lex LStart cond); try discriminate. destruct (sql_parse l0); [|discriminate].
  injection H as <-. intros x K. apply in_map_iff in K. destruct K as (r & <- & K).
  apply filter_In in K. apply in_map. tauto.
Qed.

Lemma query_any : forall table c m, query table c = Ok m ->
  exists P : str -> Prop, (forall s, P s -> exists r, In r table /\ r_subent r = s) /\ grouping P m.
Proof.
  intros table c m H. unfold query in H. destruct (str_eqb _ _).
  - injection H as <-. exists (fun _ => False). split; [contradiction|]. split; [constructor|].
    split; [|contradiction]. intro e. split; [contradiction|]. now intros (s & F & _).
  - destruct (sql_select _ _) as [l|] eqn:E; [|discriminate]. cbn in H. injection H as <-.
    apply sql_select_incl in E. exists (fun s => In s l). split; [|apply grouping_of].
    intros s K. apply E in K. apply in_map_iff in K. destruct K as (r & <- & K). eauto.
Qed.

Lemma query_perm : forall table table' c, clean_criteria c ->
  (forall r, In r table <-> In r table') -> query table c = query table' c.
Proof.
  intros table table' c Hc H. destruct (used_values c) eqn:U.
  - now rewrite !query_empty.
  - assert (used_values c <> []) as N by congruence.
    destruct (query_spec table c Hc N) as (m & -> & G). destruct (query_spec table' c Hc N) as (m' & -> & G').
    f_equal. eapply grouping_unique; [exact G|]. eapply grouping_ext; [|exact G'].
    intro s. split; intros (r & H1 & H2); exists r; split; auto; now apply H.
Qed.

Lemma grouping_listed : forall P m s, grouping P m -> P s ->
  exists l, In (firstn 5 s, l) m /\ In s l.
Proof.
  intros P m s (G1 & G2 & G3) H.
  assert (In (firstn 5 s) (map fst m)) as K by (apply G2; eauto).
  apply in_map_iff in K. destruct K as ([e l] & E & K). cbn in E. subst e. exists l. split; auto.
  destruct (G3 _ _ K) as (rest & -> & S & R).
  destruct (str_eqb s (firstn 5 s ++ lit "001")) eqn:E.
  - apply str_eqb_eq in E. left. auto.
  - apply str_eqb_neq in E. right. apply R. auto.
Qed.

Lemma author_data : forall table v r, plain_text v -> In r table ->
  (exists m, query table (mkCriteria (Some v) None None None None None None None None None None None None)
     = Ok m /\
   (r_author r = Some (capitalize v) -> exists l, In (firstn 5 (r_subent r), l) m /\ In (r_subent r) l) /\
   ((forall r', In r' table -> r_author r' <> Some (capitalize v)) -> m = [])).
Proof.
  intros table v r P Hr. set (c := mkCriteria _ _ _ _ _ _ _ _ _ _ _ _ _).
  assert (clean_criteria c) as Hc.
  { split; [|discriminate]. unfold used_values, c. cbn. constructor; auto. }
  assert (forall r, row_matches c r <-> r_author r = Some (capitalize v)) as M.
  { intro r'. unfold row_matches, c. cbn. split.
    - intros (H & _). now apply H.
    - intro H. repeat split; try discriminate; intros w E; injection E as <-; auto. }
  destruct (query_spec table c Hc ltac:(discriminate)) as (m & Q & G). exists m. split; auto. split.
  - intro H. eapply grouping_listed; [exact G|]. exists r. split; auto. split; auto. now apply M.
  - intro H. rewrite query_no_match in Q; auto; [congruence|discriminate|].
    intros r' Hr' K. apply M in K. eapply H; eauto.
Qed.

Lemma star_wildcard : forall table pat r m, plain_text pat -> In "*"%char pat ->
  ~ In "%"%char pat -> ~ In "_"%char pat -> In r table -> length (r_subent r) = 8 ->
  query table (mkCriteria None (Some pat) None None None None None None None None None None None) = Ok m ->
  ((exists t, r_reaction r = Some t /\ glob (upper pat) t) ->
     exists l, In (firstn 5 (r_subent r), l) m /\ In (r_subent r) l) /\
  ((forall r' t, In r' table -> r_subent r' = r_subent r -> r_reaction r' = Some t -> ~ glob (upper pat) t) ->
     r_subent r <> firstn 5 (r_subent r) ++ lit "001" ->
     forall e l, In (e, l) m -> ~ In (r_subent r) l).
Proof.
  intros table pat r m P Hs N1 N2 Hr L Q. set (c := mkCriteria _ _ _ _ _ _ _ _ _ _ _ _ _) in Q.
  assert (clean_criteria c) as Hc.
  { split; [unfold used_values, c; cbn; constructor; auto|]. intros v E. injection E as <-. intros _. auto. }
  assert (forall r, row_matches c r <-> exists t, r_reaction r = Some t /\ glob (upper pat) t) as M.
  { intro r'. unfold row_matches, c. cbn. split.
    - intros (_ & _ & H & _). destruct (H pat eq_refl) as [_ K]. auto.
    - intro H. repeat split; try discriminate.
      + injection H0 as <-. contradiction.
      + injection H0 as <-. auto. }
  destruct (query_spec table c Hc ltac:(discriminate)) as (m' & Q' & G).
  rewrite Q in Q'. injection Q' as <-. split.
  - intro H. eapply grouping_listed; [exact G|]. exists r. split; auto. split; auto. now apply M.
  - intros H N e l Hl K. destruct G as (_ & _ & G3). destruct (G3 _ _ Hl) as (rest & -> & S & R).
    destruct K as [K|K].
    + apply N. rewrite <- K. f_equal. rewrite <- K, app_length in L. change (length (lit "001")) with 3 in L.
      rewrite firstn_app. replace (5 - length e) with 0 by lia. rewrite firstn_O, app_nil_r.
      symmetry. apply firstn_all2. lia.
    + apply R in K. destruct K as ((r' & H1 & H2 & H3) & _). apply M in H2. destruct H2 as (t & H4 & H5).
      eapply H; eauto.
Qed.

Lemma injection :
  (exists table c v m, c_author c = Some v /\ query table c = Ok m /\
     (forall r, In r table -> ~ row_matches c r) /\ m <> []) /\
  (exists table c v r, c_author c = Some v /\ In r table /\ row_matches c r /\
     query table c = Raise SqlError).
Proof.
  set (rw := fun a => mkRow (Some (lit "10001")) (lit "10001002") None (Some (lit a)) None None None None).
  set (by_author := fun v => mkCriteria (Some v) None None None None None None None None None None None None).
  split.
  - exists [rw "Doe"%string], (by_author (lit "x' or '1'='1")), (lit "x' or '1'='1"),
      [(lit "10001", [lit "10001001"; lit "10001002"])].
    split; [reflexivity|]. split; [vm_compute; reflexivity|]. split; [|discriminate].
    intros r [<-|[]] (H & _). specialize (H _ eq_refl). vm_compute in H. discriminate.
  - exists [rw "O'neil"%string], (by_author (lit "O'Neil")), (lit "O'Neil"), (rw "O'neil"%string).
    split; [reflexivity|]. split; [now left|]. split; [|vm_compute; reflexivity].
    repeat split; try discriminate. intros v E. injection E as <-. vm_compute. reflexivity.
Qed.

Lemma glob_underscore : ~ glob (lit "N_*") (lit "NX").
Proof.
  intro H. change (lit "N_*") with ["N"; "_"; "*"]%char in H. change (lit "NX") with ["N"; "X"]%char in H.
  assert (forall c d p s, c <> "*"%char -> glob (c :: p) (d :: s) -> same_letter c d /\ glob p s) as I.
  { intros c d p s N G. inversion G; subst; auto. contradiction. }
  apply I in H; [|discriminate]. destruct H as [_ H]. apply I in H; [|discriminate].
  destruct H as [[E|[[E1 E2]|[E1 E2]]] _]; [discriminate|vm_compute in E2; discriminate..].
Qed.

Lemma star_refuted : exists table pat r t m,
  In "*"%char pat /\ table = [r] /\ r_reaction r = Some t /\ ~ glob (upper pat) t /\
  query table (mkCriteria None (Some pat) None None None None None None None None None None None) = Ok m /\
  m <> [].
Proof.
  set (r := mkRow (Some (lit "10001")) (lit "10001002") None None (Some (lit "NX")) None None None).
  exists [r], (lit "N_*"), r, (lit "NX"), [(lit "10001", [lit "10001001"; lit "10001002"])].
  split; [vm_compute; auto|]. split; [reflexivity|]. split; [reflexivity|].
  split; [exact glob_underscore|]. split; [vm_compute; reflexivity|discriminate].
Qed.

(** ** letters *)

Lemma letters_inverse : forall a b,
  In (a, b) EntryLetterConversion <-> In (b, a) revEntryLetterConversion.
Proof.
  assert (revEntryLetterConversion = map (fun p => (snd p, fst p)) EntryLetterConversion) as E by reflexivity.
  intros a b. rewrite E, in_map_iff. split.
  - intro H. exists (a, b). auto.
  - intros ([x y] & H & K). cbn in H. injection H as -> ->. auto.
Qed.

Lemma letters_functions :
  NoDup (map fst EntryLetterConversion) /\ NoDup (map snd EntryLetterConversion) /\
  forall a b, In (a, b) EntryLetterConversion ->
    dget str_eqb a EntryLetterConversion = Some b /\ dget str_eqb b revEntryLetterConversion = Some a.
Proof.
  split; [repeat constructor; vm_compute; intuition discriminate|].
  split; [repeat constructor; vm_compute; intuition discriminate|].
  intros a b H. assert (forallb (fun p =>
     match dget str_eqb (fst p) EntryLetterConversion, dget str_eqb (snd p) revEntryLetterConversion with
     | Some x, Some y => str_eqb x (snd p) && str_eqb y (fst p) | _, _ => false end) EntryLetterConversion = true) as F
    by (vm_compute; reflexivity).
  rewrite forallb_forall in F. specialize (F _ H). cbn [fst snd] in F.
  destruct (dget str_eqb a _), (dget str_eqb b _); try discriminate.
  apply andb_true_iff in F. destruct F as [F1 F2]. apply str_eqb_eq in F1, F2. now subst.
Qed.

Lemma letters_value : forall a b, In (a, b) EntryLetterConversion ->
  exists n, int_of_str a = Some (Z.of_N n) /\ (10 <= n <= 35)%N /\ b = [ascii_of_N (n + 55)].
Proof.
  intros a b H. assert (forallb (fun p =>
     match int_of_str (fst p) with
     | Some z => (10 <=? z)%Z && (z <=? 35)%Z && str_eqb (snd p) [ascii_of_N (Z.to_N z + 55)] | _ => false end)
     EntryLetterConversion = true) as F by (vm_compute; reflexivity).
  rewrite forallb_forall in F. specialize (F _ H). cbn [fst snd] in F.
  destruct (int_of_str a) as [z|]; [|discriminate]. exists (Z.to_N z).
  rewrite !andb_true_iff in F. destruct F as ((F1 & F2) & F3). apply Z.leb_le in F1, F2. apply str_eqb_eq in F3.
  rewrite Z2N.id by lia. split; [reflexivity|]. split; [lia|auto].
Qed.

Lemma query_rows : forall table c m s, clean_criteria c -> used_values c <> [] ->
  query table c = Ok m -> length s = 8 -> s <> firstn 5 s ++ lit "001" ->
  (listed m s <-> exists r, In r table /\ row_matches c r /\ r_subent r = s).
Proof.
  intros table c m s Hc Hu Q L N. destruct (query_spec table c Hc Hu) as (m' & Q' & G).
  rewrite Q in Q'. injection Q' as <-. split.
  - intros (e & l & H1 & H2). destruct G as (_ & _ & G3). destruct (G3 _ _ H1) as (rest & -> & _ & R).
    destruct H2 as [H2|H2]; [|now apply R]. exfalso. apply N. rewrite <- H2. f_equal.
    rewrite <- H2, app_length in L. change (length (lit "001")) with 3 in L.
    rewrite firstn_app. replace (5 - length e) with 0 by lia. rewrite firstn_O, app_nil_r.
    symmetry. apply firstn_all2. lia.
  - intro H. destruct (grouping_listed _ _ s G H) as (l & H1 & H2). exists (firstn 5 s), l. auto.
Qed.

(** ** Doubled quotes *)
Lemma lex_doubled : forall v acc rest,
  sql_lex (LStr acc) (doubled v ++ sql_quote :: rest) = sql_lex (LStrQ (rev v ++ acc)) rest.
Proof.
  induction v as [|c v IH]; intros acc rest.
  - cbn [doubled flat_map app sql_lex]. now rewrite Ascii.eqb_refl.
  - cbn [doubled flat_map rev]. fold (doubled v). destruct (Ascii.eqb_spec c (ascii_of_N 39)) as [->|N].
    + cbn [app]. change (ascii_of_N 39) with sql_quote.
      change (sql_lex (LStr acc) (sql_quote :: sql_quote :: doubled v ++ sql_quote :: rest))
        with (sql_lex (LStr (sql_quote :: acc)) (doubled v ++ sql_quote :: rest)).
      rewrite IH. now rewrite <- app_assoc.
    + cbn [app].
      assert (E : Ascii.eqb c sql_quote = false) by (apply Ascii.eqb_neq; exact N).
      cbn [sql_lex]. rewrite E. rewrite IH. now rewrite <- app_assoc.
Qed.
Lemma doubled_map : forall f v, (forall c, f c = ascii_of_N 39 <-> c = ascii_of_N 39) -> map f (doubled v) = doubled (map f v).
Proof.
  intros f v H. induction v as [|c v IH]; [reflexivity|]. cbn [doubled flat_map map]. fold (doubled v). fold (doubled (map f v)).
  rewrite map_app, IH. f_equal. destruct (Ascii.eqb_spec c (ascii_of_N 39)) as [->|N].
  - assert (E : f (ascii_of_N 39) = ascii_of_N 39) by now apply H. cbn [map]. rewrite E, Ascii.eqb_refl. reflexivity.
  - destruct (Ascii.eqb_spec (f c) (ascii_of_N 39)) as [E|E]; [exfalso; exact (N (proj1 (H c) E))|reflexivity].
Qed.
Lemma case_quote : forall c, (upper_c c = ascii_of_N 39 <-> c = ascii_of_N 39) /\ (lower_c c = ascii_of_N 39 <-> c = ascii_of_N 39).
Proof.
  intros c. pose proof (forall_ascii (fun c => Bool.eqb (Ascii.eqb (upper_c c) (ascii_of_N 39)) (Ascii.eqb c (ascii_of_N 39)) &&
     Bool.eqb (Ascii.eqb (lower_c c) (ascii_of_N 39)) (Ascii.eqb c (ascii_of_N 39))) ltac:(vm_compute; reflexivity) c) as K.
  cbn beta in K. apply andb_true_iff in K as [A B]. apply eqb_prop in A, B. rewrite <- !Ascii.eqb_eq, A, B. tauto.
Qed.
Lemma capitalize_doubled : forall v, capitalize (doubled v) = doubled (capitalize v).
Proof.
  intros [|c v]; [reflexivity|]. cbn [doubled flat_map capitalize]. fold (doubled v). fold (doubled (lower v)).
  assert (L : lower (doubled v) = doubled (lower v)) by (apply doubled_map; intro d; apply case_quote).
  destruct (Ascii.eqb_spec c (ascii_of_N 39)) as [->|N].
  - cbn [app capitalize]. assert (U : upper_c (ascii_of_N 39) = ascii_of_N 39) by reflexivity.
    assert (LL : lower (ascii_of_N 39 :: doubled v) = ascii_of_N 39 :: lower (doubled v)) by reflexivity.
    rewrite U, LL, L, Ascii.eqb_refl. reflexivity.
  - cbn [app capitalize]. rewrite L. destruct (Ascii.eqb_spec (upper_c c) (ascii_of_N 39)) as [E|E]; [exfalso; exact (N (proj1 (proj1 (case_quote c)) E))|reflexivity].
Qed.
Lemma doubled_In : forall c v, In c (doubled v) -> In c v.
Proof.
  intros c v H. unfold doubled in H. apply in_flat_map in H as (d & D & H). destruct (Ascii.eqb d _); cbn in H; intuition; subst; auto.
Qed.

Lemma query_doubled : forall table v, ~ In (ascii_of_N 0) (capitalize v) ->
  exists m, query table (mkCriteria (Some (doubled v)) None None None None None None None None None None None None) = Ok m /\
    grouping (fun s => exists r, In r table /\ r_author r = Some (capitalize v) /\ r_subent r = s) m.
Proof.
  intros table v Z. set (w := capitalize v) in *. unfold query. rewrite crits_text.
  change (crits _) with [("author", "=", capitalize (doubled v))%string].
  rewrite capitalize_doubled. fold w. cbn [map join crit_text].
  assert (NE : str_eqb (criterion "author" "=" (doubled w)) [] = false) by reflexivity. rewrite NE.
  assert (S : sql_select table (criterion "author" "=" (doubled w)) =
    Ok (map r_subent (filter (fun r => forallb (cmp_true r) [crit_to_cmp ("author", "=", w)%string]) table))).
  { unfold sql_select.
    assert (HZ : cmem (ch 0) (criterion "author" "=" (doubled w)) = false).
    { destruct (cmem _ _) eqn:E; [|reflexivity]. exfalso. apply cmem_In in E. unfold criterion in E. rewrite !in_app_iff in E.
      destruct E as [K|[K|[K|[K|[K|K]]]]]; try (apply cmem_In in K; discriminate). apply doubled_In in K. now apply Z. }
    rewrite HZ. rewrite <- (app_nil_r (criterion "author" "=" (doubled w))).
    assert (L : sql_lex LStart (criterion "author" "=" (doubled w) ++ []) = LexOk (crit_toks [("author", "=", w)%string])).
    { unfold criterion.
      replace ((lit "author" ++ [sp] ++ lit "=" ++ [sp; sql_quote] ++ doubled w ++ [sql_quote; sp]) ++ [])
        with (lit "author" ++ sp :: lit "=" ++ sp :: sql_quote :: doubled w ++ sql_quote :: sp :: [])
        by (rewrite <- !app_assoc; reflexivity).
      rewrite lex_known_name by (cbn; auto 12). rewrite lex_op by auto. rewrite lex_start.
      change (sql_space sql_quote) with false. change (sql_idstart sql_quote) with false. cbv iota. rewrite Ascii.eqb_refl.
      rewrite lex_doubled, lex_strq_sp. rewrite app_nil_r, rev_involutive. reflexivity. }
    rewrite L. rewrite (parse_crits _ [crit_to_cmp ("author", "=", w)%string]); [|discriminate|reflexivity].
    do 2 f_equal. apply filter_ext. intro r. unfold dnf_true. cbn. now rewrite orb_false_r. }
  rewrite S. cbn [bind]. eexists. split; [reflexivity|]. eapply grouping_ext; [|apply grouping_of].
  intro s. cbn beta. rewrite in_map_iff.
  assert (M : forall r, forallb (cmp_true r) [crit_to_cmp ("author", "=", w)%string] = true <-> r_author r = Some w).
  { intro r. cbn [forallb]. rewrite andb_true_r. unfold crit_to_cmp. cbn. unfold col_of. cbn.
    destruct (r_author r) as [a|]; [|split; discriminate]. rewrite str_eqb_eq. split; [intros ->|injection 1 as ->]; reflexivity. }
  split.
  - intros (r & E & H). apply filter_In in H as [H1 H2]. exists r. split; auto. split; auto. now apply M.
  - intros (r & H1 & H2 & E). exists r. split; auto. apply filter_In. split; auto. now apply M.
Qed.
