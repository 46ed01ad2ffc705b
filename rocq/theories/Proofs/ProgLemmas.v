(** Programs over the attributes of the parsers: running alone and interleaved. *)
From Coq Require Import String List Ascii NArith ZArith Bool Arith Lia.
From Verif.Model Require Import Py PyFloat Columns.
Import ListNotations.
Local Open Scope list_scope.
Local Open Scope nat_scope.

Definition known := nat -> nat -> Prop.
Definition none_known : known := fun _ _ => False.
Definition add_known (K : known) (id slot : nat) : known := fun i j => K i j \/ (i = id /\ j = slot).
Definition holds (f : store) (K : known) (s : store) : Prop := forall i j, K i j -> s i j = f i j.

(** Program [m] writes only what [f] says, reads only what it has written (or what is in [K]),
    and ends with [r]. *)
Inductive follows (f : store) {A} : known -> prog A -> res A -> known -> Prop :=
| follows_ret : forall K r, follows f K (Ret r) r K
| follows_put : forall (K : known) id slot v k r K', v = f id slot ->
    follows f (add_known K id slot) k r K' -> follows f K (Put id slot v k) r K'
| follows_get : forall (K : known) id slot k r K', K id slot ->
    follows f K (k (f id slot)) r K' -> follows f K (Get id slot k) r K'.

Lemma follows_grows : forall f A K (m : prog A) r K', follows f K m r K' -> forall i j, (K : known) i j -> (K' : known) i j.
Proof. induction 1; intros; auto. apply IHfollows. now left. Qed.

Lemma follows_more : forall f A K (m : prog A) r K', follows f K m r K' ->
  forall L : known, (forall i j, K i j -> L i j) -> exists L', follows f L m r L' /\ forall i j, K' i j -> L' i j.
Proof.
  induction 1; intros L HL.
  - exists L. split; [constructor|auto].
  - destruct (IHfollows (add_known L id slot)) as (L' & HL' & Hi).
    { intros i j [h|h]; [left; auto|now right]. }
    exists L'. split; [now constructor|auto].
  - destruct (IHfollows L HL) as (L' & HL' & Hi). exists L'. split; [constructor; auto|auto].
Qed.

Lemma follows_bind : forall f A B K (m : prog A) a K' (k : A -> prog B) r K'',
  follows f K m (Ok a) K' -> follows f K' (k a) r K'' -> follows f K (pbind m k) r K''.
Proof.
  intros f A B K m a K' k r K'' H. remember (Ok a) as ra eqn:E. revert E. induction H; intros E Hk; subst; cbn.
  - assumption.
  - now constructor; auto.
  - constructor; auto.
Qed.

Lemma follows_bind_raise : forall f A B K (m : prog A) e K' (k : A -> prog B),
  follows f K m (Raise e) K' -> follows f K (pbind m k) (Raise e) K'.
Proof.
  intros f A B K m e K' k H. remember (Raise e) as ra eqn:E. revert E. induction H; intros E; subst; cbn.
  - constructor.
  - constructor; auto.
  - constructor; auto.
Qed.

(** The result of a bind of known outcome, without naming the final knowledge. *)
Definition ends (f : store) {A} (K : known) (m : prog A) (r : res A) : Prop := exists K', follows f K m r K'.

Lemma ends_ret : forall f A K (r : res A), ends f K (Ret r) r.
Proof. intros. exists K. constructor. Qed.
Lemma ends_more : forall f A (K L : known) (m : prog A) r, (forall i j, K i j -> L i j) -> ends f K m r -> ends f L m r.
Proof. intros f A K L m r H (K' & F). destruct (follows_more _ _ _ _ _ _ F L H) as (L' & F' & _). now exists L'. Qed.
Lemma ends_bind : forall f A B K (m : prog A) ra (k : A -> prog B) r,
  ends f K m ra -> (forall a, ra = Ok a -> ends f K (k a) (match ra with Ok _ => r | Raise _ => r end)) ->
  (forall e, ra = Raise e -> r = Raise e) -> ends f K (pbind m k) r.
Proof.
  intros f A B K m [a|e] k r (K' & F) Hk He.
  - destruct (ends_more f B K K' (k a) r (follows_grows _ _ _ _ _ _ F) (Hk a eq_refl)) as (K'' & F'').
    exists K''. eapply follows_bind; eassumption.
  - rewrite (He e eq_refl). exists K'. now apply follows_bind_raise.
Qed.
(** The form used most: the result is the bind of results. *)
Lemma ends_seq : forall f A B K (m : prog A) ra (k : A -> prog B) (g : A -> res B),
  ends f K m ra -> (forall a, ra = Ok a -> ends f K (k a) (g a)) -> ends f K (pbind m k) (bind ra g).
Proof.
  intros f A B K m [a|e] k g (K' & F) Hk; cbn.
  - destruct (ends_more f B K K' (k a) (g a) (follows_grows _ _ _ _ _ _ F) (Hk a eq_refl)) as (K'' & F'').
    exists K''. eapply follows_bind; eassumption.
  - exists K'. now apply follows_bind_raise.
Qed.

Lemma ends_pmap : forall f A B K (g : A -> prog B) (h : A -> res B) l,
  (forall x, In x l -> ends f K (g x) (h x)) -> ends f K (pmap g l) (map_res h l).
Proof.
  induction l as [|x l IH]; intros H; cbn.
  - apply ends_ret.
  - apply ends_seq; [apply H; now left|]. intros y _.
    apply ends_seq; [apply IH; intros z Hz; apply H; now right|]. intros ys _. apply ends_ret.
Qed.

(** ** Alone *)

Lemma follows_run : forall f A K (m : prog A) r K', follows f K m r K' ->
  forall s, holds f K s -> fst (run m s) = r /\ holds f K' (snd (run m s)).
Proof.
  induction 1; intros s Hs; cbn.
  - auto.
  - apply IHfollows. intros i j [h|[-> ->]]; unfold store_set.
    + destruct ((i =? id) && (j =? slot)) eqn:E; [|now apply Hs].
      apply andb_true_iff in E as [E1 E2]. apply Nat.eqb_eq in E1, E2. now subst.
    + rewrite !Nat.eqb_refl. cbn. assumption.
  - rewrite (Hs _ _ H). apply IHfollows. assumption.
Qed.

Lemma ends_run : forall f A (m : prog A) r s, ends f none_known m r -> fst (run m s) = r.
Proof. intros f A m r s (K' & F). apply (follows_run _ _ _ _ _ _ F). intros i j []. Qed.

(** ** Interleaved *)

Lemma holds_put : forall f K s id slot, holds f K s -> holds f K (store_set s id slot (f id slot)).
Proof.
  intros f K s id slot H i j k. unfold store_set.
  destruct ((i =? id) && (j =? slot)) eqn:E; [|now apply H].
  apply andb_true_iff in E as [E1 E2]. apply Nat.eqb_eq in E1, E2. now subst.
Qed.
Lemma holds_add : forall f K s id slot, holds f K s -> holds f (add_known K id slot) (store_set s id slot (f id slot)).
Proof.
  intros f K s id slot H i j [h|[-> ->]].
  - exact (holds_put f K s id slot H i j h).
  - unfold store_set. now rewrite !Nat.eqb_refl.
Qed.

Lemma step_follows : forall f A K (m : prog A) r s, ends f K m r -> holds f K s ->
  exists K', ends f K' (fst (step m s)) r /\ holds f K' (snd (step m s)) /\
  forall L, holds f L s -> holds f L (snd (step m s)).
Proof.
  intros f A K m r s (K' & F) Hs. destruct F; cbn.
  - exists K. split; [apply ends_ret|auto].
  - subst v. exists (add_known K id slot). split; [now exists K'|]. split; [now apply holds_add|].
    intros L HL. now apply holds_put.
  - exists K. rewrite (Hs _ _ H). split; [now exists K'|auto].
Qed.

Lemma interleave_ends : forall f A B sched K L (m : prog A) (n : prog B) r q s,
  ends f K m r -> ends f L n q -> holds f K s -> holds f L s ->
  forall m' n' s', interleave sched m n s = (m', n', s') ->
  (forall r', m' = Ret r' -> r' = r) /\ (forall q', n' = Ret q' -> q' = q).
Proof.
  induction sched as [|b sched IH]; intros K L m n r q s Hm Hn HK HL m' n' s' E; cbn in E.
  - injection E as <- <- <-. split; intros x ->.
    + destruct Hm as (K' & F). now inversion F.
    + destruct Hn as (K' & F). now inversion F.
  - destruct b.
    + destruct (step m s) as [m1 s1] eqn:S.
      destruct (step_follows f A K m r s Hm HK) as (K1 & H1 & H2 & H3). rewrite S in H1, H2, H3. cbn in *.
      exact (IH K1 L m1 n r q s1 H1 Hn H2 (H3 L HL) m' n' s' E).
    + destruct (step n s) as [n1 s1] eqn:S.
      destruct (step_follows f B L n q s Hn HL) as (L1 & H1 & H2 & H3). rewrite S in H1, H2, H3. cbn in *.
      exact (IH K L1 m n1 r q s1 Hm H1 (H3 K HK) H2 m' n' s' E).
Qed.
