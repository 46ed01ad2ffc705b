(** Sharing of lists between data sets. *)
From Coq Require Import String List Ascii NArith ZArith Bool Arith Lia.
From Verif.Model Require Import Py PyFloat Utilities Dicts Particle Reaction Field Section Entry Columns Dataset Heap.
From Verif.Spec Require Import Tables DataSets Merging Sharing.
From Verif.Proofs Require Import StrLemmas SimplifyLemmas TableLemmas SimpleLemmas DatasetLemmas MergeLemmas.
Import ListNotations.
Local Open Scope nat_scope.

(** ** Assignment to a position *)
Section Put.
Context {A : Type}.
Implicit Types l : list A.
Lemma put_length : forall l a x, a < length l -> length (put l a x) = length l.
Proof. intros. unfold put. rewrite app_length, firstn_length. cbn [length]. rewrite skipn_length. lia. Qed.
Lemma put_same : forall l a x, a < length l -> nth_error (put l a x) a = Some x.
Proof.
  intros. unfold put. rewrite nth_error_app2 by (rewrite firstn_length; lia). rewrite firstn_length.
  replace (a - Nat.min a (length l)) with 0 by lia. reflexivity.
Qed.
Lemma put_other : forall l a b x, a < length l -> a <> b -> nth_error (put l a x) b = nth_error l b.
Proof.
  intros l a b x H N. unfold put. destruct (Nat.lt_ge_cases b a).
  - rewrite nth_error_app1 by (rewrite firstn_length; lia). revert l b H H0 N. induction a; intros l b H H0 N; [lia|].
    destruct l; [cbn in H; lia|]. destruct b; [reflexivity|]. cbn. apply IHa; cbn in H; lia.
  - rewrite nth_error_app2 by (rewrite firstn_length; lia). rewrite firstn_length.
    replace (b - Nat.min a (length l)) with (S (b - S a)) by lia. cbn [nth_error].
    rewrite <- (firstn_skipn (S a) l) at 2. rewrite nth_error_app2 by (rewrite firstn_length; lia).
    f_equal. rewrite firstn_length. lia.
Qed.
Lemma nth_of_error : forall l a d, nth a l d = match nth_error l a with Some x => x | None => d end.
Proof. induction l as [|y l IH]; intros [|a] d; cbn; auto. Qed.
Lemma nth_put_same : forall l a x d, a < length l -> nth a (put l a x) d = x.
Proof. intros. rewrite nth_of_error, put_same; auto. Qed.
Lemma nth_put_other : forall l a b x d, a < length l -> a <> b -> nth b (put l a x) d = nth b l d.
Proof. intros. rewrite !nth_of_error, put_other; auto. Qed.
Lemma In_put : forall l a x y, In y (put l a x) -> y = x \/ In y l.
Proof.
  intros l a x y H. unfold put in H. apply in_app_or in H as [H|[H|H]]; auto.
  - right. rewrite <- (firstn_skipn a l). apply in_or_app. auto.
  - right. rewrite <- (firstn_skipn (S a) l). apply in_or_app. auto.
Qed.
End Put.

(** ** Addresses in range *)
Definition set_ok (h : heap) (s : hset) : Prop :=
  hs_labels s < length (h_labels h) /\ hs_units s < length (h_units h) /\ hs_data s < length (h_tables h).
Definition hwf (h : heap) : Prop :=
  (forall s, In s (h_sets h) -> set_ok h s) /\ (forall t r, In t (h_tables h) -> In r t -> r < length (h_rows h)).

Lemma hwf_table : forall h a r, hwf h -> In r (nth a (h_tables h) []) -> r < length (h_rows h).
Proof.
  intros h a r [_ W] I. rewrite nth_of_error in I. destruct (nth_error _ a) eqn:E; [|destruct I]. apply nth_error_In in E. eauto.
Qed.
Lemma set_at : forall h k s, hwf h -> nth_error (h_sets h) k = Some s -> set_ok h s.
Proof. intros h k s [W _] E. apply W. eapply nth_error_In; eauto. Qed.

(** Two heaps in which an object looks the same. *)
Lemma see_ext : forall h h' s, nth (hs_labels s) (h_labels h') [] = nth (hs_labels s) (h_labels h) [] ->
  nth (hs_units s) (h_units h') [] = nth (hs_units s) (h_units h) [] ->
  nth (hs_data s) (h_tables h') [] = nth (hs_data s) (h_tables h) [] ->
  (forall r, In r (nth (hs_data s) (h_tables h) []) -> nth r (h_rows h') [] = nth r (h_rows h) []) ->
  seen_through h' s = seen_through h s.
Proof.
  intros h h' s A B C D. unfold seen_through. rewrite A, B. f_equal. f_equal. unfold rows_at. rewrite C. apply map_ext_in. exact D.
Qed.

Lemma nth_app_old : forall {A} (l m : list A) a d, a < length l -> nth a (l ++ m) d = nth a l d.
Proof. intros. apply app_nth1. auto. Qed.

(** Growing a heap changes nothing. *)
Lemma see_grown : forall h s la un ro ta se p, hwf h -> set_ok h s ->
  seen_through (mkHeap (h_labels h ++ la) (h_units h ++ un) (h_rows h ++ ro) (h_tables h ++ ta) se p) s = seen_through h s.
Proof.
  intros h s la un ro ta se p W (A & B & C). apply see_ext; cbn [h_labels h_units h_tables h_rows]; try now apply nth_app_old.
  intros r I. apply nth_app_old. eapply hwf_table; eauto.
Qed.
Lemma see_with_parsers : forall h st s, seen_through (with_parsers h st) s = seen_through h s.
Proof. reflexivity. Qed.

Lemma set_ok_grown : forall h s la un ro ta se p, set_ok h s ->
  set_ok (mkHeap (h_labels h ++ la) (h_units h ++ un) ro (h_tables h ++ ta) se p) s.
Proof. intros h s la un ro ta se p (A & B & C). unfold set_ok. cbn. rewrite !app_length. lia. Qed.

Lemma hwf_parsers : forall h st, hwf h -> hwf (with_parsers h st).
Proof. intros h st [A B]. split; auto. Qed.

Lemma hwf_new : forall h d, hwf h -> hwf (new_object h d).
Proof.
  intros h d [A B]. split; cbn [new_object h_sets h_tables h_rows].
  - intros s I. apply in_app_or in I as [I|[<-|[]]].
    + apply set_ok_grown. now apply A.
    + unfold set_ok. cbn. rewrite !app_length. cbn. lia.
  - intros t r I J. rewrite app_length. apply in_app_or in I as [I|[<-|[]]].
    + specialize (B _ _ I J). lia.
    + apply in_seq in J. lia.
Qed.

Lemma h_table_put : forall h a t, (forall t r, In t (h_tables h) -> In r t -> r < length (h_rows h)) ->
  (forall r, In r t -> r < length (h_rows h)) ->
  forall t' r, In t' (put (h_tables h) a t) -> In r t' -> r < length (h_rows h).
Proof. intros h a t B H t' r I J. apply In_put in I as [->|I]; eauto. Qed.

Lemma order_In : forall (t : list nat) is r, In r (map (fun i => nth i t 0) (filter (fun i => i <? length t) is)) -> In r t.
Proof.
  intros t is r I. apply in_map_iff in I as (i & <- & I). apply filter_In in I as [_ I]. apply Nat.ltb_lt in I. now apply nth_In.
Qed.

Lemma set_nth_ok : forall {A} (l : list A) i v l', set_nth l i v = Ok l' -> i < length l /\ l' = put l i v.
Proof. unfold set_nth. intros A l i v l' H. destruct (Nat.ltb_spec i (length l)); [|discriminate]. injection H as <-. auto. Qed.

(** ** What each operation does *)
Definition after (o : outcome) : option heap := match o with Done h | Failed h _ => Some h | Loops => None end.

(** The forms a heap takes after an operation on data set [k]. *)
Inductive moved (h : heap) : hop -> heap -> Prop :=
| M_parsers : forall o st, moved h o (with_parsers h st)
| M_shared : forall mk fl k s st, nth_error (h_sets h) k = Some s ->
    moved h (Simplify mk fl k) (mkHeap (h_labels h) (h_units h) (h_rows h) (h_tables h) (h_sets h ++ [s]) st)
| M_new : forall mk fl k s st d', nth_error (h_sets h) k = Some s -> comes_back_shared (seen_through h s) = false ->
    moved h (Simplify mk fl k) (new_object (with_parsers h st) d')
| M_taken : forall same k j s o r, nth_error (h_sets h) k = Some s -> nth_error (h_sets h) j = Some o ->
    nth (hs_labels s) (h_labels h) [] = [] ->
    moved h (Append same k j)
       (mkHeap (h_labels h ++ [nth (hs_labels o) (h_labels h) []]) (h_units h ++ [nth (hs_units o) (h_units h) []]) (h_rows h)
               (h_tables h ++ [nth (hs_data o) (h_tables h) []])
               (put (h_sets h) k (mkHSet r (length (h_labels h)) (length (h_units h)) (length (h_tables h)))) (h_parsers h))
| M_rows : forall same k j s rows, nth_error (h_sets h) k = Some s ->
    moved h (Append same k j)
       (mkHeap (h_labels h) (h_units h) (h_rows h ++ rows)
               (put (h_tables h) (hs_data s) (nth (hs_data s) (h_tables h) [] ++ seq (length (h_rows h)) (length rows)))
               (h_sets h) (h_parsers h))
| M_sorted : forall order k s t, nth_error (h_sets h) k = Some s -> (forall r, In r t -> In r (nth (hs_data s) (h_tables h) [])) ->
    moved h (Sort order k)
       (mkHeap (h_labels h) (h_units h) (h_rows h) (put (h_tables h) (hs_data s) t) (h_sets h) (h_parsers h))
| M_cell : forall k i j v s r row, nth_error (h_sets h) k = Some s -> In r (nth (hs_data s) (h_tables h) []) ->
    moved h (SetCell k i j v) (mkHeap (h_labels h) (h_units h) (put (h_rows h) r row) (h_tables h) (h_sets h) (h_parsers h))
| M_label : forall k j v s l, nth_error (h_sets h) k = Some s -> length l = length (nth (hs_labels s) (h_labels h) []) ->
    moved h (SetLabel k j v) (mkHeap (put (h_labels h) (hs_labels s) l) (h_units h) (h_rows h) (h_tables h) (h_sets h) (h_parsers h)).

Lemma same_heap : forall h, with_parsers h (h_parsers h) = h.
Proof. now intros []. Qed.

Lemma hstep_moved : forall acos nm o h h', after (hstep acos nm o h) = Some h' -> moved h o h'.
Proof.
  assert (S : forall h o, moved h o h) by (intros h o; rewrite <- (same_heap h) at 2; apply M_parsers).
  intros acos nm o h h' H. destruct o as [mk fl k|same k j|order k|k i j v|k j v]; cbn [hstep] in H.
  - unfold h_simplify in H. destruct (nth_error (h_sets h) k) as [s|] eqn:E; [|injection H as <-; apply S].
    destruct (run _ _) as [r st]. destruct r as [d'|e]; [|injection H as <-; apply M_parsers].
    destruct (comes_back_shared _) eqn:C; injection H as <-.
    + apply (M_shared h mk fl k s st E).
    + eapply M_new; eauto.
  - unfold h_append in H. destruct (nth_error (h_sets h) k) as [s|] eqn:E; [|injection H as <-; apply S].
    destruct (nth_error (h_sets h) j) as [o|] eqn:F; [|injection H as <-; apply S].
    destruct (append _ _ _ _) as [r|e]; [|injection H as <-; apply S].
    destruct (t_labels (ds_table (seen_through h s))) as [|l0 ls] eqn:L.
    + destruct (t_units (ds_table (seen_through h s))) as [|u0 us].
      * destruct (t_data (ds_table (seen_through h s))) as [|d0 dd].
        -- injection H as <-. eapply M_taken; eauto.
        -- destruct (_ && _); [|injection H as <-; apply S]. destruct (_ && _); [discriminate|].
           injection H as <-. eapply M_rows; eauto.
      * destruct (_ && _); [|injection H as <-; apply S]. destruct (_ && _); [discriminate|].
           injection H as <-. eapply M_rows; eauto.
    + destruct (_ && _); [|injection H as <-; apply S]. destruct (_ && _); [discriminate|].
           injection H as <-. eapply M_rows; eauto.
  - unfold h_sort in H. destruct (nth_error (h_sets h) k) as [s|] eqn:E; [|injection H as <-; apply S].
    injection H as <-. apply M_sorted; auto. intros r. apply order_In.
  - unfold h_set_cell in H. destruct (nth_error (h_sets h) k) as [s|] eqn:E; [|injection H as <-; apply S].
    destruct (nth_error (nth (hs_data s) (h_tables h) []) i) as [r|] eqn:F; [|injection H as <-; apply S].
    destruct (set_nth _ _ _) as [row|e]; [|injection H as <-; apply S].
    injection H as <-. eapply M_cell; eauto. eapply nth_error_In; eauto.
  - unfold h_set_label in H. destruct (nth_error (h_sets h) k) as [s|] eqn:E; [|injection H as <-; apply S].
    destruct (set_nth _ _ _) as [l|e] eqn:F; [|injection H as <-; apply S].
    injection H as <-. apply set_nth_ok in F as [F ->]. eapply M_label; eauto. now apply put_length.
Qed.

Lemma moved_wf : forall h o h', hwf h -> moved h o h' -> hwf h'.
Proof.
  intros h o h' W M. pose proof W as [A B]. destruct M.
  - now apply hwf_parsers.
  - split; auto. intros s' I. cbn in I. apply in_app_or in I as [I|[<-|[]]]; [now apply A|]. apply (set_at h k s W H).
  - apply hwf_new. now apply hwf_parsers.
  - pose proof (set_at _ _ _ W H) as K. pose proof (set_at _ _ _ W H0) as (O1 & O2 & O3). split; cbn.
    + intros s' I. apply In_put in I as [->|I].
      * unfold set_ok. cbn. rewrite !app_length. cbn. lia.
      * apply set_ok_grown. now apply A.
    + intros t r' I J. apply in_app_or in I as [I|[<-|[]]]; [eauto|]. eapply hwf_table; eauto.
  - pose proof (set_at _ _ _ W H) as (K1 & K2 & K3). split; cbn.
    + intros s' I. destruct (A _ I) as (I1 & I2 & I3). unfold set_ok. cbn. rewrite put_length by auto. lia.
    + intros t r I J. rewrite app_length. apply In_put in I as [->|I].
      * apply in_app_or in J as [J|J]; [apply (hwf_table h (hs_data s) r W) in J; lia|]. apply in_seq in J. lia.
      * specialize (B _ _ I J). lia.
  - pose proof (set_at _ _ _ W H) as (K1 & K2 & K3). split; cbn.
    + intros s' I. destruct (A _ I) as (I1 & I2 & I3). unfold set_ok. cbn. rewrite put_length by auto. lia.
    + apply h_table_put; auto. intros r I. apply (hwf_table h (hs_data s) r W). auto.
  - assert (L : r < length (h_rows h)) by (eapply hwf_table; eauto). split; cbn.
    + intros s' I. destruct (A _ I) as (I1 & I2 & I3). unfold set_ok. cbn. lia.
    + intros t r' I J. rewrite put_length by auto. eauto.
  - pose proof (set_at _ _ _ W H) as (K1 & K2 & K3). split; cbn; [|exact B].
    intros s' I. destruct (A _ I) as (I1 & I2 & I3). unfold set_ok. cbn. rewrite put_length by auto. lia.
Qed.

Lemma hrun_wf : forall acos nm ops h h', hwf h -> hrun acos nm ops h = Some h' -> hwf h'.
Proof.
  induction ops as [|o ops IH]; cbn [hrun]; intros h h' W H; [injection H as <-; auto|].
  destruct (hstep acos nm o h) as [h1|h1 e|] eqn:E; [| |discriminate]; apply (IH h1 h'); auto;
    eapply moved_wf; eauto; eapply (hstep_moved acos nm); rewrite E; reflexivity.
Qed.
Lemma read_wf : forall ds, hwf (read_sets ds).
Proof.
  intros ds. unfold read_sets. assert (W : hwf (mkHeap [] [] [] [] [] store0)) by (split; cbn; intros; contradiction).
  revert W. generalize (mkHeap [] [] [] [] [] store0). induction ds as [|d ds IH]; intros h W; [exact W|]. cbn. apply IH. now apply hwf_new.
Qed.

(** ** An object with lists of its own *)
Definition alone (h : heap) (n : nat) : Prop :=
  exists sn, nth_error (h_sets h) n = Some sn /\ nth (hs_labels sn) (h_labels h) [] <> [] /\
    forall i s, nth_error (h_sets h) i = Some s -> i <> n ->
      hs_labels s <> hs_labels sn /\ hs_data s <> hs_data sn /\
      forall r, In r (nth (hs_data s) (h_tables h) []) -> ~ In r (nth (hs_data sn) (h_tables h) []).

(** Working on the lonely object. *)
Lemma moved_alone : forall h o h' n, hwf h -> alone h n -> changes_only n o -> moved h o h' ->
  alone h' n /\ forall i, i <> n -> see h' i = see h i.
Proof.
  intros h o h' n W (sn & En & NE & Al) C M. pose proof (set_at _ _ _ W En) as (N1 & N2 & N3).
  destruct M as [o st|mk fl k s st E|mk fl k s st d' E Cb|same k j s ot r E F L|same k j s rows E|order k s t E T|k i0 j v s r row E R|k j v s l E LL];
    cbn [changes_only] in C; try contradiction; subst.
  - split; [|reflexivity]. exists sn. auto.
  - rewrite En in E. injection E as <-. contradiction.
  - rewrite En in E. injection E as <-. split.
    + exists sn. cbn [h_sets h_labels h_tables]. split; [exact En|]. split; [exact NE|]. intros i s I Ni.
      destruct (Al i s I Ni) as (A1 & A2 & A3). pose proof (set_at _ _ _ W I) as (S1 & S2 & S3).
      split; [exact A1|]. split; [exact A2|]. intros r J. rewrite nth_put_other in J by auto. rewrite nth_put_same by auto.
      intros K. apply in_app_or in K as [K|K]; [now apply (A3 r)|]. apply in_seq in K. apply (hwf_table _ _ _ W) in J. lia.
    + intros i Ni. unfold see. cbn [h_sets]. destruct (nth_error (h_sets h) i) as [s|] eqn:I; [|reflexivity].
      destruct (Al i s I Ni) as (A1 & A2 & A3). pose proof (set_at _ _ _ W I) as (S1 & S2 & S3).
      cbn [option_map]. f_equal. apply see_ext; cbn [h_labels h_units h_tables h_rows]; auto.
      * now rewrite nth_put_other by auto.
      * intros r J. apply nth_app_old. eapply hwf_table; eauto.
  - rewrite En in E. injection E as <-. split.
    + exists sn. cbn [h_sets h_labels h_tables]. split; [exact En|]. split; [exact NE|]. intros i s I Ni.
      destruct (Al i s I Ni) as (A1 & A2 & A3). split; [exact A1|]. split; [exact A2|]. intros r J.
      rewrite nth_put_other in J by auto. rewrite nth_put_same by auto. intros K. apply T in K. now apply (A3 r).
    + intros i Ni. unfold see. cbn [h_sets]. destruct (nth_error (h_sets h) i) as [s|] eqn:I; [|reflexivity].
      destruct (Al i s I Ni) as (A1 & A2 & A3). cbn [option_map]. f_equal. apply see_ext; cbn [h_labels h_units h_tables h_rows]; auto.
      now rewrite nth_put_other by auto.
  - rewrite En in E. injection E as <-. assert (RL : r < length (h_rows h)) by (eapply hwf_table; eauto). split.
    + exists sn. auto.
    + intros i Ni. unfold see. cbn [h_sets]. destruct (nth_error (h_sets h) i) as [s|] eqn:I; [|reflexivity].
      destruct (Al i s I Ni) as (A1 & A2 & A3). cbn [option_map]. f_equal. apply see_ext; cbn [h_labels h_units h_tables h_rows]; auto.
      intros r' J. apply nth_put_other; auto. intros <-. now apply (A3 r).
  - rewrite En in E. injection E as <-. split.
    + exists sn. cbn [h_sets h_labels h_tables]. split; [exact En|]. split; [|exact Al]. rewrite nth_put_same by auto.
      intros ->. apply NE. now apply length_zero_iff_nil.
    + intros i Ni. unfold see. cbn [h_sets]. destruct (nth_error (h_sets h) i) as [s|] eqn:I; [|reflexivity].
      destruct (Al i s I Ni) as (A1 & A2 & A3). cbn [option_map]. f_equal. apply see_ext; cbn [h_labels h_units h_tables h_rows]; auto.
      now rewrite nth_put_other by auto.
Qed.

(** Working on others. *)
Lemma moved_avoids : forall h o h' n, hwf h -> alone h n -> avoids n o -> moved h o h' ->
  alone h' n /\ see h' n = see h n.
Proof.
  intros h o h' n W (sn & En & NE & Al) C M. pose proof (set_at _ _ _ W En) as OKn. pose proof OKn as (N1 & N2 & N3).
  assert (NL : n < length (h_sets h)) by (apply nth_error_Some; congruence).
  destruct M as [o st|mk fl k s st E|mk fl k s st d' E Cb|same k j s ot r E F L|same k j s rows E|order k s t E T|k i0 j v s r row E R|k j v s l E LL];
    cbn [avoids] in C.
  - split; [|reflexivity]. exists sn. auto.
  - split.
    + exists sn. cbn [h_sets h_labels h_tables]. split; [now rewrite nth_error_app1|]. split; [exact NE|].
      intros i s' I Ni. destruct (Nat.lt_ge_cases i (length (h_sets h))) as [Hi|Hi].
      * rewrite nth_error_app1 in I by auto. exact (Al i s' I Ni).
      * rewrite nth_error_app2 in I by auto. destruct (i - length (h_sets h)) as [|m]; [|destruct m; discriminate].
        injection I as <-. exact (Al k s E C).
    + unfold see. cbn [h_sets]. rewrite nth_error_app1 by auto. rewrite En. reflexivity.
  - split.
    + exists sn. cbn [new_object with_parsers h_sets h_labels h_tables h_rows]. split; [now rewrite nth_error_app1|]. split; [now rewrite nth_app_old|].
      intros i s' I Ni. destruct (Nat.lt_ge_cases i (length (h_sets h))) as [Hi|Hi].
      * rewrite nth_error_app1 in I by auto. destruct (Al i s' I Ni) as (A1 & A2 & A3). pose proof (set_at _ _ _ W I) as (S1 & S2 & S3).
        split; [exact A1|]. split; [exact A2|]. rewrite !nth_app_old by auto. exact A3.
      * rewrite nth_error_app2 in I by auto. destruct (i - length (h_sets h)) as [|m]; [|destruct m; discriminate].
        injection I as <-. cbn [hs_labels hs_data]. split; [lia|]. split; [lia|]. rewrite (nth_app_old (h_tables h) _ (hs_data sn)) by auto.
        rewrite app_nth2, Nat.sub_diag by lia. cbn [nth]. intros r J K. apply in_seq in J. apply (hwf_table _ _ _ W) in K. lia.
    + unfold see. cbn [new_object with_parsers h_sets]. rewrite nth_error_app1 by auto. rewrite En. cbn [option_map]. f_equal.
      apply (see_grown h sn); auto.
  - destruct C as [Ck Cj]. pose proof (set_at _ _ _ W F) as (F1 & F2 & F3).
    assert (KL : k < length (h_sets h)) by (apply nth_error_Some; congruence). split.
    + exists sn. cbn [h_sets h_labels h_tables]. split; [now rewrite put_other|]. split; [now rewrite nth_app_old|].
      intros i s' I Ni. destruct (Nat.eq_dec i k) as [->|Nk].
      * rewrite put_same in I by auto. injection I as <-. cbn [hs_labels hs_data]. split; [lia|]. split; [lia|].
        rewrite (nth_app_old (h_tables h) _ (hs_data sn)) by auto. rewrite app_nth2, Nat.sub_diag by lia. cbn [nth].
        destruct (Al j ot F Cj) as (A1 & A2 & A3). exact A3.
      * rewrite put_other in I by auto. destruct (Al i s' I Ni) as (A1 & A2 & A3). pose proof (set_at _ _ _ W I) as (S1 & S2 & S3).
        split; [exact A1|]. split; [exact A2|]. rewrite !nth_app_old by auto. exact A3.
    + unfold see. cbn [h_sets]. rewrite put_other by auto. rewrite En. cbn [option_map]. f_equal.
      rewrite <- (app_nil_r (h_rows h)). now apply see_grown.
  - destruct C as [Ck _]. destruct (Al k s E Ck) as (K1 & K2 & K3). pose proof (set_at _ _ _ W E) as (E1 & E2 & E3). split.
    + exists sn. cbn [h_sets h_labels h_tables]. split; [exact En|]. split; [exact NE|].
      intros i s' I Ni. destruct (Al i s' I Ni) as (A1 & A2 & A3). split; [exact A1|]. split; [exact A2|].
      rewrite (nth_put_other _ _ (hs_data sn)) by auto. intros r J.
      destruct (Nat.eq_dec (hs_data s) (hs_data s')) as [Q|Q].
      * rewrite <- Q, nth_put_same in J by auto. apply in_app_or in J as [J|J]; [now apply K3|]. apply in_seq in J.
        intros K. apply (hwf_table _ _ _ W) in K. lia.
      * rewrite nth_put_other in J by auto. now apply A3.
    + unfold see. cbn [h_sets]. rewrite En. cbn [option_map]. f_equal. apply see_ext; cbn [h_labels h_units h_tables h_rows]; auto.
      * now apply nth_put_other; auto.
      * intros r J. apply nth_app_old. eapply hwf_table; eauto.
  - destruct (Al k s E C) as (K1 & K2 & K3). pose proof (set_at _ _ _ W E) as (E1 & E2 & E3). split.
    + exists sn. cbn [h_sets h_labels h_tables]. split; [exact En|]. split; [exact NE|].
      intros i s' I Ni. destruct (Al i s' I Ni) as (A1 & A2 & A3). split; [exact A1|]. split; [exact A2|].
      rewrite (nth_put_other _ _ (hs_data sn)) by auto. intros r J.
      destruct (Nat.eq_dec (hs_data s) (hs_data s')) as [Q|Q].
      * rewrite <- Q, nth_put_same in J by auto. apply K3. now apply T.
      * rewrite nth_put_other in J by auto. now apply A3.
    + unfold see. cbn [h_sets]. rewrite En. cbn [option_map]. f_equal. apply see_ext; cbn [h_labels h_units h_tables h_rows]; auto.
      now apply nth_put_other; auto.
  - destruct (Al k s E C) as (K1 & K2 & K3). assert (RL : r < length (h_rows h)) by (eapply hwf_table; eauto). split.
    + exists sn. auto.
    + unfold see. cbn [h_sets]. rewrite En. cbn [option_map]. f_equal. apply see_ext; cbn [h_labels h_units h_tables h_rows]; auto.
      intros r' J. apply nth_put_other; auto. intros <-. now apply (K3 r).
  - destruct (Al k s E C) as (K1 & K2 & K3). pose proof (set_at _ _ _ W E) as (E1 & E2 & E3). split.
    + exists sn. cbn [h_sets h_labels h_tables]. split; [exact En|]. split; [|exact Al]. now rewrite nth_put_other by auto.
    + unfold see. cbn [h_sets]. rewrite En. cbn [option_map]. f_equal. apply see_ext; cbn [h_labels h_units h_tables h_rows]; auto.
      now apply nth_put_other; auto.
Qed.

Lemma hrun_alone : forall acos nm ops h h' n, hwf h -> alone h n -> Forall (changes_only n) ops -> hrun acos nm ops h = Some h' ->
  forall i, i <> n -> see h' i = see h i.
Proof.
  induction ops as [|o ops IH]; cbn [hrun]; intros h h' n W Al F H i Ni; [injection H as <-; auto|].
  inversion F as [|? ? C F']; subst.
  destruct (hstep acos nm o h) as [h1|h1 e|] eqn:E; [| |discriminate];
    (assert (M : moved h o h1) by (eapply (hstep_moved acos nm); rewrite E; reflexivity);
     destruct (moved_alone h o h1 n W Al C M) as [Al1 S1]; rewrite <- (S1 i Ni); eapply IH; eauto; eapply moved_wf; eauto).
Qed.
Lemma hrun_avoids : forall acos nm ops h h' n, hwf h -> alone h n -> Forall (avoids n) ops -> hrun acos nm ops h = Some h' ->
  see h' n = see h n.
Proof.
  induction ops as [|o ops IH]; cbn [hrun]; intros h h' n W Al F H; [injection H as <-; auto|].
  inversion F as [|? ? C F']; subst.
  destruct (hstep acos nm o h) as [h1|h1 e|] eqn:E; [| |discriminate];
    (assert (M : moved h o h1) by (eapply (hstep_moved acos nm); rewrite E; reflexivity);
     destruct (moved_avoids h o h1 n W Al C M) as [Al1 S1]; rewrite <- S1; eapply IH; eauto; eapply moved_wf; eauto).
Qed.

(** ** New objects *)
Lemma map_seq_app : forall {A} (l m : list A) d, map (fun r => nth r (l ++ m) d) (seq (length l) (length m)) = m.
Proof.
  intros A l m d. apply nth_ext with (d := d) (d' := d).
  - now rewrite map_length, seq_length.
  - intros i I. rewrite map_length, seq_length in I.
    rewrite nth_indep with (d' := nth 0 (l ++ m) d) by (rewrite map_length, seq_length; lia).
    rewrite (map_nth (fun r => nth r (l ++ m) d)). rewrite seq_nth by lia.
    rewrite app_nth2 by lia. f_equal. lia.
Qed.
Lemma see_new : forall h d, hwf h -> see (new_object h d) (length (h_sets h)) = Some d /\
  forall i, i < length (h_sets h) -> see (new_object h d) i = see h i.
Proof.
  intros h d W. split.
  - unfold see. cbn [new_object h_sets]. rewrite nth_error_app2, Nat.sub_diag by lia. cbn [nth_error option_map]. f_equal.
    unfold seen_through, rows_at. cbn [new_object h_labels h_units h_tables h_rows hs_labels hs_units hs_data hs_info].
    rewrite !app_nth2, !Nat.sub_diag by lia. cbn [nth]. rewrite map_seq_app. destruct d as [c m r mo t si co fr]. destruct t. reflexivity.
  - intros i I. unfold see. cbn [new_object h_sets]. rewrite nth_error_app1 by auto.
    destruct (nth_error (h_sets h) i) as [s|] eqn:E; [|reflexivity]. cbn [option_map]. f_equal. apply see_grown; auto. eapply set_at; eauto.
Qed.
Lemma alone_new : forall h d, hwf h -> t_labels (ds_table d) <> [] -> alone (new_object h d) (length (h_sets h)).
Proof.
  intros h d W L. eexists. cbn [new_object h_sets h_labels h_tables h_rows]. split.
  { rewrite nth_error_app2, Nat.sub_diag by lia. reflexivity. }
  cbn [hs_labels hs_data]. rewrite !app_nth2, !Nat.sub_diag by lia. cbn [nth]. split; [exact L|].
  intros i s I Ni. assert (Hi : i < length (h_sets h)).
  { assert (i < length (h_sets h ++ [mkHSet (set_table d no_table (ds_simplified d)) (length (h_labels h)) (length (h_units h)) (length (h_tables h))]))
      by (apply nth_error_Some; congruence). rewrite app_length in H. cbn in H. lia. }
  rewrite nth_error_app1 in I by auto. pose proof (set_at _ _ _ W I) as (S1 & S2 & S3). split; [lia|]. split; [lia|].
  rewrite nth_app_old by auto. intros r J K. apply in_seq in K. apply (hwf_table _ _ _ W) in J. lia.
Qed.

Lemma simplified_independent : forall acos nm ds before h mk fl k d h',
  hrun acos nm before (read_sets ds) = Some h -> see h k = Some d -> ds_simplified d = false -> wanted_columns (ds_class_of d) <> [] ->
  hstep acos nm (Simplify mk fl k) h = Done h' ->
  (exists d', fst (run (getSimplified acos mk fl d) (h_parsers h)) = Ok d' /\ see h' (length (h_sets h)) = Some d') /\
  (forall i, i < length (h_sets h) -> see h' i = see h i) /\
  (forall ops h'', Forall (changes_only (length (h_sets h))) ops -> hrun acos nm ops h' = Some h'' ->
     forall i, i <> length (h_sets h) -> see h'' i = see h' i) /\
  (forall ops h'', Forall (avoids (length (h_sets h))) ops -> hrun acos nm ops h' = Some h'' ->
     see h'' (length (h_sets h)) = see h' (length (h_sets h))).
Proof.
  intros acos nm ds before h mk fl k d h' B S Us Wc H.
  assert (W : hwf h) by (eapply hrun_wf; [apply read_wf|exact B]).
  cbn [hstep] in H. unfold h_simplify in H. unfold see in S. destruct (nth_error (h_sets h) k) as [s|] eqn:E; [|discriminate].
  cbn [option_map] in S. injection S as S. rewrite S in H.
  destruct (run (getSimplified acos mk fl d) (h_parsers h)) as [r st] eqn:R. destruct r as [d'|e]; [|discriminate].
  assert (C : comes_back_shared d = false).
  { unfold comes_back_shared. rewrite Us. destruct (ds_class_of d); cbn in Wc |- *; auto; now elim Wc. }
  rewrite C in H. injection H as <-.
  assert (W' : hwf (with_parsers h st)) by now apply hwf_parsers.
  assert (L : t_labels (ds_table d') <> []).
  { pose proof (simplified_shape acos mk fl d (h_parsers h) d' Us Wc) as K. rewrite R in K. specialize (K eq_refl).
    destruct K as (_ & _ & (ns & -> & _) & _). intro Z. apply app_eq_nil in Z as [Z _]. apply map_eq_nil in Z. contradiction. }
  pose proof (see_new (with_parsers h st) d' W') as [S1 S2]. pose proof (alone_new (with_parsers h st) d' W' L) as Al.
  cbn [with_parsers h_sets] in S1, S2, Al.
  split; [exists d'; split; [reflexivity|exact S1]|].
  split; [intros i I; rewrite S2 by auto; reflexivity|].
  assert (W2 : hwf (new_object (with_parsers h st) d')) by now apply hwf_new.
  split.
  - intros ops h'' F R'. eapply hrun_alone; eauto.
  - intros ops h'' F R'. eapply hrun_avoids; eauto.
Qed.

(** ** append *)

(** No two objects have the same [data] list. *)
Definition own_data (h : heap) : Prop :=
  forall i j s t, nth_error (h_sets h) i = Some s -> nth_error (h_sets h) j = Some t -> i <> j -> hs_data s <> hs_data t.

Lemma own_data_new : forall h d, hwf h -> own_data h -> own_data (new_object h d).
Proof.
  intros h d W O i j s t I J N. cbn [new_object h_sets] in I, J.
  assert (D : forall i s, nth_error (h_sets h ++ [mkHSet (set_table d no_table (ds_simplified d)) (length (h_labels h)) (length (h_units h)) (length (h_tables h))]) i = Some s ->
     (i < length (h_sets h) /\ nth_error (h_sets h) i = Some s) \/ (i = length (h_sets h) /\ hs_data s = length (h_tables h))).
  { intros i' s' E. destruct (Nat.lt_ge_cases i' (length (h_sets h))) as [L|L].
    - rewrite nth_error_app1 in E by auto. auto.
    - rewrite nth_error_app2 in E by auto. destruct (i' - length (h_sets h)) as [|m] eqn:Q; [|destruct m; discriminate].
      injection E as <-. right. split; [lia|reflexivity]. }
  apply D in I as [[I1 I2]|[I1 I2]]; apply D in J as [[J1 J2]|[J1 J2]].
  - eapply O; eauto.
  - apply (set_at _ _ _ W) in I2 as (_ & _ & K). lia.
  - apply (set_at _ _ _ W) in J2 as (_ & _ & K). lia.
  - lia.
Qed.
Lemma own_data_read : forall ds, own_data (read_sets ds).
Proof.
  intros ds. unfold read_sets. assert (W : hwf (mkHeap [] [] [] [] [] store0)) by (split; cbn; intros; contradiction).
  assert (O : own_data (mkHeap [] [] [] [] [] store0)) by (intros [|i] j s t H; discriminate).
  revert W O. generalize (mkHeap [] [] [] [] [] store0). induction ds as [|d ds IH]; intros h W O; [exact O|]. cbn. apply IH; [now apply hwf_new|].
  now apply own_data_new.
Qed.
Lemma moved_own_data : forall h o h', hwf h -> own_data h -> not_simplify o -> moved h o h' -> own_data h'.
Proof.
  intros h o h' W O C M.
  destruct M as [o st|mk fl k s st E|mk fl k s st d' E Cb|same k j s ot r E F L|same k j s rows E|order k s t E T|k i0 j v s r row E R|k j v s l E LL];
    cbn [not_simplify] in C; try contradiction; try exact O.
  assert (KL : k < length (h_sets h)) by (apply nth_error_Some; congruence).
  intros i i' s' t' I J N. cbn [h_sets] in I, J.
  destruct (Nat.eq_dec i k) as [->|Nk]; [|rewrite put_other in I by auto]; (destruct (Nat.eq_dec i' k) as [->|Nk']; [|rewrite put_other in J by auto]).
  - lia.
  - rewrite put_same in I by auto. injection I as <-. cbn. apply (set_at _ _ _ W) in J as (_ & _ & K). lia.
  - rewrite put_same in J by auto. injection J as <-. cbn. apply (set_at _ _ _ W) in I as (_ & _ & K). lia.
  - eapply O; eauto.
Qed.
Lemma hrun_own_data : forall acos nm ops h h', hwf h -> own_data h -> Forall not_simplify ops -> hrun acos nm ops h = Some h' -> own_data h'.
Proof.
  induction ops as [|o ops IH]; cbn [hrun]; intros h h' W O F H; [injection H as <-; auto|].
  inversion F as [|? ? C F']; subst.
  destruct (hstep acos nm o h) as [h1|h1 e|] eqn:E; [| |discriminate];
    (assert (M : moved h o h1) by (eapply (hstep_moved acos nm); rewrite E; reflexivity);
     apply (IH h1 h'); [eapply moved_wf|eapply moved_own_data|..]; eauto).
Qed.

Lemma rows_at_grown : forall h a ro t, hwf h -> a < length (h_tables h) ->
  map (fun r => nth r (h_rows h ++ ro) []) (nth a (h_tables h) [] ++ t) = rows_at h a ++ map (fun r => nth r (h_rows h ++ ro) []) t.
Proof.
  intros h a ro t W A. rewrite map_app. f_equal. unfold rows_at. apply map_ext_in. intros r I. apply nth_app_old. eapply hwf_table; eauto.
Qed.

Lemma list_same_true : forall {A} (eqb : A -> A -> bool), (forall x, eqb x x = true) -> forall l, list_same eqb l l = true.
Proof. intros A eqb H. induction l as [|x l IH]; [reflexivity|]. cbn. now rewrite H, IH. Qed.

(** [append] of the value model under the condition of line 257. *)
Definition same_kind (nm : names) (self other : dataset) : bool :=
  list_same str_eqb (t_labels (ds_table self)) (t_labels (ds_table other))
  && list_same ostr_eqb (t_units (ds_table self)) (t_units (ds_table other))
  && match reaction_text nm self, reaction_text nm other with Ok a, Ok b => str_eqb a b | _, _ => false end.

Lemma append_nonempty : forall nm same self other r, append nm same self other = Ok r ->
  ~ (t_labels (ds_table self) = [] /\ t_units (ds_table self) = [] /\ t_data (ds_table self) = []) ->
  r = if same_kind nm self other
      then set_table self (mkTable (t_labels (ds_table self)) (t_units (ds_table self)) (t_data (ds_table self) ++ t_data (ds_table other))) (ds_simplified self)
      else self.
Proof.
  intros nm same self other r H N. unfold append in H.
  assert (G : forall X, (equal <- (if list_same str_eqb (t_labels (ds_table self)) (t_labels (ds_table other))
                   && list_same ostr_eqb (t_units (ds_table self)) (t_units (ds_table other))
                then a <- reaction_text nm self ;; b <- reaction_text nm other ;; Ok (str_eqb a b)
                else Ok false) ;;
      if (equal : bool) then Ok X
      else if same then Ok self
      else _ <- reaction_text nm self ;; _ <- reaction_text nm other ;; Ok self) = Ok r -> r = if same_kind nm self other then X else self).
  { intros X K. unfold same_kind. destruct (_ && _).
    - destruct (reaction_text nm self) as [a|e]; [|discriminate]. destruct (reaction_text nm other) as [b|e]; [|discriminate]. cbn [bind] in K.
      cbn [andb]. destruct (str_eqb a b); [now injection K as <-|]. destruct same; now injection K as <-.
    - cbn [bind andb] in K |- *. destruct same; [now injection K as <-|].
      destruct (reaction_text nm self) as [a|e]; [|discriminate]. destruct (reaction_text nm other) as [b|e]; [|discriminate]. cbn [bind] in K.
      now injection K as <-. }
  apply G. destruct (t_labels (ds_table self)) eqn:A; [|exact H]. destruct (t_units (ds_table self)) eqn:B; [|exact H].
  destruct (t_data (ds_table self)) eqn:C; [|exact H]. elim N. auto.
Qed.

Lemma seen_table : forall h s, ds_table (seen_through h s) =
  mkTable (nth (hs_labels s) (h_labels h) []) (nth (hs_units s) (h_units h) []) (rows_at h (hs_data s)).
Proof. reflexivity. Qed.

(** The loop of lines 258-259 when the lists are different ones. *)
Lemma h_append_seen : forall nm same k j h s o r, hwf h -> own_data h -> k <> j ->
  nth_error (h_sets h) k = Some s -> nth_error (h_sets h) j = Some o ->
  append nm same (seen_through h s) (seen_through h o) = Ok r ->
  exists h', h_append nm same k j h = Done h' /\ see h' k = Some r /\ forall i, i <> k -> see h' i = see h i.
Proof.
  intros nm same k j h s o r W O N E F H.
  assert (KL : k < length (h_sets h)) by (apply nth_error_Some; congruence).
  pose proof (set_at _ _ _ W E) as (E1 & E2 & E3). pose proof (set_at _ _ _ W F) as OKo. pose proof OKo as (F1 & F2 & F3).
  pose proof (O k j s o E F N) as D.
  unfold h_append. rewrite E, F, H. fold (same_kind nm (seen_through h s) (seen_through h o)).
  assert (Main : ~ (t_labels (ds_table (seen_through h s)) = [] /\ t_units (ds_table (seen_through h s)) = [] /\ t_data (ds_table (seen_through h s)) = []) ->
    exists h', (if same_kind nm (seen_through h s) (seen_through h o)
              then
                if (hs_data s =? hs_data o) && negb (length (t_data (ds_table (seen_through h o))) =? 0) then Loops
                else
                  let n := length (h_rows h) in
                  Done (mkHeap (h_labels h) (h_units h) (h_rows h ++ t_data (ds_table (seen_through h o)))
                               (put (h_tables h) (hs_data s)
                                    (nth (hs_data s) (h_tables h) [] ++ seq n (length (t_data (ds_table (seen_through h o))))))
                               (h_sets h) (h_parsers h))
              else Done h) = Done h' /\ see h' k = Some r /\ forall i, i <> k -> see h' i = see h i).
  { intros NE. pose proof (append_nonempty _ _ _ _ _ H NE) as R. destruct (same_kind _ _ _).
    - destruct (Nat.eqb_spec (hs_data s) (hs_data o)) as [Q|_]; [contradiction|]. cbn [andb]. eexists. split; [reflexivity|]. split.
      + unfold see. cbn [h_sets]. rewrite E. cbn [option_map]. f_equal. subst r. unfold seen_through at 1. unfold rows_at.
        cbn [h_labels h_units h_tables h_rows]. rewrite nth_put_same by auto. rewrite rows_at_grown by auto.
        rewrite map_seq_app. reflexivity.
      + intros i Ni. unfold see. cbn [h_sets]. destruct (nth_error (h_sets h) i) as [si|] eqn:I; [|reflexivity].
        cbn [option_map]. f_equal. apply see_ext; cbn [h_labels h_units h_tables h_rows]; auto.
        * apply nth_put_other; auto. intros Q. apply (O k i s si E I); auto.
        * intros r' J. apply nth_app_old. eapply hwf_table; eauto.
    - eexists. split; [reflexivity|]. split; [|reflexivity]. unfold see. rewrite E. cbn [option_map]. now subst r. }
  destruct (t_labels (ds_table (seen_through h s))) as [|l0 ls] eqn:A.
  2:{ apply Main. intros [K _]. discriminate. }
  destruct (t_units (ds_table (seen_through h s))) as [|u0 us] eqn:B.
  2:{ apply Main. intros [_ [K _]]. discriminate. }
  destruct (t_data (ds_table (seen_through h s))) as [|d0 dd] eqn:C.
  2:{ apply Main. intros [_ [_ K]]. discriminate. }
  eexists. split; [reflexivity|]. split.
  - unfold see. cbn [h_sets]. rewrite put_same by auto. cbn [option_map]. f_equal.
    unfold append in H. rewrite A, B, C in H. injection H as <-.
    unfold seen_through, rows_at. cbn [h_labels h_units h_tables h_rows hs_labels hs_units hs_data hs_info ds_simplified set_table].
    rewrite !app_nth2, !Nat.sub_diag by lia. reflexivity.
  - intros i Ni. unfold see. cbn [h_sets]. rewrite put_other by auto. destruct (nth_error (h_sets h) i) as [si|] eqn:I; [|reflexivity].
    cbn [option_map]. f_equal. rewrite <- (app_nil_r (h_rows h)). apply see_grown; auto. eapply set_at; eauto.
Qed.

Lemma append_objects : forall acos nm ds before h same k j self other r,
  hrun acos nm before (read_sets ds) = Some h -> Forall not_simplify before -> k <> j ->
  see h k = Some self -> see h j = Some other -> append nm same self other = Ok r ->
  exists h', hstep acos nm (Append same k j) h = Done h' /\ see h' k = Some r /\ forall i, i <> k -> see h' i = see h i.
Proof.
  intros acos nm ds before h same k j self other r B F N S T H.
  assert (W : hwf h) by (eapply hrun_wf; [apply read_wf|exact B]).
  assert (O : own_data h) by (eapply hrun_own_data; [apply read_wf|apply own_data_read|exact F|exact B]).
  unfold see in S, T. destruct (nth_error (h_sets h) k) as [s|] eqn:E; [|discriminate]. destruct (nth_error (h_sets h) j) as [o|] eqn:G; [|discriminate].
  injection S as <-. injection T as <-. cbn [hstep]. eapply h_append_seen; eauto.
Qed.

(** When they are the same list. *)
Lemma self_append : forall acos nm h same k self text, see h k = Some self -> t_data (ds_table self) <> [] ->
  reaction_text nm self = Ok text -> hstep acos nm (Append same k k) h = Loops.
Proof.
  intros acos nm h same k self text S D T. cbn [hstep]. unfold h_append. unfold see in S.
  destruct (nth_error (h_sets h) k) as [s|] eqn:E; [|discriminate]. injection S as <-.
  assert (K : same_kind nm (seen_through h s) (seen_through h s) = true).
  { unfold same_kind. rewrite T, str_eqb_refl. rewrite !list_same_true; auto.
    - intros [u|]; [apply str_eqb_refl|reflexivity].
    - intros x. apply str_eqb_refl. }
  assert (A : exists r, append nm same (seen_through h s) (seen_through h s) = Ok r).
  { eapply append_total; eauto. }
  destruct A as [r A]. rewrite A. fold (same_kind nm (seen_through h s) (seen_through h s)). rewrite K, Nat.eqb_refl.
  destruct (t_data (ds_table (seen_through h s))) as [|d0 dd]; [contradiction|]. cbn [length Nat.eqb negb andb].
  destruct (t_labels _); [|reflexivity]. destruct (t_units _); reflexivity.
Qed.
