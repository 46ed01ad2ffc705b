(** The codes of the shipped dictionaries have the shapes the grammar lemmas rely on. *)
From Coq Require Import String List Ascii NArith ZArith Bool Arith Lia.
From Verif.Model Require Import Py Particle Pyparsing Grammars Shipped.
From Verif.Spec Require Import Text Codes.
From Verif.Proofs Require Import StrLemmas.
Import ListNotations.
Local Open Scope string_scope.
Local Open Scope list_scope.
Local Open Scope nat_scope.

Definition letterb (c : ascii) : bool :=
  ((65 <=? N_of_ascii c) && (N_of_ascii c <=? 90) || (97 <=? N_of_ascii c) && (N_of_ascii c <=? 122))%N.
Definition digitb (c : ascii) : bool := ((48 <=? N_of_ascii c) && (N_of_ascii c <=? 57))%N.
Lemma letterb_letter : forall c, letterb c = true -> letter c.
Proof.
  intros c H. unfold letterb in H. apply orb_true_iff in H. unfold letter, capital.
  rewrite !andb_true_iff, !N.leb_le in H. tauto.
Qed.
Lemma digitb_digit : forall c, digitb c = true -> digit c.
Proof. intros c H. unfold digitb in H. unfold digit. now rewrite andb_true_iff, !N.leb_le in H. Qed.

Fixpoint cut (p : ascii -> bool) (s : list ascii) : list ascii * list ascii :=
  match s with
  | [] => ([], [])
  | c :: t => if p c then let (a, b) := cut p t in (c :: a, b) else ([], s)
  end.
Lemma cut_app : forall p s a b, cut p s = (a, b) -> s = a ++ b /\ Forall (fun c => p c = true) a.
Proof.
  induction s as [|c s IH]; cbn [cut]; intros a b E; [injection E as <- <-; auto|].
  destruct (p c) eqn:P; [|injection E as <- <-; auto].
  destruct (cut p s) as [a' b']. injection E as <- <-. destruct (IH a' b' eq_refl) as [-> F]. auto.
Qed.

Definition particle_keyb (k : list ascii) : bool :=
  str_eqb k (tx "0") || match k with c :: _ => letterb c | [] => false end.
Definition compound_keyb (k : list ascii) : bool :=
  let (z, r) := cut digitb k in
  match z, r with
  | _ :: _, d :: r' =>
      Ascii.eqb d "-"%char &&
      (let (s, r'') := cut letterb r' in
       match s, r'' with
       | _ :: _, d' :: c :: t => Ascii.eqb d' "-"%char && letterb c && forallb (fun d => letterb d || digitb d) t
       | _, _ => false
       end)
  | _, _ => false
  end.
Lemma particle_keyb_ok : forall k, particle_keyb k = true -> particle_key k.
Proof.
  intros k H. unfold particle_keyb in H. apply orb_true_iff in H. destruct H as [H|H].
  - left. now apply str_eqb_eq.
  - right. destruct k as [|c t]; [discriminate|]. exists c, t. split; [reflexivity|]. now apply letterb_letter.
Qed.
Lemma compound_keyb_ok : forall k, compound_keyb k = true -> compound_key k.
Proof.
  intros k H. unfold compound_keyb in H. destruct (cut digitb k) as [z r] eqn:E1.
  apply cut_app in E1. destruct E1 as [-> F1]. destruct z as [|z0 z]; [discriminate|]. destruct r as [|d r]; [discriminate|].
  apply andb_true_iff in H. destruct H as [D H]. apply Ascii.eqb_eq in D as ->.
  destruct (cut letterb r) as [s q] eqn:E2. apply cut_app in E2. destruct E2 as [-> F2].
  destruct s as [|s0 s]; [discriminate|]. destruct q as [|d' [|c t]]; try discriminate.
  apply andb_true_iff in H. destruct H as [H T]. apply andb_true_iff in H. destruct H as [D H]. apply Ascii.eqb_eq in D as ->.
  exists (z0 :: z), (s0 :: s), c, t. split; [reflexivity|].
  split; [split; [discriminate|]|split; [split; [discriminate|]|split]].
  - eapply Forall_impl; [|exact F1]. intros a. apply digitb_digit.
  - eapply Forall_impl; [|exact F2]. intros a. apply letterb_letter.
  - now apply letterb_letter.
  - apply Forall_forall. intros d I. rewrite forallb_forall in T. specialize (T d I). apply orb_true_iff in T.
    destruct T as [T|T]; [left; now apply letterb_letter|right; now apply digitb_digit].
Qed.

Lemma shipped_keys : Forall particle_key (c_particles shipped) /\ Forall compound_key (c_compounds shipped).
Proof.
  split; apply Forall_forall; intros k I.
  - apply particle_keyb_ok. refine (proj1 (forallb_forall _ _) _ k I). vm_compute. reflexivity.
  - apply compound_keyb_ok. refine (proj1 (forallb_forall _ _) _ k I). vm_compute. reflexivity.
Qed.

(** ** Checks for concrete codes, used in examples *)
Definition capitalb (c : ascii) : bool := ((65 <=? N_of_ascii c) && (N_of_ascii c <=? 90))%N.
Lemma capitalb_ok : forall c, capitalb c = true -> capital c.
Proof. intros c H. unfold capitalb in H. unfold capital. now rewrite andb_true_iff, !N.leb_le in H. Qed.
Lemma forallb_Forall : forall (A : Type) (p : A -> bool) (P : A -> Prop) l,
  (forall x, p x = true -> P x) -> forallb p l = true -> Forall P l.
Proof. intros A p P l H F. apply Forall_forall. intros x I. apply H. exact (proj1 (forallb_forall _ _) F x I). Qed.
Definition nonemptyb (p : ascii -> bool) (s : list ascii) : bool := match s with [] => false | _ => forallb p s end.
Lemma nonemptyb_ok : forall p (P : ascii -> Prop) s, (forall c, p c = true -> P c) -> nonemptyb p s = true -> nonempty P s.
Proof. intros p P [|c s] H E; [discriminate|]. split; [discriminate|]. revert E. now apply forallb_Forall. Qed.

Definition isomerb (i : isomer) : bool :=
  cmem (i_op i) (tx "+-*/") && cmem (i_letter i) (tx "mMgGTL") && forallb digitb (i_number i).
Definition nuclideb (n : nuclide) : bool :=
  nonemptyb digitb (n_Z n) && nonemptyb digitb (n_A n) && forallb isomerb (n_iso n) &&
  match n_sym n with
  | [c] => capitalb c
  | [c; d] => capitalb c && letterb d
  | _ => false
  end.
Lemma isomerb_ok : forall i, isomerb i = true -> good_isomer i.
Proof.
  intros i H. unfold isomerb in H. rewrite !andb_true_iff in H. destruct H as [[H1 H2] H3].
  apply cmem_In in H1, H2. repeat split; auto. revert H3. apply forallb_Forall, digitb_digit.
Qed.
Lemma nuclideb_ok : forall n, nuclideb n = true -> good_nuclide n.
Proof.
  intros n H. unfold nuclideb in H. rewrite !andb_true_iff in H. destruct H as [[[H1 H2] H3] H4].
  split; [revert H1; apply nonemptyb_ok, digitb_digit|]. split; [revert H2; apply nonemptyb_ok, digitb_digit|].
  split; [revert H3; apply forallb_Forall, isomerb_ok|].
  destruct (n_sym n) as [|a [|b [|]]]; try discriminate.
  - exists a, []. split; auto. split; [now apply capitalb_ok|now left].
  - apply andb_true_iff in H4. destruct H4 as [H4 H5]. exists a, [b]. split; auto. split; [now apply capitalb_ok|].
    right. exists b. split; auto. now apply letterb_letter.
Qed.

Definition wordb (s : list ascii) : bool :=
  let (a, b) := cut letterb s in match a with [] => false | _ => forallb digitb b end.
Lemma wordb_ok : forall s, wordb s = true -> word s.
Proof.
  intros s H. unfold wordb in H. destruct (cut letterb s) as [a b] eqn:E. apply cut_app in E. destruct E as [-> F].
  destruct a as [|a0 a]; [discriminate|]. exists (a0 :: a), b. split; auto. split.
  - split; [discriminate|]. eapply Forall_impl; [|exact F]. intros c. apply letterb_letter.
  - revert H. apply forallb_Forall, digitb_digit.
Qed.

Definition wordcharb (c : ascii) : bool := letterb c || digitb c.
Definition productb (keys : list (list ascii)) (x : pcode) : bool :=
  match x with
  | CNuclide n => nuclideb n
  | CWord w => wordb w && match w with c :: _ :: _ => negb (Ascii.eqb c "X"%char) | _ => true end &&
               forallb (fun k => negb (str_eqb w (firstn (length w) k)) || forallb wordcharb k) keys
  | CMany c w => nonemptyb digitb c && wordb w
  end.
Lemma productb_ok : forall keys x, productb keys x = true -> good_product keys x.
Proof.
  intros keys [n|w|c w] H; cbn [productb good_product] in *.
  - now apply nuclideb_ok.
  - rewrite !andb_true_iff in H. destruct H as [[H1 H2] H3]. split; [now apply wordb_ok|]. split.
    + intros t ->. destruct t; [reflexivity|]. discriminate.
    + intros k t I E. rewrite forallb_forall in H3. specialize (H3 k I). apply orb_true_iff in H3. destruct H3 as [H3|H3].
      * exfalso. apply negb_true_iff in H3. rewrite E, firstn_app, Nat.sub_diag, firstn_all, firstn_O, app_nil_r in H3.
        now rewrite str_eqb_refl in H3.
      * revert H3. apply forallb_Forall. intros a Ha. unfold wordcharb in Ha. apply orb_true_iff in Ha.
        destruct Ha; [left; now apply letterb_letter|right; now apply digitb_digit].
  - apply andb_true_iff in H. destruct H as [H1 H2]. split; [|now apply wordb_ok]. revert H1. apply nonemptyb_ok, digitb_digit.
Qed.
Definition is_nuclide (x : pcode) : bool := match x with CNuclide _ => true | _ => false end.
Fixpoint no_early (l : list pcode) : bool :=
  match l with [] => true | [_] => true | x :: l' => negb (is_nuclide x) && no_early l' end.
Lemma no_early_ok : forall l, no_early l = true ->
  forall a x b, l = a ++ x :: b -> b <> [] -> forall n, x <> CNuclide n.
Proof.
  induction l as [|y l IH]; intros H a x b E NE n EN; [destruct a; discriminate|].
  destruct a as [|a0 a]; cbn [app] in E.
  - injection E as -> ->. destruct b; [contradiction|]. cbn [no_early] in H. subst x. discriminate.
  - injection E as -> E. destruct l as [|z l]; [destruct a; discriminate|].
    cbn [no_early] in H. apply andb_true_iff in H. destruct H as [_ H]. exact (IH H a x b E NE n EN).
Qed.
Definition quantitycharb (c : ascii) : bool := wordcharb c || cmem c (tx "/*+-").
Definition quantityb (w : list ascii) : bool :=
  match w with c :: t => letterb c && forallb quantitycharb t | [] => false end.
Definition reactionb (keys : list (list ascii)) (r : rcode) : bool :=
  nuclideb (rc_target r) &&
  match rc_projectile r with CNuclide n => nuclideb n | CWord w => wordb w || str_eqb w (tx "0") | CMany _ _ => false end &&
  match rc_products r with [] => false | _ => forallb (productb keys) (rc_products r) && no_early (rc_products r) end &&
  match rc_residual r with Some n => nuclideb n | None => true end &&
  forallb (fun q => match q with Some w => quantityb w | None => true end) (rc_quantities r).
Lemma reactionb_ok : forall keys r, reactionb keys r = true -> good_reaction keys r.
Proof.
  intros keys r H. unfold reactionb in H. rewrite !andb_true_iff in H. destruct H as [[[[H1 H2] H3] H4] H5].
  split; [now apply nuclideb_ok|]. split.
  { destruct (rc_projectile r) as [n|w|]; try discriminate; cbn [good_projectile]; [now apply nuclideb_ok|].
    apply orb_true_iff in H2. destruct H2; [left; now apply wordb_ok|right; now apply str_eqb_eq]. }
  split.
  { destruct (rc_products r) as [|x l]; [discriminate|]. apply andb_true_iff in H3. destruct H3 as [H3 H6].
    split; [discriminate|]. split; [revert H3; apply forallb_Forall, productb_ok|now apply no_early_ok]. }
  split.
  { intros n E. rewrite E in H4. now apply nuclideb_ok. }
  intros w I. rewrite forallb_forall in H5. specialize (H5 _ I). cbv beta iota in H5.
  destruct w as [|c t]; [discriminate|]. cbn [quantityb] in H5. apply andb_true_iff in H5. destruct H5 as [H5 H6].
  exists c, t. split; auto. split; [now apply letterb_letter|]. revert H6. apply forallb_Forall.
  intros a Ha. unfold quantitycharb, wordcharb in Ha. rewrite !orb_true_iff in Ha.
  destruct Ha as [[Ha|Ha]|Ha]; [left; now apply letterb_letter|right; left; now apply digitb_digit|right; right; now apply cmem_In].
Qed.

Definition gapb (c : ascii) : bool := existsb (N.eqb (N_of_ascii c)) [10; 13; 32]%N.
Lemma gapb_ok : forall c, gapb c = true -> gap c.
Proof. intros c H. apply existsb_exists in H. destruct H as (x & I & E). apply N.eqb_eq in E. unfold gap. now rewrite E. Qed.
Fixpoint spacedb (ts : list (list ascii)) (s : list ascii) : bool :=
  match ts with
  | [] => match s with [] => true | _ => false end
  | t :: ts' => let (_, r) := cut gapb s in
                str_eqb t (firstn (length t) r) && spacedb ts' (skipn (length t) r)
  end.
Lemma spacedb_ok : forall ts s, spacedb ts s = true -> spaced ts s.
Proof.
  induction ts as [|t ts IH]; intros s H; cbn [spacedb] in H.
  - destruct s; [constructor|discriminate].
  - destruct (cut gapb s) as [w r] eqn:E. apply cut_app in E. destruct E as [-> F].
    apply andb_true_iff in H. destruct H as [H1 H2]. apply str_eqb_eq in H1.
    rewrite <- (firstn_skipn (length t) r), <- H1. constructor; auto.
    eapply Forall_impl; [|exact F]. intros c. apply gapb_ok.
Qed.
