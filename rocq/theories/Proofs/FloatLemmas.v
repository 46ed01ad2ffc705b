(** Facts about IEEE doubles (SpecFloat) and withinXPercent. *)
From Coq Require Import String List Ascii NArith ZArith Bool Arith Lia.
From Coq Require Import Floats.SpecFloat.
From Verif.Model Require Import Py PyFloat Utilities.
Import ListNotations.
Local Open Scope list_scope.

(** ** commutativity *)

Lemma fadd_comm : forall a b, fadd a b = fadd b a.
Proof.
  intros a b. unfold fadd, SFadd.
  destruct a as [[|]|[|]| |sx mx ex]; destruct b as [[|]|[|]| |sy my ey]; try reflexivity.
  rewrite (Z.min_comm ex ey). now rewrite Z.add_comm.
Qed.

(** ** sign of a rounded result *)

Definition fsign_is (s : bool) (x : float) : Prop :=
  match x with
  | S754_zero t | S754_infinity t | S754_finite t _ _ => t = s
  | S754_nan => False
  end.

Lemma shr_1_nonneg : forall r, (0 <= shr_m r)%Z -> (0 <= shr_m (shr_1 r))%Z.
Proof. intros [m r s] H. cbn in *. destruct m as [|[p|p|]|p]; cbn; lia. Qed.

Lemma iter_pos_inv : forall (A : Type) (P : A -> Prop) f, (forall x, P x -> P (f x)) ->
  forall n x, P x -> P (iter_pos f n x).
Proof. intros A P f H. induction n; intros x Hx; cbn; auto. Qed.

Lemma shr_nonneg : forall r e n, (0 <= shr_m r)%Z -> (0 <= shr_m (fst (shr r e n)))%Z.
Proof.
  intros r e n H. unfold shr. destruct n; cbn [fst]; auto.
  apply (iter_pos_inv _ (fun r => (0 <= shr_m r)%Z)); auto. apply shr_1_nonneg.
Qed.

Lemma round_ne_nonneg : forall m l, (0 <= m)%Z -> (0 <= round_nearest_even m l)%Z.
Proof.
  intros m l H. unfold round_nearest_even. destruct l as [|[| |]]; try lia. destruct (Z.even m); lia.
Qed.

Lemma loc_record_m : forall m l, shr_m (shr_record_of_loc m l) = m.
Proof. intros m [|[| |]]; reflexivity. Qed.

Lemma round_aux_sign : forall sx m e l, (0 <= m)%Z ->
  fsign_is sx (binary_round_aux fprec femax sx m e l).
Proof.
  intros sx m e l H. unfold binary_round_aux.
  destruct (shr_fexp fprec femax m e l) as [r1 e1] eqn:E1.
  assert (0 <= shr_m r1)%Z as H1.
  { unfold shr_fexp in E1. replace r1 with (fst (r1, e1)) by reflexivity. rewrite <- E1.
    apply shr_nonneg. now rewrite loc_record_m. }
  destruct (shr_fexp fprec femax (round_nearest_even (shr_m r1) (loc_of_shr_record r1)) e1 loc_Exact)
    as [r2 e2] eqn:E2.
  assert (0 <= shr_m r2)%Z as H2.
  { unfold shr_fexp in E2. replace r2 with (fst (r2, e2)) by reflexivity. rewrite <- E2.
    apply shr_nonneg. rewrite loc_record_m. now apply round_ne_nonneg. }
  destruct (shr_m r2); try lia; try reflexivity.
  destruct (Z.leb e2 (femax - fprec)); cbn; auto.
Qed.

Lemma round_sign : forall sx m e, fsign_is sx (binary_round fprec femax sx m e).
Proof.
  intros. unfold binary_round. destruct (shl_align _ _ _). apply round_aux_sign. lia.
Qed.

Lemma round_aux_abs : forall s1 s2 m e l,
  fabs (binary_round_aux fprec femax s1 m e l) = fabs (binary_round_aux fprec femax s2 m e l).
Proof.
  intros. unfold binary_round_aux.
  destruct (shr_fexp fprec femax m e l) as [r1 e1].
  destruct (shr_fexp fprec femax (round_nearest_even (shr_m r1) (loc_of_shr_record r1)) e1 loc_Exact) as [r2 e2].
  destruct (shr_m r2); auto. destruct (Z.leb e2 (femax - fprec)); reflexivity.
Qed.

Lemma normalize_abs : forall z e b b',
  fabs (binary_normalize fprec femax (- z) e b) = fabs (binary_normalize fprec femax z e b').
Proof.
  intros z e b b'. destruct z as [|p|p]; cbn [Z.opp binary_normalize]; auto;
  unfold binary_round; destruct (shl_align _ _ _); apply round_aux_abs.
Qed.

Lemma fabs_sub_comm : forall a b, fabs (fsub a b) = fabs (fsub b a).
Proof.
  intros a b. unfold fsub, SFsub.
  destruct a as [[|]|[|]| |sx mx ex]; destruct b as [[|]|[|]| |sy my ey]; try reflexivity;
    try (destruct sx; reflexivity); try (destruct sy; reflexivity).
  rewrite (Z.min_comm ey ex).
  set (ez := Z.min ex ey).
  set (p := cond_Zopp sx _). set (q := cond_Zopp sy _).
  replace (q - p)%Z with (- (p - q))%Z by lia. symmetry. apply normalize_abs.
Qed.

Lemma within_sym : forall a b p t, withinXPercent a b p t = withinXPercent b a p t.
Proof.
  intros. unfold withinXPercent.
  rewrite (fadd_comm b a), (fadd_comm (fabs b) (fabs a)), (fabs_sub_comm b a). reflexivity.
Qed.

(** ** no exception *)

Lemma feqb_zero : forall x, feqb x fzero = is_fzero x.
Proof. intros [s|[|]| |[|] m e]; reflexivity. Qed.

Lemma is_fzero_abs : forall x, is_fzero (fabs x) = is_fzero x.
Proof. intros [s|s| |s m e]; reflexivity. Qed.

Lemma fl100_nonzero : is_fzero (fl 100 0) = false.
Proof. reflexivity. Qed.

Lemma within_total : forall a b p t, exists r, withinXPercent a b p t = Ok r.
Proof.
  intros. unfold withinXPercent. rewrite feqb_zero.
  destruct (is_fzero (fadd a b)) eqn:E; [eauto|].
  destruct (fltb _ _); [eauto|].
  unfold pydiv at 1. rewrite is_fzero_abs, E. cbn [bind].
  unfold pydiv. rewrite fl100_nonzero. cbn [bind]. eauto.
Qed.

(** ** reflexivity *)

Definition finite (x : float) : Prop :=
  match x with S754_zero _ | S754_finite _ _ _ => True | _ => False end.

Lemma fsub_diag : forall a, finite a -> fabs (fsub a a) = fzero.
Proof.
  intros [s|s| |s m e] H; try contradiction; unfold fsub, SFsub.
  - destruct s; reflexivity.
  - rewrite Z.min_id. rewrite Z.sub_diag. reflexivity.
Qed.

Lemma div_core_nonneg : forall m1 e1 m2 e2,
  (0 <= fst (fst (SFdiv_core_binary fprec femax (Zpos m1) e1 (Zpos m2) e2)))%Z.
Proof.
  intros. unfold SFdiv_core_binary.
  set (m' := match _ with Z0 => _ | Zpos _ => _ | Zneg _ => _ end).
  assert (0 <= m')%Z as H.
  { unfold m'. destruct (e1 - e2 - _)%Z; try lia. apply Z.shiftl_nonneg. lia. }
  clearbody m'. pose proof (Z_div_mod m' (Zpos m2) ltac:(lia)) as K.
  destruct (Z.div_eucl m' (Z.pos m2)) as [q r]. cbn [fst]. nia.
Qed.

(** A number that is zero or has sign plus, and is not a NaN. *)
Lemma fleb_zero_pos : forall x, fsign_is false x -> fleb fzero x = true.
Proof. intros [s|s| |s m e] H; cbn in *; subst; try reflexivity; contradiction. Qed.

Lemma div_nonneg : forall x, fleb fzero x = true -> fleb fzero (fdiv x (fl 100 0)) = true.
Proof.
  intros x H. change (fl 100 0) with (S754_finite false 7036874417766400 (-46)).
  destruct x as [[|]|[|]| |[|] m e]; try discriminate; try reflexivity.
  apply fleb_zero_pos. unfold fdiv, SFdiv.
  pose proof (div_core_nonneg m e 7036874417766400 (-46)) as K.
  destruct (SFdiv_core_binary fprec femax (Z.pos m) e 7036874417766400 (-46)) as [[q ez] l].
  now apply round_aux_sign.
Qed.

Lemma within_refl : forall a p t, finite a -> fleb fzero p = true -> withinXPercent a a p t = Ok true.
Proof.
  intros a p t Ha Hp. unfold withinXPercent. rewrite feqb_zero.
  destruct (is_fzero (fadd a a)) eqn:E; auto.
  destruct (fltb _ _); auto.
  rewrite fsub_diag by auto. unfold pydiv at 1. rewrite is_fzero_abs, E. cbn [bind].
  unfold pydiv. rewrite fl100_nonzero. cbn [bind]. f_equal.
  replace (fmul fzero (fl 2 0)) with fzero by reflexivity.
  assert (fdiv fzero (fabs (fadd a a)) = fzero) as ->.
  { destruct (fadd a a) as [s|s| |s m e] eqn:K; try discriminate; try reflexivity.
    exfalso. destruct a as [s|s| |s m e]; try contradiction.
    - destruct s; discriminate.
    - unfold fadd, SFadd in K. revert K. generalize (Z.min e e). intro ez.
      set (z := (_ + _)%Z). unfold binary_normalize. destruct z; try discriminate.
      + pose proof (round_sign false p0 ez) as R. intro K. rewrite K in R. exact R.
      + pose proof (round_sign true p0 ez) as R. intro K. rewrite K in R. exact R. }
  now apply div_nonneg.
Qed.

Lemma all_within_total : forall aL bL p t, exists r, allWithinXPercent aL bL p t = Ok r.
Proof.
  intros. unfold allWithinXPercent. destruct (negb _); [eauto|].
  assert (forall l, exists bs, map_res (fun x => withinXPercent (fst x) (snd x) p t) l = Ok bs) as K.
  { induction l as [|x l (bs & IH)]; cbn; [eauto|].
    destruct (within_total (fst x) (snd x) p t) as (r & ->). cbn. rewrite IH. cbn. eauto. }
  destruct (K (combine aL bL)) as (bs & ->). cbn. eauto.
Qed.

Lemma all_within_iff : forall aL bL p t,
  allWithinXPercent aL bL p t = Ok true <->
  Forall2 (fun a b => withinXPercent a b p t = Ok true) aL bL.
Proof.
  intros aL bL p t. unfold allWithinXPercent.
  destruct (length aL =? length bL) eqn:L; cbn [negb].
  - apply Nat.eqb_eq in L. revert bL L. induction aL as [|a aL IH]; intros [|b bL] L; try discriminate.
    + cbn. split; auto.
    + cbn [combine map_res]. cbn in L. injection L as L. specialize (IH bL L).
      destruct (within_total a b p t) as (r & Hr). cbn [fst snd]. rewrite Hr. cbn [bind].
      destruct (map_res _ (combine aL bL)) as [bs|e] eqn:M; cbn in *.
      * destruct r; cbn.
        -- rewrite IH. split; intro H; [constructor; auto|now inversion H].
        -- split; [discriminate|]. intro H. inversion H; subst. congruence.
      * split; [discriminate|]. intro H. inversion H; subst. apply IH in H5. discriminate.
  - apply Nat.eqb_neq in L. split; [discriminate|]. intro H. exfalso. apply L. clear L. induction H; cbn; auto.
Qed.

Lemma fadd_opp : forall a, finite a -> is_fzero (fadd a (SFopp a)) = true.
Proof.
  intros [s|s| |s m e] H; try contradiction; unfold fadd, SFadd, SFopp.
  - destruct s; reflexivity.
  - rewrite Z.min_id.
    assert (forall x, (cond_Zopp s x + cond_Zopp (negb s) x)%Z = 0%Z) as K by (intro; destruct s; cbn; lia).
    now rewrite K.
Qed.

Lemma within_opp : forall a p t, finite a -> withinXPercent a (SFopp a) p t = Ok true.
Proof. intros. unfold withinXPercent. now rewrite feqb_zero, fadd_opp. Qed.
