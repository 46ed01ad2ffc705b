(** Checks that reactions and texts meet the hypotheses on known reactions, for the examples. *)
From Coq Require Import String List Ascii NArith ZArith Bool Arith Lia.
From Verif.Model Require Import Py Particle Reaction.
From Verif.Spec Require Import Text Codes Balance Known.
From Verif.Proofs Require Import StrLemmas ShippedLemmas DocumentCheck.
Import ListNotations.
Local Open Scope string_scope.
Local Open Scope list_scope.
Local Open Scope nat_scope.

(** A text [s] of tokens, blanks [w], and one line [k] that does not go on with an operator. *)
Definition in_fieldb (ts : list (list ascii)) (s w k : list ascii) : bool :=
  spacedb ts s && forallb (fun c => existsb (N.eqb (N_of_ascii c)) [10; 13; 32]%N) w &&
  forallb (fun c => negb (N_of_ascii c =? 10)%N) k &&
  match k with [] => true | a :: _ => negb (existsb (N.eqb (N_of_ascii a)) [10; 13; 32]%N) && negb (cmem a (tx "*/=+-")) end &&
  negb (cmem (ascii_of_N 9) (s ++ w ++ k)).
Lemma gapb_iff : forall c, existsb (N.eqb (N_of_ascii c)) [10; 13; 32]%N = true <-> gap c.
Proof.
  intros c. unfold gap. rewrite existsb_exists. split.
  - intros (x & I & E). apply N.eqb_eq in E. now subst.
  - intros I. exists (N_of_ascii c). split; [exact I|apply N.eqb_refl].
Qed.
Lemma gap_no_operator : forall c, gap c -> ~ In c (tx "*/=+-").
Proof. intros c G I. unfold gap in G. vm_compute in I. repeat destruct I as [<-|I]; vm_compute in G; intuition discriminate. Qed.
Lemma in_fieldb_ok : forall ts s w k, in_fieldb ts s w k = true -> in_field ts k (s ++ w ++ k).
Proof.
  intros ts s w k H. unfold in_fieldb in H. rewrite !andb_true_iff in H. destruct H as [[[[H1 H2] H3] H4] H5].
  exists s, w, k. split; [reflexivity|]. split; [now apply spacedb_ok|].
  assert (W : Forall gap w) by (apply Forall_forall; intros c I; apply gapb_iff; exact (proj1 (forallb_forall _ _) H2 c I)).
  split; [exact W|].
  assert (K : forall a t, k = a :: t -> ~ gap a /\ ~ In a (tx "*/=+-")).
  { intros a t ->. rewrite andb_true_iff, !negb_true_iff in H4. destruct H4 as [A B]. split.
    - intros G. apply gapb_iff in G. congruence.
    - intros I. apply cmem_In in I. congruence. }
  split; [intros a t E; apply (K a t E)|]. split.
  - intros w' c t W' E. clear H2 H5. revert w W w' W' E. clear - K.
    induction w as [|x w IH]; intros W w' W' E.
    + cbn [app] in E. destruct w' as [|y w'].
      * cbn [app] in E. apply (K c t E).
      * exfalso. cbn [app] in E. destruct (K y _ E) as [N _]. inversion W'; subst. contradiction.
    + inversion W; subst. destruct w' as [|y w']; cbn [app] in E.
      * injection E as -> E. now apply gap_no_operator.
      * injection E as -> E. inversion W'; subst. eapply IH; eauto.
  - split; [split; [|now left]|].
    + apply Forall_forall. intros c I. pose proof (proj1 (forallb_forall _ _) H3 c I) as E. cbn beta in E. apply negb_true_iff, N.eqb_neq in E. exact E.
    + intros I. apply cmem_In in I. rewrite I in H5. discriminate.
Qed.

(** Known codes and their charges. *)
Definition nuclideb (n : nuclide) : bool := length (n_iso n) <=? 1.
Definition codeb {A} (w : list ascii) (l : list (string * A)) : bool := existsb (fun c => str_eqb w (tx (fst c))) l.
Definition projectileb (x : pcode) : bool :=
  match x with CNuclide n => nuclideb n | CWord w => str_eqb w (tx "0") || codeb w particle_codes | CMany _ _ => false end.
Definition processb (x : pcode) : bool := match x with CWord w => codeb w process_codes | _ => false end.
Definition productb (x : pcode) : bool :=
  processb x || match x with CNuclide n => nuclideb n | CWord w | CMany _ w => codeb w particle_codes end.
Definition numeral (w : list ascii) : option Z :=
  let n := Z.of_N (value10 (map digit_of w)) in if numberb w n then Some n else None.
Definition charge_of (x : pcode) : option Z :=
  match x with
  | CNuclide n => numeral (n_Z n)
  | CWord w => if str_eqb w (tx "0") then Some 0%Z
               else match find (fun c => str_eqb w (tx (fst c))) particle_codes with Some (_, (z, _)) => Some z | None => None end
  | CMany k w => match numeral k, find (fun c => str_eqb w (tx (fst c))) particle_codes with
                 | Some k, Some (_, (z, _)) => Some (k * z)%Z | _, _ => None end
  end.
Fixpoint charges_of (l : list pcode) : option Z :=
  match l with
  | [] => Some 0%Z
  | x :: l => match charge_of x, charges_of l with Some z, Some zs => Some (z + zs)%Z | _, _ => None end
  end.
Definition knownb (r : rcode) : bool :=
  let out := rc_products r ++ match rc_residual r with Some n => [CNuclide n] | None => [] end in
  nuclideb (rc_target r) && projectileb (rc_projectile r) && forallb productb (rc_products r) &&
  match rc_residual r with Some n => nuclideb n | None => true end &&
  (existsb processb (rc_products r) ||
   match charges_of [CNuclide (rc_target r); rc_projectile r], charges_of out with
   | Some z, Some zs => ((0 <=? z - zs) && (z - zs <? 119))%Z
   | _, _ => false
   end).

Lemma nuclideb_ok : forall n, nuclideb n = true -> known_nuclide n.
Proof. intros n H. unfold nuclideb in H. unfold known_nuclide. destruct (n_iso n) as [|i [|j l]]; [now left|right; eauto|discriminate]. Qed.
Lemma codeb_ok : forall A w (l : list (string * A)), codeb w l = true -> exists c, In c (map fst l) /\ w = tx c.
Proof.
  intros A w l H. unfold codeb in H. apply existsb_exists in H. destruct H as (c & I & E). apply str_eqb_eq in E.
  exists (fst c). split; [now apply in_map|exact E].
Qed.
Lemma projectileb_ok : forall x, projectileb x = true -> known_projectile x.
Proof.
  intros [n|w|k w] H; cbn [projectileb] in H.
  - now apply nuclideb_ok.
  - apply orb_true_iff in H. destruct H as [H|H]; [left; now apply str_eqb_eq in H|right; now apply codeb_ok in H].
  - discriminate.
Qed.
Lemma processb_ok : forall x, processb x = true -> process_code x.
Proof.
  intros [n|w|k w] H; try discriminate. apply codeb_ok in H. destruct H as (c & I & ->). exists c. auto.
Qed.
Lemma productb_ok : forall x, productb x = true -> known_product x.
Proof.
  intros x H. unfold productb in H. apply orb_true_iff in H. destruct H as [H|H]; [left; now apply processb_ok|right].
  destruct x as [n|w|k w]; [now apply nuclideb_ok|now apply codeb_ok in H|now apply codeb_ok in H].
Qed.
Lemma numeral_ok : forall w z, numeral w = Some z -> number_is w z.
Proof.
  intros w z H. unfold numeral in H. cbv zeta in H. destruct (numberb w _) eqn:E in H; [|discriminate].
  apply numberb_ok in E. congruence.
Qed.
Lemma find_code : forall w (c : string * (Z * Z)), find (fun c => str_eqb w (tx (fst c))) particle_codes = Some c -> In c particle_codes /\ w = tx (fst c).
Proof. intros w c H. apply find_some in H. destruct H as [I E]. apply str_eqb_eq in E. auto. Qed.
Lemma charge_of_ok : forall x z, charge_of x = Some z -> charge x z.
Proof.
  intros [n|w|k w] z H; cbn [charge_of] in H.
  - now apply charge_nuclide, numeral_ok.
  - destruct (str_eqb w (tx "0")) eqn:E.
    + apply str_eqb_eq in E. subst. injection H as <-. constructor.
    + destruct (find (fun c => str_eqb w (tx (fst c))) particle_codes) as [[c [z' a]]|] eqn:F; [|discriminate].
      apply find_code in F. destruct F as [I ->]. injection H as <-. now apply (charge_particle c z' a).
  - destruct (numeral k) as [q|] eqn:E; [|discriminate]. apply numeral_ok in E.
    destruct (find (fun c => str_eqb w (tx (fst c))) particle_codes) as [[c [z' a]]|] eqn:F; [|discriminate].
    apply find_code in F. destruct F as [I ->]. injection H as <-. now apply (charge_many k q c z' a).
Qed.
Lemma charges_of_ok : forall l z, charges_of l = Some z -> charges l z.
Proof.
  induction l as [|x l IH]; intros z H; cbn [charges_of] in H; [injection H as <-; constructor|].
  destruct (charge_of x) as [z1|] eqn:E1; [|discriminate]. destruct (charges_of l) as [z2|] eqn:E2; [|discriminate].
  injection H as <-. constructor; [now apply charge_of_ok|now apply IH].
Qed.
Lemma knownb_ok : forall r, knownb r = true -> known_reaction r.
Proof.
  intros r H. unfold knownb in H. cbv zeta in H. rewrite !andb_true_iff in H. destruct H as [[[[H1 H2] H3] H4] H5]. constructor.
  - now apply nuclideb_ok.
  - now apply projectileb_ok.
  - apply Forall_forall. intros x I. apply productb_ok. exact (proj1 (forallb_forall _ _) H3 x I).
  - intros n E. rewrite E in H4. now apply nuclideb_ok.
  - apply orb_true_iff in H5. destruct H5 as [H5|H5].
    + left. apply existsb_exists in H5. destruct H5 as (x & I & E). apply Exists_exists. exists x. split; [exact I|now apply processb_ok].
    + right. destruct (charges_of [CNuclide (rc_target r); rc_projectile r]) as [z|] eqn:E1; [|discriminate].
      destruct (charges_of (rc_products r ++ _)) as [zs|] eqn:E2 in H5; [|discriminate].
      exists z, zs. split; [now apply charges_of_ok|]. split; [now apply charges_of_ok|]. lia.
Qed.
