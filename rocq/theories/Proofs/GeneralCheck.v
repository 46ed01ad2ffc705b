(** Checks that reactions in full meet the hypotheses, for the examples. *)
From Coq Require Import String List Ascii NArith ZArith Bool Arith Lia.
From Verif.Model Require Import Py Dicts Particle Reaction Pyparsing Grammars.
From Verif.Spec Require Import Text Codes General Balance Known GeneralKnown WellWritten.
From Verif.Proofs Require Import StrLemmas ShippedLemmas GrammarGeneral KnownCheck.
Import ListNotations.
Local Open Scope string_scope.
Local Open Scope list_scope.
Local Open Scope nat_scope.

Lemma all_named : forall name more keys, has_names keys (map (fun k => (k, name :: more)) keys).
Proof.
  intros name more keys k I. exists (name :: more). split; [|discriminate].
  induction keys as [|k' keys IH]; [destruct I|]. cbn [map dget]. destruct (str_eqb k k') eqn:E; [reflexivity|].
  destruct I as [->|I]; [|now apply IH]. rewrite str_eqb_refl in E. discriminate.
Qed.

(** ** The codes of Spec/Known.v among them *)
Lemma known_in_full : forall r, known_reaction r -> known_general (general r).
Proof.
  intros r [KT KJ KP KR KL]. constructor; cbn [general gc_target gc_projectile gc_products gc_residual known_spot].
  - exact KT.
  - exact KJ.
  - apply Forall_map. exact KP.
  - intros x E. destruct (rc_residual r) as [n|]; [|discriminate]. cbn [option_map] in E. assert (x = Nucleus n) by congruence. subst. now apply KR.
  - destruct KL as [V|(z & zs & CI & CO & RG)].
    + left. apply Exists_exists in V. destruct V as (x & I & P). apply Exists_exists. exists (Out x). split; [now apply in_map|exact P].
    + right. right. inversion CI as [|? ? z1 zs1 C1 CI1]; subst. inversion CI1 as [|? ? z2 zs2 C2 CI2]; subst. inversion CI2; subst.
      assert (N : forall n z, charge (CNuclide n) z -> spot_charge (Nucleus n) z) by (intros n z C; inversion C; subst; now constructor).
      assert (SP : forall l m s, charges (l ++ m) s -> exists a b, outgoing_charges (map Out l) a /\ charges m b /\ s = (a + b)%Z).
      { induction l as [|x l IH]; intros m s C; [exists 0%Z, s; split; [constructor|auto]|]. cbn [app] in C. inversion C as [|? ? z zr Cx Cl]; subst.
        destruct (IH m zr Cl) as (a & b & A & B & ->). exists (z + a)%Z, b. split; [cbn [map]; now constructor|]. split; [exact B|lia]. }
      destruct (SP _ _ _ CO) as (a & b & A & B & ->).
      exists z1, z2, a, b. split; [now apply N|]. split; [exact C2|]. split; [exact A|]. split; [|left; lia].
      destruct (rc_residual r) as [n|]; cbn [option_map].
      * inversion B as [|? ? zn zr Cn Cr]; subst. inversion Cr; subst. rewrite Z.add_0_r. constructor. now apply N.
      * inversion B; subst. constructor.
Qed.
Lemma one_known : forall c r line text, good_reaction (c_particles c) r -> known_reaction r -> in_field (reaction_tokens r) line text -> one_reaction c text.
Proof.
  intros c r line text G K F. exists (general r), line. split; [now apply general_good|]. split; [now apply known_in_full|].
  now rewrite general_tokens_eq.
Qed.

(** ** Codes that are read as they are written *)
Definition good_spotb (sums compounds : list (list ascii)) (x : spot) : bool :=
  match x with Nucleus n => ShippedLemmas.nuclideb n | Compound k => smem k compounds | Sum w => smem w sums end.
Lemma good_spotb_ok : forall sums compounds x, good_spotb sums compounds x = true -> good_spot sums compounds x.
Proof. intros sums compounds [n|k|w] H; cbn [good_spotb good_spot] in *; [now apply ShippedLemmas.nuclideb_ok|now apply smem_In|now apply smem_In]. Qed.
Definition good_outgoingb (keys : list (list ascii)) (o : outgoing) : bool :=
  match o with
  | Out x => ShippedLemmas.productb keys x || match x with CWord w => str_eqb w (tx "0") | _ => false end
  | Extra w => smem w keys && wordb w && forallb (fun k => negb (str_eqb w (firstn (length w) k)) || forallb wordcharb (skipn (length w) k)) keys
  end.
Lemma good_outgoingb_ok : forall keys o, good_outgoingb keys o = true -> good_outgoing keys o.
Proof.
  intros keys [x|w] H; cbn [good_outgoingb good_outgoing] in *; [apply orb_true_iff in H; destruct H as [H|H]; [left; now apply ShippedLemmas.productb_ok|right; destruct x as [n|w|k w]; try discriminate; now apply str_eqb_eq in H as ->]|].
  rewrite !andb_true_iff in H. destruct H as [[H1 H2] H3]. split; [now apply smem_In|]. split; [now apply wordb_ok|].
  intros t I. rewrite forallb_forall in H3. specialize (H3 _ I).
  rewrite firstn_app, skipn_app, Nat.sub_diag, firstn_all, skipn_all, firstn_O, app_nil_r, str_eqb_refl in H3. cbn in H3.
  revert H3. apply forallb_Forall. intros a Ha. unfold wordcharb in Ha. apply orb_true_iff in Ha.
  destruct Ha; [left; now apply letterb_letter|right; now apply digitb_digit].
Qed.
Fixpoint no_early_out (l : list outgoing) : bool :=
  match l with [] => true | [_] => true | Out (CNuclide _) :: _ => false | _ :: l' => no_early_out l' end.
Lemma no_early_out_ok : forall l, no_early_out l = true -> forall a x b, l = a ++ x :: b -> b <> [] -> forall n, x <> Out (CNuclide n).
Proof.
  induction l as [|y l IH]; intros H a x b E NE n EN; [destruct a; discriminate|].
  destruct a as [|a0 a]; cbn [app] in E.
  - assert (y = x /\ l = b) as [-> ->] by (split; congruence). subst x. destruct b; [contradiction|discriminate].
  - assert (y = a0 /\ l = a ++ x :: b) as [-> E'] by (split; congruence). subst x. destruct l as [|z l]; [destruct a; discriminate|].
    apply (IH ltac:(destruct a0 as [[]|]; try discriminate; exact H) a _ b E' NE n eq_refl).
Qed.
Definition quantity_charb (c : ascii) : bool := wordcharb c || cmem c (tx "/*+-").
Definition bare (m : remark) : bool := match m with Bare _ => true | Paren _ => false end.
Fixpoint no_run (q : list remark) : bool :=
  match q with Bare _ :: ((Bare _ :: _) as q') => false | _ :: q' => no_run q' | [] => true end.
Lemma no_run_ok : forall q, no_run q = true -> forall a u v b, q <> a ++ Bare u :: Bare v :: b.
Proof.
  induction q as [|m q IH]; intros H a u v b E; [destruct a; discriminate|]. destruct a as [|a0 a]; cbn [app] in E.
  - assert (m = Bare u /\ q = Bare v :: b) as [-> ->] by (split; congruence). discriminate.
  - assert (q = a ++ Bare u :: Bare v :: b) as E' by congruence. apply (IH ltac:(destruct m; [destruct q as [|[] ?]; try discriminate; exact H|exact H]) _ _ _ _ E').
Qed.
Definition good_partb (q : list remark) : bool := forallb (fun m => nonemptyb quantity_charb (remark_word m)) q && no_run q.
Lemma good_partb_ok : forall q, good_partb q = true -> good_part q.
Proof.
  intros q H. apply andb_true_iff in H. destruct H as [H1 H2]. split; [|now apply no_run_ok].
  intros m I. rewrite forallb_forall in H1. specialize (H1 m I). revert H1. apply nonemptyb_ok.
  intros a Ha. unfold quantity_charb, wordcharb in Ha. rewrite !orb_true_iff in Ha.
  destruct Ha as [[Ha|Ha]|Ha]; [left; now apply letterb_letter|right; left; now apply digitb_digit|right; right; now apply cmem_In].
Qed.
Definition good_generalb (particles compounds : list (list ascii)) (r : gcode) : bool :=
  good_spotb target_sums compounds (gc_target r) &&
  match gc_projectile r with CNuclide n => ShippedLemmas.nuclideb n | CWord w => wordb w || str_eqb w (tx "0") | CMany _ _ => false end &&
  match gc_products r with [] => false | _ => forallb (good_outgoingb particles) (gc_products r) && no_early_out (gc_products r) end &&
  match gc_residual r with Some x => good_spotb residual_sums compounds x | None => true end &&
  forallb good_partb (gc_quantities r).
Lemma good_generalb_ok : forall particles compounds r, good_generalb particles compounds r = true -> good_general particles compounds r.
Proof.
  intros particles compounds r H. unfold good_generalb in H. rewrite !andb_true_iff in H. destruct H as [[[[H1 H2] H3] H4] H5].
  split; [now apply good_spotb_ok|]. split.
  { destruct (gc_projectile r) as [n|w|]; try discriminate; cbn [good_projectile]; [now apply ShippedLemmas.nuclideb_ok|].
    apply orb_true_iff in H2. destruct H2; [left; now apply wordb_ok|right; now apply str_eqb_eq]. }
  split.
  { destruct (gc_products r) as [|x l]; [discriminate|]. apply andb_true_iff in H3. destruct H3 as [H3 H6].
    split; [discriminate|]. split; [revert H3; apply forallb_Forall, good_outgoingb_ok|now apply no_early_out_ok]. }
  split; [intros x E; rewrite E in H4; now apply good_spotb_ok|]. revert H5. apply forallb_Forall, good_partb_ok.
Qed.

(** ** Known codes; what is left is not worked out, or the compound does not matter *)
Definition known_spotb (x : spot) : bool := match x with Nucleus n => KnownCheck.nuclideb n | _ => true end.
Definition known_outgoingb (o : outgoing) : bool := match o with Out x => KnownCheck.productb x | Extra w => codeb w particle_codes end.
Definition vagueb (o : outgoing) : bool := match o with Out x => processb x | Extra _ => true end.
Definition spot_charge_of (x : spot) : option Z :=
  match x with
  | Nucleus n => numeral (n_Z n)
  | Compound k => let (z, r) := cut digitb k in let (s, t) := cut letterb (tl r) in
                  match z, s, r, t with
                  | _ :: _, _ :: _, a :: _, b :: _ => if Ascii.eqb a "-" && Ascii.eqb b "-" then numeral z else None
                  | _, _, _, _ => None
                  end
  | Sum _ => Some (-3000)%Z
  end.
Fixpoint outgoing_charges_of (l : list outgoing) : option Z :=
  match l with
  | [] => Some 0%Z
  | Out x :: l => match charge_of x, outgoing_charges_of l with Some z, Some zs => Some (z + zs)%Z | _, _ => None end
  | Extra _ :: _ => None
  end.
Definition known_generalb (r : gcode) : bool :=
  known_spotb (gc_target r) && projectileb (gc_projectile r) && forallb known_outgoingb (gc_products r) &&
  match gc_residual r with Some x => known_spotb x | None => true end &&
  (existsb vagueb (gc_products r) || match gc_residual r with Some (Compound _) => true | _ => false end ||
   match spot_charge_of (gc_target r), charge_of (gc_projectile r), outgoing_charges_of (gc_products r),
         match gc_residual r with Some x => spot_charge_of x | None => Some 0%Z end with
   | Some a, Some b, Some c, Some d => (((0 <=? a + b - (c + d)) && (a + b - (c + d) <? 119)) || (1000 <? Z.abs (a + b - (c + d))))%Z
   | _, _, _, _ => false
   end).
Lemma spot_charge_of_ok : forall x z, spot_charge_of x = Some z -> spot_charge x z.
Proof.
  intros [n|k|w] z H; cbn [spot_charge_of] in H.
  - constructor. now apply numeral_ok.
  - destruct (cut digitb k) as [a r] eqn:E1. destruct (cut letterb (tl r)) as [s t] eqn:E2.
    destruct a as [|a0 a]; [discriminate|]. destruct s as [|s0 s]; [discriminate|]. destruct r as [|c r]; [discriminate|]. destruct t as [|d t]; [discriminate|].
    destruct (Ascii.eqb c "-" && Ascii.eqb d "-") eqn:E; [|discriminate]. apply andb_true_iff in E. destruct E as [Ec Ed].
    apply Ascii.eqb_eq in Ec, Ed. subst c d. apply cut_app in E1, E2. destruct E1 as [-> F1], E2 as [E2 F2]. cbn [tl] in E2. subst r.
    apply (charge_of_compound _ (a0 :: a) (s0 :: s)); [|now apply numeral_ok]. exists t. split; [reflexivity|]. split; (split; [discriminate|]).
    + eapply Forall_impl; [|exact F1]. intros x. apply digitb_digit.
    + eapply Forall_impl; [|exact F2]. intros x. apply letterb_letter.
  - assert (z = (-3000)%Z) by congruence. subst. constructor.
Qed.
Lemma outgoing_charges_of_ok : forall l z, outgoing_charges_of l = Some z -> outgoing_charges l z.
Proof.
  induction l as [|[x|w] l IH]; intros z H; cbn [outgoing_charges_of] in H; [injection H as <-; constructor| |discriminate].
  destruct (charge_of x) as [z1|] eqn:E1; [|discriminate]. destruct (outgoing_charges_of l) as [z2|] eqn:E2; [|discriminate].
  injection H as <-. constructor; [now apply charge_of_ok|now apply IH].
Qed.
Lemma known_spotb_ok : forall x, known_spotb x = true -> known_spot x.
Proof. intros [n|k|w] H; cbn [known_spotb known_spot] in *; auto. now apply KnownCheck.nuclideb_ok. Qed.
Lemma known_generalb_ok : forall r, known_generalb r = true -> known_general r.
Proof.
  intros r H. unfold known_generalb in H. rewrite !andb_true_iff in H. destruct H as [[[[H1 H2] H3] H4] H5]. constructor.
  - now apply known_spotb_ok.
  - now apply projectileb_ok.
  - apply Forall_forall. intros x I. pose proof (proj1 (forallb_forall _ _) H3 x I) as E.
    destruct x as [x|w]; cbn [known_outgoingb known_outgoing] in *; [now apply KnownCheck.productb_ok|now apply codeb_ok in E].
  - intros x E. rewrite E in H4. now apply known_spotb_ok.
  - rewrite !orb_true_iff in H5. destruct H5 as [[H5|H5]|H5].
    + left. apply existsb_exists in H5. destruct H5 as (x & I & E). apply Exists_exists. exists x. split; [exact I|].
      destruct x as [x|w]; cbn [vagueb vague] in *; auto. now apply processb_ok.
    + right. left. destruct (gc_residual r) as [[|k|]|]; try discriminate. eauto.
    + right. right. destruct (spot_charge_of (gc_target r)) as [a|] eqn:E1; [|discriminate].
      destruct (charge_of (gc_projectile r)) as [b|] eqn:E2; [|discriminate].
      destruct (outgoing_charges_of (gc_products r)) as [c|] eqn:E3; [|discriminate].
      destruct (match gc_residual r with Some x => spot_charge_of x | None => Some 0%Z end) as [d|] eqn:E4; [|discriminate].
      exists a, b, c, d. split; [now apply spot_charge_of_ok|]. split; [now apply charge_of_ok|]. split; [now apply outgoing_charges_of_ok|].
      split; [|rewrite orb_true_iff in H5; lia].
      destruct (gc_residual r) as [x|]; [constructor; now apply spot_charge_of_ok|].
      assert (d = 0%Z) by congruence. subst. constructor.
Qed.
