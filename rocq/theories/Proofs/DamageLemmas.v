(** Which exceptions reading can end with. *)
From Coq Require Import String List Ascii NArith ZArith Bool Arith Lia.
From Verif.Model Require Import Py PyFloat Utilities Dicts Particle Reaction Field Section Entry Pyparsing Grammars Shipped.
From Verif.Spec Require Import Text Codes WellWritten Damage.
From Verif.Proofs Require Import StrLemmas NumLemmas IntLemmas DictLemmas GrammarLemmas GeneralLemmas GroupLemmas.
Import ListNotations.
Local Open Scope string_scope.
Local Open Scope list_scope.
Local Open Scope nat_scope.

(** The value satisfies [P], or the exception is in the list. *)
Definition okp {A} (l : list exn) (P : A -> Prop) (r : res A) : Prop :=
  match r with Ok a => P a | Raise x => In x l end.
Definition yes {A} (_ : A) : Prop := True.

Lemma okp_ends : forall A l (P : A -> Prop) r, okp l P r -> ends_with l r.
Proof. intros A l P [a|x] H; [left; eauto|right; eauto]. Qed.
Lemma ends_okp : forall A l (r : res A), ends_with l r -> okp l yes r.
Proof. intros A l r [[a ->]|(x & -> & I)]; [exact I|exact I]. Qed.
Lemma okp_imp : forall A l l' (P Q : A -> Prop) r, okp l P r -> incl l l' -> (forall a, P a -> Q a) -> okp l' Q r.
Proof. intros A l l' P Q [a|x] H I J; cbn in *; auto. Qed.
Lemma okp_incl : forall A l l' (P : A -> Prop) r, okp l P r -> incl l l' -> okp l' P r.
Proof. intros A l l' P r H I. exact (okp_imp _ _ _ _ _ _ H I (fun _ x => x)). Qed.
Lemma okp_bind : forall A B l (P : A -> Prop) (Q : B -> Prop) m k, okp l P m -> (forall a, P a -> okp l Q (k a)) -> okp l Q (bind m k).
Proof. intros A B l P Q [a|x] k H K; cbn in *; auto. Qed.
Lemma okp_option : forall A l x (o : option A), In x l -> okp l yes (of_option x o).
Proof. intros A l x [a|] I; cbn; [exact Logic.I|exact I]. Qed.
Lemma okp_idx : forall A l (P : A -> Prop) (s : list A) i, In IndexError l -> Forall P s -> okp l P (idx s i).
Proof.
  intros A l P s i I F. unfold idx. destruct (nth_error s i) as [a|] eqn:E; [|exact I].
  rewrite Forall_forall in F. exact (F _ (nth_error_In _ _ E)).
Qed.
Lemma okp_index : forall A l (s : list A) i, In IndexError l -> okp l yes (idx s i).
Proof. intros A l s i I. now apply okp_option. Qed.
Lemma okp_last : forall A l (s : list A), In IndexError l -> okp l yes (last_of s).
Proof. intros A l s I. now apply okp_option. Qed.
Lemma okp_zidx : forall A l (s : list A) i, In IndexError l -> okp l yes (zidx s i).
Proof. intros A l s i I. unfold zidx. destruct (_ && _)%bool; [now apply okp_option|exact I]. Qed.
Lemma okp_map : forall A B l (P : A -> Prop) (Q : B -> Prop) f (s : list A), Forall P s -> (forall a, P a -> okp l Q (f a)) ->
  okp l (Forall Q) (map_res f s).
Proof.
  intros A B l P Q f s F H. induction F as [|a s Pa F IH]; cbn [map_res]; [constructor|].
  apply okp_bind with (P := Q); [now apply H|]. intros b Qb. apply okp_bind with (P := Forall Q); [exact IH|].
  intros bs Qs. constructor; assumption.
Qed.
Lemma Forall_yes : forall A (s : list A), Forall yes s.
Proof. intros A s. apply Forall_forall. intros a _. exact I. Qed.
Lemma okp_map_all : forall A B l f (s : list A), (forall a, okp l (@yes B) (f a)) -> okp l yes (map_res f s).
Proof.
  intros A B l f s H. eapply okp_imp; [apply (okp_map _ _ l yes yes); [apply Forall_yes|auto]|apply incl_refl|]. intros a _. exact I.
Qed.
Lemma okp_fold : forall A S l (P : S -> Prop) f (s : list A) st, P st -> (forall st a, P st -> okp l P (f st a)) -> okp l P (fold_res f s st).
Proof.
  intros A S l P f s. induction s as [|a s IH]; intros st H F; cbn [fold_res]; [exact H|].
  apply okp_bind with (P := P); [now apply F|]. intros st' H'. now apply IH.
Qed.
Lemma okp_caught : forall A l x (P : A -> Prop) r h, okp (x :: l) P r -> okp l P h -> okp l P (caught x r h).
Proof.
  intros A l x P [a|y] h H K; cbn in *; [exact H|]. destruct H as [->|H].
  - assert (E : exn_eqb y y = true) by (destruct y; reflexivity). now rewrite E.
  - destruct (exn_eqb x y); [exact K|exact H].
Qed.

(** The errors of a reaction, before the handlers of isomer math. *)
Definition raw_errors : list exn := IsomerMathParsingError :: reaction_errors.
Ltac mem := cbn [okp bind of_option In app raw_errors reaction_errors monitor_errors reference_errors author_errors institute_errors bib_errors data_errors entry_errors]; tauto.
Ltac member := first [apply okp_index; mem | apply okp_last; mem | apply okp_zidx; mem | apply okp_option; mem | mem].
Ltac rmember := member.
(** A step whose value does not matter. *)
Ltac step := apply okp_bind with (P := yes).

(** ** Particles *)

Definition numeral (s : str) : Prop := exists z, int_of_str s = Some z.
Lemma digits_numeral : forall s, s <> [] -> forallb is_dig s = true -> numeral s.
Proof.
  intros s N D. destruct (short_digits s D) as (ds & -> & I). exists (Z.of_N (value10 ds)).
  pose proof (int_of_digits [] ds [] ltac:(constructor) ltac:(constructor) I) as E. rewrite app_nil_r in E. apply E.
  intros ->. now apply N.
Qed.
Lemma lower_dig : forall s, forallb is_dig s = true -> lower s = s.
Proof.
  induction s as [|c s IH]; intros D; [reflexivity|]. cbn [forallb] in D. apply andb_true_iff in D. destruct D as [C D].
  unfold lower in *. cbn [map]. rewrite (IH D). f_equal. unfold lower_c.
  destruct (dig_digit c C) as (d & L & ->). 
  assert (G : forall n, n < 10 -> is_upper (digit_char (N.of_nat n)) = false).
  { intros m M. do 10 (destruct m as [|m]; [reflexivity|]). lia. }
  specialize (G (N.to_nat d)). rewrite N2Nat.id in G. rewrite G by lia. reflexivity.
Qed.
Lemma dig_isdigit : forall s, s <> [] -> forallb is_dig s = true -> str_isdigit s = true.
Proof.
  intros s N D. unfold str_isdigit. destruct s as [|c s]; [contradiction|]. 
  rewrite forallb_forall in D. apply forallb_forall. intros x X. specialize (D _ X). unfold is_digit_py. now rewrite D.
Qed.

Definition fit (p : particle) : Prop :=
  match p with
  | PNucleus z _ a | PElement z _ a | PIsomer z _ a _ => numeral z /\ numeral a
  | _ => True
  end.
Lemma getZ_fit : forall p, fit p -> okp raw_errors yes (getZ p).
Proof. intros [n s z a|s|z s a|z s a|z s a i|k s z] F; cbn; try exact I; destruct F as [(n & ->) _]; exact I. Qed.
Lemma getA_fit : forall p, fit p -> okp raw_errors yes (getA p).
Proof. intros [n s z a|s|z s a|z s a|z s a i|k s z] F; cbn; try exact I; destruct F as [_ (n & ->)]; exact I. Qed.

Lemma field_cases : forall keyword x, In x (field_errors keyword) ->
  exists k, In k ["REACTION"; "MONITOR"; "REFERENCE"; "AUTHOR"; "INSTITUTE"] /\ keyword = lit k.
Proof.
  intros keyword x X. exists (string_of_list_ascii keyword). split; [|symmetry; apply list_ascii_of_string_of_list_ascii].
  unfold field_errors in X. generalize dependent (string_of_list_ascii keyword). clear. intros s X.
  repeat match type of X with context [match ?y with EmptyString => _ | String _ _ => _ end] => destruct y; try contradiction end;
  repeat match type of X with context [match ?y with Ascii _ _ _ _ _ _ _ _ => _ end] => destruct y; try contradiction end;
  repeat match type of X with context [if ?y then _ else _] => destruct y; try contradiction end;
  cbn [In]; tauto.
Qed.

Section Reading.
Variable c : codes.
Variable e : env.
Hypothesis WD : well_dictionaries c e.
Let g := x4grammars c.
Let keys := c_compounds c.
Local Lemma KP : Forall particle_key (c_particles c). Proof. exact (well_particles _ _ WD). Qed.
Local Lemma e_grammars : e_g e = g. Proof. exact (well_grammars _ _ WD). Qed.

Lemma of_list_one : forall p, okp raw_errors fit (particle_of_list [PTok p]).
Proof.
  intros p. unfold particle_of_list. cbn [length]. change (1 <? 1) with false. cbv iota.
  apply okp_bind with (P := fun x => exists s, snd x = PTok s).
  - cbn [idx nth_error of_option bind]. destruct p as [|ch p]; [rmember|]. destruct (Ascii.eqb ch "X"%char); cbn [okp snd]; eauto.
  - intros [n y] (s & E). cbn [snd] in E. subst y. cbn [tok bind]. step; [rmember|]. intros z _. step; [rmember|]. intros a _. exact I.
Qed.
Lemma of_list_two : forall n p, numeral n -> okp raw_errors fit (particle_of_list [PTok n; PTok p]).
Proof.
  intros n p (k & K). unfold particle_of_list. cbn [length]. change (1 <? 2) with true. cbv iota.
  cbn [idx nth_error of_option bind]. rewrite K. cbn [of_option bind tok].
  step; [rmember|]. intros z _. step; [rmember|]. intros a _. exact I.
Qed.
Lemma upper_alpha : forall x, is_alpha x = true -> is_alpha (upper_c x) = true /\ Ascii.eqb (upper_c x) (ch 9) = false /\ is_white (upper_c x) = false.
Proof.
  assert (A : forallb (fun n => let y := ascii_of_N (N.of_nat n) in
    negb (is_alpha y) || (is_alpha (upper_c y) && negb (Ascii.eqb (upper_c y) (ch 9)) && negb (is_white (upper_c y)))) (seq 0 256) = true)
    by (vm_compute; reflexivity).
  intros x H. rewrite forallb_forall in A. specialize (A (nat_of_ascii x)). cbv zeta in A.
  assert (Z : ascii_of_N (N.of_nat (nat_of_ascii x)) = x) by (unfold nat_of_ascii; rewrite N2Nat.id; apply ascii_N_embedding).
  rewrite Z, H in A. cbn [negb orb] in A.
  assert (I : In (nat_of_ascii x) (seq 0 256)) by (apply in_seq; pose proof (nat_ascii_bounded x); lia).
  specialize (A I). apply andb_true_iff in A. destruct A as (A & A3). apply andb_true_iff in A. destruct A as (A1 & A2).
  repeat split; try assumption; now apply negb_true_iff.
Qed.
Lemma alpha_particle : forall x s, is_alpha x = true -> exists l, g_particle g (upper (x :: s)) = Some l.
Proof.
  intros x s X. change (exists l, parseString x4particle (upper (x :: s)) = Some l). destruct (upper_alpha _ X) as (A & T & W).
  unfold parseString, expandtabs, upper. cbn [map expandtabs_from]. rewrite T.
  set (rest := expandtabs_from _ _). clearbody rest. unfold run at 1. cbn [x4particle Combine callpre skipws andb impl skip_white].
  rewrite W. unfold run at 1. cbn [And callpre skipws andb impl]. unfold run at 1. cbn [Word Word2 callpre skipws andb impl]. rewrite A.
  destruct (span is_alpha rest) as [a b]. cbn [and_rest]. unfold run. cbn [Optional OptionalD callpre skipws andb impl].
  destruct (run nums false false _) as [[t r]|]; eauto.
Qed.
Lemma particle_text : forall s, name_text s -> okp raw_errors fit (X4Particle g (PTok s)).
Proof.
  intros s N. unfold X4Particle. destruct N as [->|(x & a & -> & X)]; [exact I|].
  destruct (str_eqb (x :: a) (lit "0")); [exact I|].
  destruct (alpha_particle x a X) as (l & E). rewrite E. destruct (g_particle_shape _ _ _ E) as (p & ->).
  cbn [of_option bind]. apply of_list_one.
Qed.
Lemma one_particle : exists l, g_particle g (lit "N") = Some l.
Proof. exact (alpha_particle "N"%char [] eq_refl). Qed.
Lemma nucleus_fit : forall l, nucleus_shape l ->
  okp raw_errors (fun r => fst r = l /\ numeral (fst (fst (snd r))) /\ numeral (snd (snd r))) (nucleus_parts g (PGroup l)).
Proof.
  intros l (F & z & s & a & rest & -> & (z0 & z1 & -> & Z) & (a0 & a1 & -> & A)). inversion F as [|? ? _ F1]; subst.
  inversion F1 as [|? ? (s' & ->) _]; subst. unfold nucleus_parts. cbn [idx nth_error of_option bind tok okp fst snd].
  split; [reflexivity|]. split; (apply digits_numeral; [discriminate|assumption]).
Qed.
Lemma isomer_raises : forall ign mods rest acc, okp raw_errors yes (isomer_loop ign mods rest acc).
Proof.
  intros ign mods rest. induction rest as [|m rest IH]; intros acc; cbn [isomer_loop]; [exact I|].
  step; [|intros isos _; apply IH]. unfold isomer_step. cbv zeta. destruct (isomer_math mods); [|exact I].
  destruct (negb ign); [rmember|exact I].
Qed.
Lemma chemical_raises : forall s, In s keys -> okp raw_errors fit (X4ChemicalCompound g (PTok s)).
Proof.
  intros s K. unfold X4ChemicalCompound. unfold g. rewrite (chemical_text c (well_compounds _ _ WD) s K). cbn [of_option bind idx nth_error tok].
  pose proof (well_compounds _ _ WD) as W. rewrite Forall_forall in W. destruct (W _ K) as (z & y & c0 & t & -> & [ZN Z] & _). clear K.
  change (z ++ tx "-" ++ y ++ tx "-" ++ c0 :: t) with (z ++ "-"%char :: (y ++ tx "-" ++ c0 :: t)). rewrite (split_first "-"%char z (y ++ tx "-" ++ c0 :: t)); cycle 1.
  { intros I. rewrite Forall_forall in Z. specialize (Z _ I). apply digit_dig in Z. discriminate Z. }
  step; [rmember|]. intros sym _. cbn [idx nth_error of_option bind].
  assert (D : forallb is_dig z = true) by (apply forallb_forall; intros x X; rewrite Forall_forall in Z; apply digit_dig; auto).
  destruct (digits_numeral z ZN D) as (n & ->). exact I.
Qed.

Definition placed (p : product) : Prop := exists q, p = RPart q /\ fit q.
Lemma fit_placed : forall m, okp raw_errors fit m -> okp raw_errors placed (p <- m ;; Ok (RPart p)).
Proof. intros m H. apply okp_bind with (P := fit); [exact H|]. intros p F. exists p. auto. Qed.
Lemma toks_map : forall l, Forall a_tok l -> exists ss, map_res tok l = Ok ss /\ length ss = length l.
Proof.
  intros l F. induction F as [|x l (s & ->) F (ss & E & L)]; [exists []; auto|]. exists (s :: ss). cbn [map_res tok bind]. rewrite E.
  cbn [bind length]. split; [reflexivity|now f_equal].
Qed.
Lemma type_raises : forall ign i, piece keys i -> okp raw_errors placed (setParticleType g ign i).
Proof.
  intros ign [s|l] P; unfold setParticleType.
  - destruct (smem s [lit "ELEM"; lit "MASS"; lit "ELEM/MASS"; lit "X"; lit "NPART"]); [exists (X4VariableParticle s); split; [reflexivity|exact I]|]. apply fit_placed. now apply particle_text.
  - destruct P as (F & [(z & s & a & rest & -> & Z & A)|[(n & s & -> & D)|(s & -> & K)]]).
    + assert (N : nucleus_shape (z :: s :: a :: rest)) by (split; [exact F|]; exists z, s, a, rest; auto).
      pose proof (nucleus_fit _ N) as NF.
      destruct rest as [|m rest].
      * destruct A as (a0 & a1 & -> & A). cbn [tok bind]. rewrite (dig_isdigit (a0 :: a1) ltac:(discriminate) A).
        destruct (str_eqb (a0 :: a1) (lit "0")); apply fit_placed.
        -- unfold X4Element. eapply okp_bind; [exact NF|]. intros [l' [[z' s'] a']] (_ & Z' & A'). split; assumption.
        -- unfold X4Nucleus. eapply okp_bind; [exact NF|]. intros [l' [[z' s'] a']] (_ & Z' & A'). split; assumption.
      * apply fit_placed. unfold X4Isomer. eapply okp_bind; [exact NF|]. intros [l' [[z' s'] a']] (L & Z' & A').
        cbn [fst] in L. subst l'. cbn [skipn].
        assert (FM : Forall a_tok rest) by (inversion F as [|? ? _ F1]; inversion F1 as [|? ? _ F2]; inversion F2 as [|? ? _ F3]; inversion F3; assumption).
        destruct (toks_map _ FM) as (mods & -> & _). cbn [bind]. step; [apply isomer_raises|]. intros isos _. split; assumption.
    + inversion F as [|? ? _ F1]; subst. inversion F1 as [|? ? (s' & ->) _]; subst. destruct D as (n0 & n1 & -> & D).
      apply fit_placed. unfold X4Particle. destruct one_particle as (l1 & ->). cbn [of_option map_res tok bind map].
      apply of_list_two. rewrite (lower_dig _ D). apply digits_numeral; [discriminate|exact D].
    + destruct (4 <? length s); apply fit_placed; [now apply chemical_raises|].
      unfold X4Particle. destruct one_particle as (l1 & ->). cbn [of_option map_res tok bind map]. apply of_list_one.
Qed.
Definition made (p : product) : Prop := match p with RPart q => fit q | _ => True end.
Lemma product_raises : forall ign i, piece keys i -> okp raw_errors made (setProduct g ign i).
Proof.
  intros ign i P. assert (T : okp raw_errors made (setParticleType g ign i)).
  { eapply okp_imp; [apply (type_raises ign i P)|apply incl_refl|]. intros p (q & -> & F). exact F. }
  unfold setProduct. destruct i as [s|l]; [|exact T]. destruct (dhas _ _ _); [exact I|exact T].
Qed.
Lemma residual_raises : forall targ proj products, placed targ -> placed proj -> Forall made products ->
  okp raw_errors yes (setResidual g targ proj products).
Proof.
  intros targ proj products (t & -> & T) (j & -> & J) F. unfold setResidual. cbn [prodZ prodA].
  step; [now apply getA_fit|]. intros ta _. destruct (find _ _); [exact I|].
  step; [now apply getZ_fit|]. intros tz _. step; [now apply getZ_fit|]. intros pz _.
  step; [now apply getA_fit|]. intros ta' _. step; [now apply getA_fit|]. intros pa _. cbv zeta.
  step.
  { generalize (0%Z, 0%Z, negb (ta =? 0)%Z). generalize (tz + pz <? ta' + pa)%Z. intros heavy. clear - F.
    induction F as [|p ps P F IH]; intros st; cbn [fold_res]; [exact I|]. step; [|intros st' _; apply IH].
    unfold out_step. destruct st as [[z a] can]. destruct (counts p && heavy)%bool eqn:C; [|exact I].
    apply andb_true_iff in C. destruct C as [C _]. destruct p as [s|q|]; [discriminate C| |discriminate C].
    cbn [prodZ prodA]. step; [now apply getZ_fit|]. intros zp _. step; [now apply getA_fit|]. intros ap _. exact I. }
  intros [[zout aout] can] _. step; [|intros [ps r] _; exact I].
  destruct ((_ =? zout) && (_ =? aout))%Z%bool.
  { step; [rmember|]. intros r _. exact I. }
  destruct can; [|exact I]. step; [|intros r _; exact I].
  unfold computed_residual. generalize (tz + pz - zout)%Z, (ta' + pa - aout)%Z. intros dz da.
  unfold X4Nucleus_of_parts. destruct (endl_ZSymbol dz); [exact I|].
  destruct (_ && _)%bool.
  { step; [|intros p _; exact I]. eapply okp_imp; [apply particle_text; right; eexists; eexists; (split; [reflexivity|reflexivity])|apply incl_refl|intros; exact I]. }
  destruct (_ && _)%bool.
  { step; [|intros p _; exact I]. eapply okp_imp; [apply particle_text; right; eexists; eexists; (split; [reflexivity|reflexivity])|apply incl_refl|intros; exact I]. }
  destruct (_ || _)%bool; [exact I|rmember].
Qed.
Lemma pretty_raises : forall d p, okp raw_errors yes (pretty d p).
Proof.
  intros d p. assert (S : forall n s, okp raw_errors yes (particle_pretty n s)).
  { intros n s. unfold particle_pretty. step; [|intros m _; exact I]. unfold several. destruct n; [exact I|rmember]. }
  destruct p as [n s z a|s|z s a|z s a|z s a i|k s z]; cbn [pretty]; try exact I; try apply S.
  step; [rmember|]. intros l _. apply okp_index. rmember.
Qed.
Lemma process_raises : forall d ign xl, Forall (piece keys) xl -> okp raw_errors yes (process_of_results g d ign xl).
Proof.
  intros d ign xl F. unfold process_of_results.
  apply okp_bind with (P := piece keys); [apply okp_idx; [rmember|exact F]|]. intros x0 X0.
  eapply okp_bind; [exact (type_raises ign x0 X0)|]. intros targ T.
  apply okp_bind with (P := piece keys); [apply okp_idx; [rmember|exact F]|]. intros x1 X1.
  eapply okp_bind; [exact (type_raises ign x1 X1)|]. intros proj J.
  apply okp_bind with (P := Forall made).
  { apply okp_map with (P := piece keys); [|intros i Hi; now apply product_raises].
    rewrite Forall_forall in *. intros x X. apply F. destruct xl as [|? [|? ?]]; cbn in *; tauto. }
  intros products PS. step; [now apply residual_raises|]. intros [ps r] _. step; [|intros t _; exact I].
  unfold setProcessType. step; [|intros l _; exact I]. apply okp_map_all. intros p. unfold prod_str.
  destruct p as [s|q|]; [exact I|apply pretty_raises|exact I].
Qed.
Lemma reaction_raises : forall d l, Forall (part keys) l -> okp raw_errors yes (X4Reaction g d false (PGroup l)).
Proof.
  intros d l F. unfold X4Reaction. cbn [bind].
  apply okp_bind with (P := part keys); [apply okp_idx; [rmember|exact F]|]. intros x0 X0.
  destruct x0 as [s|xl].
  - unfold reaction_parse. unfold g. rewrite (word_no_reaction c s X0). destruct (_ || _)%bool; cbn [bind]; rmember.
  - cbn [bind]. step; [apply process_raises; exact X0|]. intros p _. exact I.
Qed.

(** ** Isomer math *)

Lemma join_toks_raises : forall L sep l, In TypeError L -> okp L yes (join_toks sep l).
Proof.
  intros L sep l H. unfold join_toks. step; [|intros ss _; exact I]. apply okp_map_all. intros [s|x]; [exact I|exact H].
Qed.
Lemma join_tree_raises : forall L sep t, In TypeError L -> okp L yes (join_tree sep t).
Proof. intros L sep [s|l] H; [exact I|now apply join_toks_raises]. Qed.
Lemma resid_raises : forall p things acc, okp reaction_errors yes (resid_loop p things acc).
Proof.
  intros p things. induction things as [|t things IH]; intros acc; cbn [resid_loop]; [exact I|].
  destruct (smem t _); [apply IH|]. destruct (smem t _); [|apply IH].
  destruct (rev acc) as [|[x|x] r]; [member|apply IH|member].
Qed.
Lemma repack_raises : forall x, okp reaction_errors yes (repack x).
Proof.
  intros x. unfold repack. step; [destruct x as [|[s|l] [|y x]]; exact I|]. intros x' _.
  step; [member|]. intros ugly _. step; [destruct ugly; exact I|]. intros rxn _.
  step; [member|]. intros quant _. step; [destruct quant; [exact I|member]|]. intros q _.
  step; [member|]. intros t _. step.
  { destruct (3 <? tree_len t); [|apply join_tree_raises; member]. destruct t as [s|l].
    - step; [apply join_tree_raises; member|]. intros a _. exact I.
    - step; [apply join_toks_raises; member|]. intros a _. step; [apply join_toks_raises; member|]. intros b _. exact I. }
  intros targ _. step; [member|]. intros j _. step; [destruct j; [exact I|apply join_tree_raises; member]|]. intros proj _.
  step; [apply okp_map_all; intros [s|l]; [exact I|apply join_tree_raises; member]|]. intros proc _. cbv zeta.
  step; [member|]. intros resid _. step.
  { destruct resid as [s|l]; [step; [member|]; intros a _; member|]. apply okp_map_all. intros [s|x0]; [exact I|member]. }
  intros parts _. step; [member|]. intros m0 _. step; [apply resid_raises|]. intros rl _. exact I.
Qed.

Lemma ops_math : forall s, In s all_ops -> smem s math_symbols = true.
Proof. intros s H. apply smem_In. exact H. Qed.
Lemma iso_raises : forall d depth x, okp reaction_errors yes (iso_data depth g d x).
Proof.
  intros d depth. induction depth as [|depth IH]; intros x; cbn [iso_data]; [member|].
  step; [apply repack_raises|]. intros s _. destruct (g_compound g s) as [l|] eqn:E; [|member]. cbn [of_option bind].
  apply (g_compound_shape c KP) in E. eapply okp_imp with (P := Forall yes); [|apply incl_refl|intros; exact I].
  apply okp_map with (P := term keys all_ops); [exact E|]. intros [t|xl] T.
  - rewrite (ops_math _ T). exact I.
  - apply okp_caught.
    + step; [apply (reaction_raises d xl T)|]. intros r _. exact I.
    + step; [apply IH|]. intros r _. exact I.
Qed.
Lemma element_raises : forall d depth i, term keys all_ops i -> okp reaction_errors yes (getStrOrX4Reaction depth g d i).
Proof.
  intros d depth [t|xl] T; unfold getStrOrX4Reaction.
  - rewrite (ops_math _ T). exact I.
  - apply okp_caught.
    + step; [apply (reaction_raises d xl T)|]. intros r _. exact I.
    + step; [apply iso_raises|]. intros r _. exact I.
Qed.
Lemma measurement_raises : forall d depth x, Forall (term keys all_ops) x -> okp reaction_errors yes (getMeasurementType depth g d x).
Proof.
  intros d depth x F. unfold getMeasurementType. apply okp_caught; [|step; [apply iso_raises|]; intros r _; exact I].
  destruct (existsb _ math_symbols) eqn:M.
  - step; [|intros r _; exact I]. unfold X4ReactionCombination.
    eapply okp_imp with (P := Forall yes) (l := reaction_errors); [|intros y Y; now right|intros; exact I].
    apply okp_map with (P := term keys all_ops); [exact F|]. intros i T. now apply element_raises.
  - destruct F as [|x0 x T F]; [cbn; member|]. cbn [idx nth_error of_option bind]. destruct x0 as [s|l].
    + exfalso. assert (E : existsb (fun i => existsb (is_tok i) (PTok s :: x)) math_symbols = true).
      { apply existsb_exists. exists s. split; [exact T|]. cbn [existsb is_tok]. rewrite str_eqb_refl. reflexivity. }
      congruence.
    + step; [apply (reaction_raises d l T)|]. intros r _. exact I.
Qed.
Lemma text_raises : forall d, okp reaction_errors yes (reaction_of_text e d).
Proof.
  intros d. unfold reaction_of_text. rewrite e_grammars. destruct (g_reactionfield g d) as [f|] eqn:E; [|member]. cbn [of_option bind].
  destruct (g_reactionfield_shape c KP _ _ E) as (F & _). step; [now apply measurement_raises|]. intros m _. step; [member|]. intros r _. exact I.
Qed.

(** ** Fields *)

Lemma plain_reads : forall L lines, lines <> [] -> okp L yes (X4PlainField lines).
Proof.
  intros L [|l lines] N; [contradiction|]. unfold X4PlainField. cbn [idx nth_error of_option bind].
  destruct (fold_left plain_step (l :: lines) (sp, [])) as [p d]. exact I.
Qed.
Lemma reaction_field_raises : forall lines, lines <> [] -> okp reaction_errors yes (X4ReactionField e lines).
Proof.
  intros lines N. unfold X4ReactionField. step; [now apply plain_reads|]. intros f _. step; [|intros rs _; exact I].
  apply okp_map_all. intros pl. step; [apply text_raises|]. intros r _. exact I.
Qed.
Lemma monitor_lines_raises : forall n q ds, length q <= n -> okp monitor_errors yes (monitor_lines q ds).
Proof.
  induction n as [|n IH]; intros [|l q] ds L; try exact I; [cbn in L; lia|]. cbn [monitor_lines]. cbn [length] in L.
  destruct (startswith (strip l) (lit "((")).
  { destruct (unbalanced l); [|apply IH; lia]. destruct q as [|y q]; [member|]. apply IH. cbn [length] in L. lia. }
  destruct (startswith (strip l) (lit "(")).
  { destruct (unbalanced l); [|apply IH; lia]. destruct q as [|y q]; [member|]. apply IH. cbn [length] in L. lia. }
  destruct ds; apply IH; lia.
Qed.
Lemma monitor_field_raises : forall lines, lines <> [] -> okp monitor_errors yes (X4MonitorField e lines).
Proof.
  intros lines N. unfold X4MonitorField. step; [now apply plain_reads|]. intros f _. step; [|intros rs _; exact I].
  apply okp_map_all. intros pl. step; [apply (monitor_lines_raises _ _ _ (le_n _))|]. intros ds _. step; [|intros l _; exact I].
  apply okp_map_all. intros d. unfold monitor_reaction. step.
  { unfold monitor_heading. destruct (contains _ d); [|exact I]. apply okp_fold; [exact I|]. intros st s _.
    step; [member|]. intros i _. exact I. }
  intros [d' h] _. destruct (startswith d' (lit "(")); [|exact I]. step; [|intros r _; exact I].
  apply okp_caught; [|member]. eapply okp_incl; [apply text_raises|]. unfold monitor_errors. intros x X. right. now right.
Qed.

Definition code_errors : list exn := [ReferenceParsingError; TypeError; AttributeError].
Lemma as_reference_raises : forall A (r : res A),
  okp [ReferenceParsingError; TypeError; AttributeError; KeyError; IndexError; LookupError; ParseException] yes r ->
  okp code_errors yes (as_reference_error r).
Proof.
  intros A [a|x] H; [exact I|]. cbn [okp In] in H. unfold code_errors.
  repeat (destruct H as [<-|H]; [cbn; tauto|]). contradiction.
Qed.
Lemma low_digits : forall s, forallb low s = true -> str_isdigit (replace_char ")"%char [] s) = true -> forallb is_dig (replace_char ")"%char [] s) = true.
Proof.
  intros s L D. apply forallb_forall. intros x X.
  assert (Y : is_digit_py x = true).
  { unfold str_isdigit in D. destruct (replace_char ")"%char [] s); [contradiction|]. rewrite forallb_forall in D. auto. }
  unfold replace_char in X. apply in_flat_map in X. destruct X as (y & I & X). destruct (Ascii.eqb y ")"%char); [contradiction|].
  destruct X as [->|[]]. rewrite forallb_forall in L. specialize (L _ I). unfold low in L. apply N.ltb_lt in L.
  unfold is_digit_py in Y. destruct (is_dig x); [reflexivity|]. cbn [orb] in Y.
  destruct (N.eqb_spec (code x) 178); [lia|]. destruct (N.eqb_spec (code x) 179); [lia|]. destruct (N.eqb_spec (code x) 185); [lia|discriminate].
Qed.
Lemma dig_firstn : forall n s, forallb is_dig s = true -> forallb is_dig (firstn n s) = true.
Proof.
  intros n s D. rewrite forallb_forall in *. intros x X. apply D. rewrite <- (firstn_skipn n s). apply in_or_app. now left.
Qed.
Lemma year_raises : forall date, item_text date -> okp [TypeError] yes (parseX4Year date).
Proof.
  intros date T. unfold parseX4Year. cbv zeta. destruct (str_isdigit (replace_char ")"%char [] date)) eqn:D; cbn [negb]; [|cbn; tauto].
  assert (N : forallb is_dig (replace_char ")"%char [] date) = true).
  { destruct T as [(q & a & -> & Q)|L]; [|now apply low_digits]. exfalso. revert D. clear - Q.
    destruct Q as [-> | ->]; discriminate. }
  clear D. set (y0 := replace_char _ _ _) in *. clearbody y0.
  set (y1 := if length y0 =? 6 then _ else _). assert (N1 : forallb is_dig y1 = true) by (unfold y1, drop_last_n; destruct (_ =? _); [now apply dig_firstn|exact N]). clearbody y1.
  set (y2 := if length y1 =? 8 then _ else _). assert (N2 : forallb is_dig y2 = true) by (unfold y2, drop_last_n; destruct (_ =? _); [now apply dig_firstn|exact N1]). clearbody y2.
  destruct (_ && _)%bool; [exact I|].
  set (y3 := if length y2 =? 4 then _ else _). assert (N3 : forallb is_dig y3 = true) by (unfold y3; destruct (_ =? _); [now apply dig_firstn|exact N2]). clearbody y3.
  destruct (length y3 =? 2) eqn:L; [|exact I]. destruct (digits_numeral y3) as (n & ->); [intros ->; discriminate|exact N3|exact I].
Qed.
Lemma code_raises : forall x, okp code_errors yes (reference_code e x).
Proof.
  intros x. unfold reference_code. apply as_reference_raises. step.
  { destruct x as [[|ch [|? ?]]|l]; try exact I. unfold flatten.
    assert (M : okp [ReferenceParsingError; TypeError; AttributeError; KeyError; IndexError; LookupError; ParseException] yes
      (ss <- map_res (fun x => match x with PTok s => Ok s | PGroup (PTok s :: _) => Ok (lit "(" ++ s ++ lit ")")
                               | PGroup (PGroup _ :: _) => Raise TypeError | PGroup [] => Raise IndexError end) l ;; Ok (concat ss))).
    { step; [|intros ss _; exact I]. apply okp_map_all. intros [s|[|[s|l'] r]]; [exact I|cbn; tauto|exact I|cbn; tauto]. }
    destruct l as [|[s|l'] [|y l]]; [exact M|exact I|exact M|cbn; tauto|exact M]. }
  intros t _. unfold X4ReferenceCode. apply okp_bind with (P := Forall item_text).
  { rewrite e_grammars. destruct (g_comma g t) as [l|] eqn:E; [exact (g_comma_shape _ _ _ E)|member]. }
  intros code F. step; [member|]. intros rt _. step; [member|]. intros nm _.
  apply okp_bind with (P := item_text).
  { unfold last_of. destruct (nth_error code _) as [y|] eqn:R; [|member]. rewrite Forall_forall in F. exact (F _ (nth_error_In _ _ R)). }
  intros date DT. cbv zeta. step.
  { pose proof (year_raises _ DT) as Y.
    destruct (parseX4Year date) as [y|x0]; [exact I|]. cbn [okp In] in Y. destruct Y as [<-|[]]; cbn; tauto. }
  intros year _. step; [|intros p _; exact I].
  assert (G : okp [KeyError; IndexError; LookupError] yes (getRefName (e_dicts e) rt nm)).
  { assert (DC : forall name key i, okp [KeyError; IndexError; LookupError] yes (dict_cell (e_dicts e) name key i)).
    { intros name key i. unfold dict_cell. step; [member|]. intros d _. step; [member|]. intros l _. apply okp_index. cbn; tauto. }
    unfold getRefName. repeat (destruct (smem rt _); [step; [apply DC|]; intros t0 _; exact I|]). cbn; tauto. }
  destruct (getRefName (e_dicts e) rt nm) as [y|x0]; [exact I|]. cbn [okp In] in G. destruct G as [<-|[<-|[<-|[]]]]; first [exact I|cbn; tauto].
Qed.
Lemma collect_raises : forall A B (L : list exn) (f : A -> list B * option exn) l acc,
  (forall a x, snd (f a) = Some x -> In x L) -> forall x, snd (collect f l acc) = Some x -> In x L.
Proof.
  intros A B L f l. induction l as [|a l IH]; intros acc H x E; cbn [collect] in E; [discriminate|].
  destruct (f a) as [bs [y|]] eqn:Fa.
  - cbn [snd] in E. injection E as <-. apply (H a). now rewrite Fa.
  - exact (IH _ H _ E).
Qed.
Lemma references_raise : forall has xx x, snd (references_of e has xx) = Some x -> In x (ReferenceParsingError :: reference_errors).
Proof.
  intros has xx x E. unfold references_of in E.
  assert (M : okp (ReferenceParsingError :: reference_errors) yes (reference_items e has xx)).
  { unfold reference_items. destruct (has && _)%bool.
    - step; [member|]. intros xref _. step; [member|]. intros cm _. exact I.
    - step; [member|]. intros xref _. step; [member|]. intros cm _. step; [|intros x0 _; exact I].
      assert (X : okp [IndexError] yes (idx xref 0)) by (apply okp_index; now left).
      destruct (idx xref 0) as [a|y]; [exact I|]. cbn [okp In] in X. destruct X as [<-|[]]. cbn; tauto. }
  destruct (reference_items e has xx) as [items|y]; [|cbn [snd okp] in *; congruence].
  revert E. apply collect_raises. intros a y. pose proof (code_raises (fst a)) as R.
  destruct (reference_code e (fst a)) as [r|z]; [discriminate|]. cbn [snd okp] in *. intros Z. injection Z as <-.
  revert R. unfold code_errors. cbn [In]. member.
Qed.
Lemma reference_field_raises : forall lines, lines <> [] -> okp reference_errors yes (X4ReferenceField e lines).
Proof.
  intros lines N. unfold X4ReferenceField. step; [now apply plain_reads|]. intros f _.
  destruct (collect (pointer_references e) (f_dict f) []) as [refs err] eqn:C.
  assert (R : forall x, err = Some x -> In x (ReferenceParsingError :: reference_errors)).
  { intros x ->. refine (collect_raises _ _ _ (pointer_references e) (f_dict f) [] _ x _); [|now rewrite C].
    intros pl y E. unfold pointer_references in E.
    assert (St : okp [IndexError] yes (fold_res ref_step (snd pl) ([], false, false))).
    { apply okp_fold; [exact I|]. intros [[refs0 ins] has] line _. unfold ref_step. cbv zeta. step; [|intros [[? ?] ?] _; exact I].
      destruct (str_eqb _ _); [exact I|]. destruct (negb ins && _)%bool; [exact I|]. destruct refs0; [cbn; tauto|exact I]. }
    destruct (fold_res ref_step (snd pl) ([], false, false)) as [[[refs0 ins] has]|z].
    - destruct (collect (references_of e has) refs0 []) as [codes err'] eqn:C'. cbn [snd] in E. subst err'.
      refine (collect_raises _ _ _ (references_of e has) refs0 [] _ y _); [|now rewrite C'].
      intros xx z Z. exact (references_raise _ _ _ Z).
    - cbn [snd] in E. injection E as <-. cbn [okp In] in St. destruct St as [<-|[]]. member. }
  cbv zeta. destruct err as [x|].
  - specialize (R _ eq_refl). destruct R as [<-|R]; [exact I|].
    cbn [In reference_errors] in R. repeat (destruct R as [<-|R]; [member|]). contradiction.
  - step; [member|]. intros first _. step; [member|]. intros r _. step; [member|]. intros pub _. exact I.
Qed.
Lemma author_field_raises : forall lines, lines <> [] -> okp author_errors yes (X4AuthorField e lines).
Proof.
  intros lines N. unfold X4AuthorField. cbv zeta. destruct (_ || _)%bool; [exact I|]. step; [now apply plain_reads|]. intros f _.
  step; [|intros al _; exact I]. apply okp_map_all. intros pl. unfold authors_of. cbv zeta. rewrite e_grammars.
  apply okp_bind with (P := fun w => exists x a, w = [PGroup x; PTok a]).
  { destruct (g_refcode g _) as [w|] eqn:E; [exact (g_refcode_shape _ _ _ E)|].
    destruct (g_refcode g (hd _ _ ++ _)) as [w|] eqn:E'; [exact (g_refcode_shape _ _ _ E')|member]. }
  intros w (x & a & ->). cbn [idx nth_error of_option bind]. step; [apply join_tree_raises; member|]. intros s _.
  step; [member|]. intros ttt _. exact I.
Qed.
Lemma join_tokens : forall L sep l, Forall a_tok l -> okp L yes (join_toks sep l).
Proof.
  intros L sep l F. unfold join_toks. step; [|intros ss _; exact I]. eapply okp_imp with (P := Forall yes); [|apply incl_refl|intros; exact I].
  apply okp_map with (P := a_tok); [exact F|]. intros a (s & ->). exact I.
Qed.
Lemma institute_field_raises : forall lines, lines <> [] -> okp institute_errors yes (X4InstituteField e lines).
Proof.
  intros lines N. unfold X4InstituteField. step; [now apply plain_reads|]. intros f _. step; [|intros il _; exact I].
  apply okp_map_all. intros pl. rewrite e_grammars. destruct (g_textfield g _) as [il|] eqn:E; [|member]. cbn [of_option bind].
  apply g_textfield_shape in E. eapply okp_imp with (P := Forall yes); [|apply incl_refl|intros; exact I].
  apply okp_map with (P := coded); [exact E|]. intros i (k & ks & rest & -> & F). unfold institute_of.
  cbn [idx nth_error of_option bind skipn]. step; [now apply join_tokens|]. intros cm _. cbv zeta.
  destruct (dget str_eqb (last_n 3 k) (e_institutes e)) as [row|] eqn:D; [|exact I].
  pose proof (well_institutes _ _ WD _ _ D) as NE. destruct row as [|x row]; [contradiction|]. exact I.
Qed.

(** ** Sections *)

Lemma field_raises : forall keyword lines, lines <> [] -> okp (field_errors keyword) yes (make_field e (Some keyword) lines).
Proof.
  intros keyword lines N. unfold make_field. cbn [tag_eqb].
  assert (W : forall L A (f : plain -> A), okp L yes (r <- X4PlainField lines ;; Ok (f r))).
  { intros L A f. step; [now apply plain_reads|]. intros r _. exact I. }
  destruct (str_eqb_spec keyword (lit "REACTION")) as [->|_].
  { step; [now apply reaction_field_raises|]. intros r _. exact I. }
  destruct (str_eqb_spec keyword (lit "MONITOR")) as [->|_].
  { step; [now apply monitor_field_raises|]. intros r _. exact I. }
  destruct (str_eqb_spec keyword (lit "REFERENCE")) as [->|_].
  { step; [now apply reference_field_raises|]. intros r _. exact I. }
  destruct (str_eqb_spec keyword (lit "AUTHOR")) as [->|_].
  { step; [now apply author_field_raises|]. intros r _. exact I. }
  destruct (str_eqb keyword (lit "TITLE")); [apply W|].
  destruct (str_eqb_spec keyword (lit "INSTITUTE")) as [->|_]; [|apply W].
  step; [now apply institute_field_raises|]. intros r _. exact I.
Qed.
Lemma field_bib : forall keyword, incl (field_errors keyword) bib_errors.
Proof.
  intros keyword x X. destruct (field_cases _ _ X) as (k & K & ->). unfold bib_errors. rewrite !in_app_iff.
  cbn [In] in K. repeat (destruct K as [<-|K]; [change (field_errors _) with reaction_errors in X || change (field_errors _) with monitor_errors in X ||
    change (field_errors _) with reference_errors in X || change (field_errors _) with author_errors in X || change (field_errors _) with institute_errors in X;
    first [tauto|left; now right]|]). contradiction.
Qed.
Lemma bib_raises : forall lines, okp bib_errors yes (X4BibSection e lines).
Proof.
  intros lines. unfold X4BibSection. apply okp_fold; [exact I|]. intros b field _.
  destruct field as [|l field]; [cbn; tauto|]. unfold extractX4FieldType. cbn [idx nth_error of_option bind].
  step; [|intros f _; exact I]. destruct (strip (slice l 0 10)) as [|x t].
  - unfold make_field. cbn [tag_eqb]. step; [|intros r _; exact I]. apply plain_reads. discriminate.
  - eapply okp_incl; [apply field_raises; discriminate|apply field_bib].
Qed.
Lemma data_raises : forall tag lines, okp data_errors yes (X4DataSection tag lines).
Proof.
  intros tag lines. unfold X4DataSection. step; [member|]. intros l0 _. cbv zeta.
  step; [member|]. intros f1 _. step; [member|]. intros nc _. step; [member|]. intros f2 _. step; [member|]. intros nr _.
  step; [unfold settle_numrows; repeat match goal with |- context [if ?b then _ else _] => destruct b end; first [exact I|member]|]. intros rows _.
  step.
  { unfold collapse. destruct (_ =? 0)%Z; [member|]. apply okp_map_all. intros i. step; [|intros ps _; exact I].
    apply okp_map_all. intros j. step; [member|]. intros l _. exact I. }
  intros cs _. step.
  { apply okp_fold; [exact I|]. intros [[ls us] ps] j _. unfold header_step. step; [member|]. intros r0 _. cbv zeta.
    step; [member|]. intros r1 _. destruct (_ =? _); exact I. }
  intros [[ls us] ps] _. step; [|intros rs _; exact I].
  apply okp_map_all. intros i. step.
  { apply okp_map_all. intros j. step; [member|]. intros r _. exact I. }
  intros raw _. step; [|intros vs _; exact I]. apply okp_map_all. intros s. unfold parseFORTRANNumber.
  destruct (str_eqb (strip s) []); [exact I|]. destruct (float_of_str s); [exact I|]. cbv zeta.
  destruct (float_of_str (fortran_repair (strip s))); [exact I|member].
Qed.
Lemma bib_entry : incl bib_errors entry_errors.
Proof. intros x X. cbn [bib_errors monitor_errors reaction_errors reference_errors author_errors institute_errors app In entry_errors] in *. tauto. Qed.
Lemma data_entry : incl data_errors entry_errors.
Proof. intros x X. cbn [data_errors In entry_errors] in *. tauto. Qed.
Lemma entry_raises : forall texts, okp entry_errors yes (X4Entry e texts).
Proof.
  intros texts. unfold X4Entry. destruct (extractX4EntryIndex texts) as [a|]; [|member]. destruct (negb _); [member|].
  step; [|intros d _; exact I]. apply okp_fold; [exact I|]. intros d x _. step; [|intros s _; exact I].
  unfold X4SubEntry, X4SubEntry_lines. step; [|intros s _; exact I]. apply okp_fold; [exact I|]. intros d' lines _. step; [|intros s _; exact I].
  unfold make_section. destruct (extractX4SectionType lines) as [tag|]; [|member]. destruct (str_eqb tag (lit "BIB")).
  - step; [eapply okp_incl; [apply bib_raises|exact bib_entry]|]. intros b _. exact I.
  - step; [eapply okp_incl; [apply data_raises|exact data_entry]|]. intros b _. exact I.
Qed.
End Reading.

(** ** Isomer math without end *)

Definition endless_text : str := lit "(72-HF-177-M1+M2(N,G)72-HF-178-M,,SIG)".
Definition endless_tree : list ptree :=
  [PGroup [PGroup (map (fun s => PTok (lit s)) ["72"; "HF"; "177"; "-"; "M"; "1"; "+"; "M"; "2"]); PTok (lit "N"); PTok (lit "G");
           PGroup (map (fun s => PTok (lit s)) ["72"; "HF"; "178"; "-"; "M"])]; PTok (lit "SIG")].
Lemma endless_iso : forall d depth x, repack x = Ok (lit "(" ++ endless_text ++ lit ")") -> iso_data depth (x4grammars shipped) d x = Raise RecursionError.
Proof.
  intros d depth. induction depth as [|depth IH]; intros x R; [reflexivity|]. cbn [iso_data]. rewrite R. cbn [bind].
  assert (G : g_compound (x4grammars shipped) (lit "(" ++ endless_text ++ lit ")") = Some [PTok (lit "("); PGroup endless_tree; PTok (lit ")")])
    by (vm_compute; reflexivity).
  rewrite G. cbn [of_option bind map_res]. change (smem (lit "(") math_symbols) with true. cbv iota. cbn [bind].
  assert (X : X4Reaction (x4grammars shipped) d false (PGroup endless_tree) = Raise IsomerMathParsingError) by (vm_compute; reflexivity).
  rewrite X. cbn [bind caught exn_eqb]. rewrite (IH endless_tree) by (vm_compute; reflexivity). reflexivity.
Qed.
Lemma endless_reaction : forall compounds institutes dicts depth,
  make_field (mkEnv (x4grammars shipped) compounds institutes dicts depth) (Some (lit "REACTION"))
    [lit "REACTION   (72-HF-177-M1+M2(N,G)72-HF-178-M,,SIG)"] = Raise RecursionError.
Proof.
  intros compounds institutes dicts depth. unfold make_field. change (tag_eqb (Some (lit "REACTION")) (Some (lit "REACTION"))) with true. cbv iota.
  unfold X4ReactionField.
  assert (F : X4PlainField [lit "REACTION   (72-HF-177-M1+M2(N,G)72-HF-178-M,,SIG)"] = Ok (mkPlain (Some (lit "REACTION")) [(sp, [endless_text])])) by (vm_compute; reflexivity).
  rewrite F. cbn [bind f_dict map_res fst snd]. set (d0 := subfield_str _).
  unfold reaction_of_text. cbn [e_g e_compounds e_depth].
  assert (G : g_reactionfield (x4grammars shipped) d0 = Some [PGroup endless_tree; PTok []]) by (vm_compute; reflexivity).
  rewrite G. cbn [of_option bind]. change (but_last [PGroup endless_tree; PTok []]) with [PGroup endless_tree].
  unfold getMeasurementType.
  assert (M : existsb (fun i => existsb (is_tok i) [PGroup endless_tree]) math_symbols = false) by (vm_compute; reflexivity). rewrite M.
  cbn [idx nth_error of_option bind].
  assert (X : X4Reaction (x4grammars shipped) compounds false (PGroup endless_tree) = Raise IsomerMathParsingError) by (vm_compute; reflexivity).
  rewrite X. cbn [bind caught exn_eqb]. rewrite endless_iso by (vm_compute; reflexivity). reflexivity.
Qed.
