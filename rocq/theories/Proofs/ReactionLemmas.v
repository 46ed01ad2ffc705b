(** Lemmas on processes and reaction combinations. *)
From Coq Require Import String List Ascii NArith ZArith Bool Arith Lia.
From Verif.Model Require Import Py Dicts Particle Reaction.
From Verif.Spec Require Import Text Nuclear.
From Verif.Proofs Require Import StrLemmas NumLemmas IntLemmas DictLemmas.
Import ListNotations.
Local Open Scope list_scope.

Lemma bind_ok : forall (A B : Type) (m : res A) (k : A -> res B) b,
  bind m k = Ok b -> exists a, m = Ok a /\ k a = Ok b.
Proof. intros A B [a|e] k b H; [eauto|discriminate]. Qed.

Lemma of_option_ok : forall (A : Type) e (o : option A) a, of_option e o = Ok a -> o = Some a.
Proof. intros A e [x|] a H; cbn in H; congruence. Qed.

Lemma map_res_Forall2 : forall (A B : Type) (f : A -> res B) l m,
  map_res f l = Ok m -> Forall2 (fun x y => f x = Ok y) l m.
Proof.
  induction l as [|x l IH]; intros m H.
  - cbn in H. injection H as <-. constructor.
  - cbn [map_res] in H. apply bind_ok in H. destruct H as (y & E & H).
    apply bind_ok in H. destruct H as (ys & E' & H). injection H as <-. constructor; auto.
Qed.

Lemma counts_has_nucleons : forall x, counts x = true <-> has_nucleons x.
Proof.
  intros x. split.
  - intro H. destruct x as [s|p|]; try discriminate. exists p. split; auto.
    intros c s z ->. discriminate.
  - intros (p & -> & N). destruct p; auto. exfalso. now apply (N code sym Z).
Qed.

Lemma counts_false : forall x, counts x = false <-> ~ has_nucleons x.
Proof. intro x. rewrite <- counts_has_nucleons. destruct (counts x); split; congruence || tauto. Qed.

(** Result of the loop over the products for heavy systems. *)
Lemma out_heavy : forall l z a can z' a' can',
  fold_res (out_step true) l (z, a, can) = Ok (z', a', can') ->
  exists zs sa, nuclear_sum l zs sa /\ (z' = z + zs)%Z /\ (a' = a + sa)%Z /\
    (can' = true -> can = true /\ forallb counts l = true).
Proof.
  induction l as [|x l IH]; intros z a can z' a' can' H.
  - cbn in H. injection H as <- <- <-. exists 0%Z, 0%Z. repeat split; try lia; auto. constructor.
  - cbn [fold_res] in H. unfold out_step at 1 in H. rewrite andb_true_r in H.
    destruct (counts x) eqn:C; cbn [bind] in H.
    + apply bind_ok in H. destruct H as (st & E & H).
      apply bind_ok in E. destruct E as (zp & Ez & E). apply bind_ok in E. destruct E as (ap & Ea & E).
      injection E as <-.
      destruct (IH _ _ _ _ _ _ H) as (zs & sa & N & E1 & E2 & E3).
      destruct x as [s|p|]; try discriminate.
      exists (zp + zs)%Z, (ap + sa)%Z. repeat split; try lia.
      * constructor; auto. now apply counts_has_nucleons.
      * now apply E3.
      * cbn [forallb]. rewrite C. now apply E3.
    + destruct (IH _ _ _ _ _ _ H) as (zs & sa & N & E1 & E2 & E3).
      exists zs, sa. repeat split; auto.
      * apply nuclear_other; auto. now apply counts_false.
      * apply E3 in H0. now destruct H0.
      * apply E3 in H0. now destruct H0.
Qed.

Lemma out_light : forall l z a can z' a' can',
  fold_res (out_step false) l (z, a, can) = Ok (z', a', can') ->
  z' = z /\ a' = a /\ (can' = true -> can = true /\ l = []).
Proof.
  induction l as [|x l IH]; intros z a can z' a' can' H.
  - cbn in H. injection H as <- <- <-. auto.
  - cbn [fold_res] in H. unfold out_step at 1 in H. rewrite andb_false_r in H. cbn [bind] in H.
    destruct (IH _ _ _ _ _ _ H) as (-> & -> & E). split; [auto|split; [auto|]].
    intro C; apply E in C; destruct C; discriminate.
Qed.

Lemma nuclear_sum_app : forall l1 l2 z1 a1 z2 a2,
  nuclear_sum l1 z1 a1 -> nuclear_sum l2 z2 a2 -> nuclear_sum (l1 ++ l2) (z1 + z2) (a1 + a2).
Proof.
  intros l1 l2 z1 a1 z2 a2 H1 H2. induction H1; cbn [app].
  - exact H2.
  - rewrite <- !Z.add_assoc. now constructor.
  - now apply nuclear_other.
Qed.

Lemma nuclear_sum_app_inv : forall l1 l2 z a, nuclear_sum (l1 ++ l2) z a ->
  exists z1 a1 z2 a2, nuclear_sum l1 z1 a1 /\ nuclear_sum l2 z2 a2 /\ (z = z1 + z2)%Z /\ (a = a1 + a2)%Z.
Proof.
  induction l1 as [|x l1 IH]; intros l2 z a H; cbn [app] in H.
  - exists 0%Z, 0%Z, z, a. repeat split; auto. constructor.
  - inversion H as [|p l z0 a0 zs sa HN HZ HA HS|y l zs sa HN HS]; subst.
    + destruct (IH _ _ _ HS) as (z1 & a1 & z2 & a2 & N1 & N2 & -> & ->).
      exists (z0 + z1)%Z, (a0 + a1)%Z, z2, a2. repeat split; try lia; auto. now constructor.
    + destruct (IH _ _ _ HS) as (z1 & a1 & z2 & a2 & N1 & N2 & -> & ->).
      exists z1, a1, z2, a2. repeat split; auto. now apply nuclear_other.
Qed.

Lemma last_split : forall (A : Type) (l : list A) r, last_of l = Ok r -> l = but_last l ++ [r].
Proof.
  intros A l r H. unfold last_of in H. apply of_option_ok in H. unfold but_last.
  destruct (app_last_inv A l) as [->|(t & c & ->)]; [discriminate|].
  rewrite app_length in *. cbn [length] in *. replace (length t + 1 - 1) with (length t) in * by lia.
  rewrite nth_error_app2 in H by lia. rewrite Nat.sub_diag in H. cbn in H. injection H as ->.
  rewrite firstn_app, firstn_all, Nat.sub_diag. cbn. now rewrite app_nil_r.
Qed.

Lemma remove_first_part : forall p l, remove_first (RPart p) l = l.
Proof. induction l as [|x l IH]; auto. cbn. now rewrite IH. Qed.

Lemma find_leave : forall products c, find (fun c => has_channel c products) leave_target = Some c ->
  In c leave_target /\ In (RStr c) products.
Proof.
  intros products c H. apply find_some in H. destruct H as [I H]. split; auto.
  unfold has_channel in H. apply existsb_exists in H. destruct H as (x & Ix & E).
  destruct x as [s|p|]; try discriminate. apply str_eqb_eq in E. now subst.
Qed.

(** Strings among the products are codes of the table. *)
Lemma product_strings : forall g ign l products, map_res (setProduct g ign) l = Ok products ->
  forall s, In (RStr s) products -> In (PTok s) l /\ In s (dkeys x4ReactionMap).
Proof.
  intros g ign l products H s I. apply map_res_Forall2 in H.
  induction H as [|x y l m Hx F IH]; [destruct I|].
  destruct I as [->|I].
  - destruct x as [t|xl].
    + cbn [setProduct] in Hx. destruct (dhas str_eqb t x4ReactionMap) eqn:E.
      * injection Hx as ->. split; [now left|]. now apply (dhas_keys str_eqb str_eqb_eq).
      * exfalso. unfold setParticleType in Hx. destruct (smem t _); [discriminate|].
        apply bind_ok in Hx. destruct Hx as (p & _ & Hx). discriminate.
    + exfalso. cbn [setProduct setParticleType] in Hx.
      repeat match type of Hx with
             | bind _ _ = Ok _ => apply bind_ok in Hx; destruct Hx as (? & _ & Hx)
             | context [match ?e with _ => _ end] => destruct e
             end; discriminate.
  - destruct (IH I). split; auto. now right.
Qed.

Lemma leave_codes : forall c, In c leave_target -> In c (dkeys x4ReactionMap) -> In c scattering_codes.
Proof.
  intros c H1 H2.
  assert (F : forallb (fun c => if smem c (dkeys x4ReactionMap) then smem c scattering_codes else true)
                leave_target = true) by (vm_compute; reflexivity).
  rewrite forallb_forall in F. specialize (F c H1). cbv beta in F.
  apply smem_In in H2. rewrite H2 in F. now apply smem_In.
Qed.

Lemma codes_leave : forall c, In c scattering_codes -> In c leave_target /\ In c (dkeys x4ReactionMap).
Proof.
  intros c H.
  assert (F : forallb (fun c => smem c leave_target && smem c (dkeys x4ReactionMap)) scattering_codes = true)
    by (vm_compute; reflexivity).
  rewrite forallb_forall in F. specialize (F c H). apply andb_true_iff in F.
  now rewrite !smem_In in F.
Qed.

(** The shape of a successful process. *)
Lemma process_inv : forall g compounds ign xl p, process_of_results g compounds ign xl = Ok p ->
  exists products0, map_res (setProduct g ign) (skipn 2 xl) = Ok products0 /\
    setResidual g (p_targ p) (p_proj p) products0 = Ok (p_products p, p_residual p) /\
    exists x0 x1, nth_error xl 0 = Some x0 /\ nth_error xl 1 = Some x1 /\
      setParticleType g ign x0 = Ok (p_targ p) /\ setParticleType g ign x1 = Ok (p_proj p).
Proof.
  intros g compounds ign xl p H. unfold process_of_results in H.
  apply bind_ok in H. destruct H as (x0 & E0 & H). apply bind_ok in H. destruct H as (targ & Et & H).
  apply bind_ok in H. destruct H as (x1 & E1 & H). apply bind_ok in H. destruct H as (proj & Ej & H).
  apply bind_ok in H. destruct H as (products & Ep & H). apply bind_ok in H. destruct H as ([ps r] & Er & H).
  apply bind_ok in H. destruct H as (t & _ & H). injection H as <-. cbn.
  exists products. repeat split; auto. exists x0, x1. apply of_option_ok in E0, E1. auto.
Qed.

Lemma computed_residual_value : forall g dz da r, parses_as g "E" ->
  computed_residual g dz da = Ok (RPart r) -> has_nucleons (RPart r) /\ getZ r = Ok dz /\ getA r = Ok da.
Proof.
  intros g dz da r G H. unfold computed_residual, X4Nucleus_of_parts in H.
  destruct (endl_ZSymbol dz) as [sym|] eqn:S.
  - injection H as <-. cbn [getZ getA]. rewrite !int_of_z_to_str. repeat split; auto.
    eexists. split; [reflexivity|]. discriminate.
  - destruct ((dz =? -1)%Z && (da =? 0)%Z) eqn:C1.
    + apply andb_true_iff in C1. rewrite !Z.eqb_eq in C1. destruct C1 as [-> ->].
      assert (E : X4Particle g (PTok (lit "E")) = Ok (PParticle (NInt 1) (lit "E") (-1) 0)).
      { unfold X4Particle. change (str_eqb (lit "E") (lit "0")) with false. cbv iota.
        change (upper (lit "E")) with (lit "E"). unfold parses_as in G. rewrite G. vm_compute. reflexivity. }
      rewrite E in H. cbn [bind] in H. injection H as <-. repeat split; auto.
      eexists. split; [reflexivity|]. discriminate.
    + destruct ((dz =? 1)%Z && (da =? 0)%Z) eqn:C2.
      * apply andb_true_iff in C2. rewrite !Z.eqb_eq in C2. destruct C2 as [-> _]. vm_compute in S. discriminate.
      * destruct (_ || _); discriminate.
Qed.

Lemma setResidual_conserves : forall g targ proj products0 products r tz ta pz pa,
  parses_as g "E" ->
  setResidual g targ proj products0 = Ok (products, RPart r) ->
  find (fun c => has_channel c products0) leave_target = None ->
  has_nucleons (RPart r) ->
  prodZ targ = Ok tz -> prodA targ = Ok ta -> prodZ proj = Ok pz -> prodA proj = Ok pa ->
  ~ (tz + pz = 0 /\ ta + pa = 0)%Z ->
  nuclear_sum (RPart r :: products) (tz + pz) (ta + pa).
Proof.
  intros g targ proj products0 products r tz ta pz pa G H NF HN ETZ ETA EPZ EPA NZ.
  unfold setResidual in H. rewrite NF, ETZ, ETA, EPZ, EPA in H. cbn [bind] in H.
  apply bind_ok in H. destruct H as ([[zout aout] can] & F & H).
  apply bind_ok in H. destruct H as ([ps res0] & B & H). injection H as H1 H2. subst res0.
  rewrite remove_first_part in H1. subst ps.
  destruct (tz + pz <? ta + pa)%Z eqn:HV.
  - destruct (out_heavy _ _ _ _ _ _ _ F) as (zs & sa & N & E1 & E2 & E3).
    destruct ((tz + pz =? zout) && (ta + pa =? aout))%Z eqn:C.
    + apply andb_true_iff in C. rewrite !Z.eqb_eq in C. destruct C as [C1 C2].
      apply bind_ok in B. destruct B as (r0 & L & B). injection B as <- ->.
      pose proof (last_split _ _ _ L) as S. rewrite S in N.
      apply nuclear_sum_app_inv in N. destruct N as (z1 & a1 & z2 & a2 & N1 & N2 & -> & ->).
      replace (tz + pz)%Z with (z2 + z1)%Z by lia. replace (ta + pa)%Z with (a2 + a1)%Z by lia.
      change (RPart r :: but_last products0) with ([RPart r] ++ but_last products0).
      now apply nuclear_sum_app.
    + destruct can; [|discriminate].
      apply bind_ok in B. destruct B as (r0 & CR & B). injection B as -> ->.
      apply (computed_residual_value g) in CR; auto. destruct CR as (_ & EZ & EA).
      replace (tz + pz)%Z with ((tz + pz - zout) + zs)%Z by lia.
      replace (ta + pa)%Z with ((ta + pa - aout) + sa)%Z by lia.
      constructor; auto.
  - destruct (out_light _ _ _ _ _ _ _ F) as (-> & -> & E).
    destruct ((tz + pz =? 0) && (ta + pa =? 0))%Z eqn:C.
    + exfalso. apply NZ. apply andb_true_iff in C. now rewrite !Z.eqb_eq in C.
    + destruct can; [|discriminate]. destruct (E eq_refl) as [_ ->].
      apply bind_ok in B. destruct B as (r0 & CR & B). injection B as <- ->.
      apply (computed_residual_value g) in CR; auto. destruct CR as (_ & EZ & EA).
      replace (tz + pz)%Z with ((tz + pz - 0) + 0)%Z by lia.
      replace (ta + pa)%Z with ((ta + pa - 0) + 0)%Z by lia.
      constructor; auto. constructor.
Qed.

Lemma residual_conserves : forall g compounds ign xl p r tz ta pz pa,
  parses_as g "E" ->
  process_of_results g compounds ign xl = Ok p ->
  p_residual p = RPart r -> has_nucleons (RPart r) ->
  (forall c, In c scattering_codes -> p_products p <> [RStr c]) ->
  prodZ (p_targ p) = Ok tz -> prodA (p_targ p) = Ok ta ->
  prodZ (p_proj p) = Ok pz -> prodA (p_proj p) = Ok pa ->
  ~ (tz + pz = 0 /\ ta + pa = 0)%Z ->
  nuclear_sum (RPart r :: p_products p) (tz + pz) (ta + pa).
Proof.
  intros g compounds ign xl p r tz ta pz pa G H R HN NS E1 E2 E3 E4 NZ.
  destruct (process_inv _ _ _ _ _ H) as (products0 & M & S & _).
  rewrite R in S.
  destruct (find (fun c => has_channel c products0) leave_target) as [c|] eqn:F.
  - exfalso. destruct (find_leave _ _ F) as [I1 I2].
    destruct (product_strings _ _ _ _ M _ I2) as [_ I3].
    apply (NS c); [now apply leave_codes|].
    unfold setResidual in S. rewrite F in S. apply bind_ok in S. destruct S as (a & _ & S). now injection S as <- _.
  - eapply setResidual_conserves; eauto.
Qed.

(** * Scattering *)

Lemma has_channel_In : forall c products, has_channel c products = true <-> In (RStr c) products.
Proof.
  intros. unfold has_channel. rewrite existsb_exists. split.
  - intros (x & I & E). destruct x; try discriminate. apply str_eqb_eq in E. now subst.
  - intro I. exists (RStr c). split; auto. apply str_eqb_refl.
Qed.

Lemma scattering_leaves_target : forall g compounds ign xl p c,
  process_of_results g compounds ign xl = Ok p ->
  In c scattering_codes -> In (PTok c) (skipn 2 xl) ->
  p_residual p = p_targ p /\
  exists c', In c' scattering_codes /\ In (PTok c') (skipn 2 xl) /\ p_products p = [RStr c'].
Proof.
  intros g compounds ign xl p c H I J.
  destruct (process_inv _ _ _ _ _ H) as (products0 & M & S & _).
  destruct (codes_leave c I) as [L K].
  assert (P : In (RStr c) products0).
  { clear S. apply map_res_Forall2 in M.
    induction M as [|x y l m Hx F IH]; [destruct J|]. destruct J as [->|J]; [|right; auto].
    left. cbn [setProduct] in Hx. apply (dhas_keys str_eqb str_eqb_eq) in K. rewrite K in Hx. congruence. }
  destruct (find (fun c => has_channel c products0) leave_target) as [c'|] eqn:F.
  - destruct (find_leave _ _ F) as [I1 I2].
    destruct (product_strings _ _ _ _ M _ I2) as [I4 I3].
    unfold setResidual in S. rewrite F in S. apply bind_ok in S. destruct S as (a & _ & S).
    injection S as E1 E2. split; [now symmetry|]. exists c'. repeat split; auto. now apply leave_codes.
  - exfalso. pose proof (find_none _ _ F c L) as N. cbv beta in N.
    apply has_channel_In in P. congruence.
Qed.

(** * Capture *)

Lemma capture_residual : forall g compounds ign t j tp jp tz ta pz pa,
  parses_as g "G" ->
  setParticleType g ign t = Ok (RPart tp) -> setParticleType g ign j = Ok (RPart jp) ->
  getZ tp = Ok tz -> getA tp = Ok ta -> getZ jp = Ok pz -> getA jp = Ok pa ->
  ta <> 0%Z -> (0 <= tz + pz < 119)%Z -> (tz + pz < ta + pa)%Z ->
  exists p z s a, process_of_results g compounds ign [t; j; PTok (lit "G")] = Ok p /\
    p_residual p = RPart (PNucleus z s a) /\
    getZ (PNucleus z s a) = Ok (tz + pz)%Z /\ getA (PNucleus z s a) = Ok (ta + pa)%Z /\
    exists sym, endl_ZSymbol (tz + pz) = Some sym /\ s = capitalize sym.
Proof.
  intros g compounds ign t j tp jp tz ta pz pa G ST SJ TZ TA PZ PA NZ RG HV.
  destruct (proj2 (ZSymbol_known (tz + pz)) RG) as (sym & SY).
  assert (GP : setProduct g ign (PTok (lit "G")) = Ok (RPart (PParticle (NInt 1) (lit "G") 0 0))).
  { cbn [setProduct]. change (dhas str_eqb (lit "G") x4ReactionMap) with false. cbv iota.
    unfold setParticleType. match goal with |- context [smem ?a ?b] => change (smem a b) with false end. cbv iota.
    unfold X4Particle. change (str_eqb (lit "G") (lit "0")) with false. cbv iota.
    change (upper (lit "G")) with (lit "G"). unfold parses_as in G. rewrite G. vm_compute. reflexivity. }
  eexists. exists (z_to_str (tz + pz)), (capitalize sym), (z_to_str (ta + pa)). split; [|split; [|split; [|split]]].
  - unfold process_of_results. change (skipn 2 [t; j; PTok (lit "G")]) with [PTok (lit "G")].
    cbn [idx nth_error of_option bind]. rewrite ST. cbn [bind]. rewrite SJ. cbn [bind].
    cbn [map_res]. rewrite GP. cbn [bind].
    unfold setResidual. cbn [prodZ prodA].
    match goal with |- context [find ?f leave_target] => change (find f leave_target) with (@None str) end.
    cbv iota. rewrite TZ, TA, PZ, PA. cbn [bind].
    replace (tz + pz <? ta + pa)%Z with true by (symmetry; now apply Z.ltb_lt).
    cbn [fold_res out_step counts andb prodZ prodA getZ getA times bind].
    replace ((tz + pz =? 0 + 1 * 0) && (ta + pa =? 0 + 1 * 0))%Z with false.
    2:{ symmetry. apply andb_false_iff. right. apply Z.eqb_neq. lia. }
    replace (negb (ta =? 0)%Z) with true by (symmetry; apply negb_true_iff, Z.eqb_neq; auto).
    cbv iota. replace (tz + pz - (0 + 1 * 0))%Z with (tz + pz)%Z by lia.
    replace (ta + pa - (0 + 1 * 0))%Z with (ta + pa)%Z by lia.
    unfold computed_residual, X4Nucleus_of_parts. rewrite SY. cbn [bind].
    rewrite remove_first_part. unfold setProcessType. cbn [map_res prod_str pretty]. 
    match goal with |- context [particle_pretty ?a ?b] =>
      let r := eval vm_compute in (particle_pretty a b) in change (particle_pretty a b) with r end.
    cbn [bind]. reflexivity.
  - reflexivity.
  - cbn [getZ]. now rewrite int_of_z_to_str.
  - cbn [getA]. now rewrite int_of_z_to_str.
  - eauto.
Qed.

(** * Combinations *)

Lemma combination_elements : forall depth g compounds x data,
  getMeasurementType depth g compounds x = Ok (MComb data) ->
  Forall2 (fun t e =>
    (exists s, t = PTok s /\ In s operators /\ e = EOp s) \/
    ((forall s, t = PTok s -> ~ In s operators) /\
     ((exists r, X4Reaction g compounds false t = Ok r /\ e = ERxn r) \/
      (X4Reaction g compounds false t = Raise IsomerMathParsingError /\ exists d, e = EIso d)))) x data.
Proof.
  intros depth g compounds x data H. unfold getMeasurementType in H.
  assert (C : X4ReactionCombination depth g compounds x = Ok data).
  { unfold caught in H.
    destruct (existsb _ math_symbols).
    - destruct (X4ReactionCombination depth g compounds x) as [d|e] eqn:E; cbn [bind] in H; [congruence|].
      destruct (exn_eqb IsomerMathParsingError e); [|discriminate].
      apply bind_ok in H. destruct H as (d & _ & H). discriminate.
    - destruct (x0 <- idx x 0 ;; r <- X4Reaction g compounds false x0 ;; Ok (MRxn r)) as [m|e] eqn:E.
      + injection H as ->. apply bind_ok in E. destruct E as (x0 & _ & E).
        apply bind_ok in E. destruct E as (r & _ & E). discriminate.
      + destruct (exn_eqb IsomerMathParsingError e); [|discriminate].
        apply bind_ok in H. destruct H as (d & _ & H). discriminate. }
  unfold X4ReactionCombination in C. apply map_res_Forall2 in C. clear H.
  assert (CA : forall (r : res element) h e, caught IsomerMathParsingError r h = Ok e ->
     r = Ok e \/ r = Raise IsomerMathParsingError /\ h = Ok e).
  { intros r h e E. unfold caught in E. destruct r as [a|ex]; [auto|].
    destruct ex; cbn in E; try discriminate. auto. }
  assert (RX : forall t e h, (forall s, t = PTok s -> ~ In s operators) ->
     caught IsomerMathParsingError (r <- X4Reaction g compounds false t ;; Ok (ERxn r)) h = Ok e ->
     (h = Ok e -> exists d, e = EIso d) ->
     (exists s, t = PTok s /\ In s operators /\ e = EOp s) \/
     ((forall s, t = PTok s -> ~ In s operators) /\
     ((exists r, X4Reaction g compounds false t = Ok r /\ e = ERxn r) \/
      (X4Reaction g compounds false t = Raise IsomerMathParsingError /\ exists d, e = EIso d)))).
  { intros t e h NO E HI. right. split; auto. apply CA in E. destruct E as [E|[E HH]].
    - left. apply bind_ok in E. destruct E as (r & Er & E). injection E as <-. eauto.
    - right. split; auto. destruct (X4Reaction g compounds false t); [discriminate|cbn in E; congruence]. }
  induction C as [|t e l m Hx F IH]; constructor; auto.
  destruct t as [s|tl]; cbn [getStrOrX4Reaction] in Hx.
  - destruct (smem s math_symbols) eqn:E.
    + left. exists s. apply smem_In in E. injection Hx as <-. auto.
    + eapply RX; [|exact Hx|].
      * intros s' X. injection X as <-. now apply smem_not_In in E.
      * intro X. apply bind_ok in X. destruct X as (l' & _ & X). apply bind_ok in X.
        destruct X as (d & _ & X). injection X as <-. eauto.
  - eapply RX; [|exact Hx|].
    + intros s' X. discriminate.
    + intro X. apply bind_ok in X. destruct X as (d & _ & X). injection X as <-. eauto.
Qed.

Lemma schematic_spells : forall data i, (forall d, ~ In (EIso d) data) ->
  spells i data (flat_map (fun e => match e with ERxn r => [r] | _ => [] end) data) (schematic i data).
Proof.
  induction data as [|e data IH]; intros i N; cbn [flat_map schematic].
  - constructor.
  - assert (N' : forall d, ~ In (EIso d) data) by (intros d I; apply (N d); now right).
    destruct e as [s|r|d].
    + constructor. now apply IH.
    + cbn [app]. constructor. now apply IH.
    + exfalso. apply (N d). now left.
Qed.

Lemma equation_spells : forall m data, m = MComb data \/ m = MIso data -> (forall d, ~ In (EIso d) data) ->
  exists eq, getEquation_schematic m = inr eq /\ spells 0 data (getX4ReactionList m) eq.
Proof.
  intros m data E N. exists (schematic 0 data). destruct E as [-> | ->]; (split; [reflexivity|]);
    now apply schematic_spells.
Qed.

Lemma reaction_list_order : forall data l, getReactionList data = l <-> left_to_right data l.
Proof.
  intros data l. split.
  - intros <-. unfold getReactionList.
    assert (E : forall e rest k, left_to_right rest k -> left_to_right (e :: rest) (element_reactions e ++ k)).
    { fix IH 1. intros [s|r|d] rest k H; cbn [element_reactions app].
      - now constructor.
      - now constructor.
      - apply ltr_isomers; [|exact H]. clear H.
        induction d as [|e d IHd]; cbn [flat_map]; [constructor|]. apply IH. exact IHd. }
    induction data as [|e d IHd]; cbn [flat_map]; [constructor|]. now apply E.
  - induction 1; unfold getReactionList in *; cbn [flat_map element_reactions app]; congruence.
Qed.
