(** Reactions of known codes in full are read. *)
From Coq Require Import String List Ascii NArith ZArith Bool Arith Lia.
From Verif.Model Require Import Py Dicts Particle Reaction Field Pyparsing Grammars.
From Verif.Spec Require Import Text Codes General Nuclear Balance Known GeneralKnown.
From Verif.Proofs Require Import StrLemmas NumLemmas IntLemmas DictLemmas ReactionLemmas ParseLemmas GrammarLemmas GrammarCodes GrammarReactions GrammarGeneral GrammarFields BalanceLemmas KnownLemmas.
Import ListNotations.
Local Open Scope string_scope.
Local Open Scope list_scope.
Local Open Scope nat_scope.

(** ** Compounds *)
Lemma split_first : forall c a b, ~ In c a -> split_char c (a ++ c :: b) = a :: split_char c b.
Proof.
  intros c a b N. induction a as [|x a IH].
  - cbn [app split_char]. now rewrite Ascii.eqb_refl.
  - cbn [app split_char]. destruct (Ascii.eqb x c) eqn:E; [apply Ascii.eqb_eq in E; subst; exfalso; apply N; now left|].
    rewrite IH by (intro I; apply N; now right). reflexivity.
Qed.
Lemma compound_split : forall k z s, compound_of k z s -> exists r, split_char "-"%char k = z :: s :: r.
Proof.
  intros k z s (t & -> & [_ Z] & [_ S]). 
  assert (NZ : ~ In "-"%char z) by (intros I; rewrite Forall_forall in Z; specialize (Z _ I); unfold digit in Z; vm_compute in Z; destruct Z as [Z _]; now apply Z).
  assert (NS : ~ In "-"%char s).
  { intros I. rewrite Forall_forall in S. specialize (S _ I). apply letter_alpha in S. discriminate S. }
  change (z ++ tx "-" ++ s ++ tx "-" ++ t) with (z ++ "-"%char :: (s ++ "-"%char :: t)).
  rewrite (split_first _ _ _ NZ), (split_first _ _ _ NS). eauto.
Qed.

Section Codes.
Context (c : codes) (KP : Forall particle_key (c_particles c)) (KC : Forall compound_key (c_compounds c)).

(** Charge, mass number, and a name when the compounds have names. *)
Definition sturdy (p : particle) : Prop :=
  (exists z, getZ p = Ok z) /\ (exists a, getA p = Ok a) /\ forall d, has_names (c_compounds c) d -> exists t, pretty d p = Ok t.
Lemma weighty_sturdy : forall p, weighty p -> sturdy p.
Proof. intros p (Z & A & _ & P). split; [exact Z|]. split; [exact A|]. intros d _. apply P. Qed.

Lemma chemical_text : forall k, In k (c_compounds c) -> g_chemical (x4grammars c) k = Some [PTok k].
Proof.
  intros k I. change (g_chemical (x4grammars c) k) with (parseString (x4chemical_compound c) k).
  unfold parseString, expandtabs.
  assert (Q := compound_chars c KC k I). rewrite forallb_forall in Q.
  rewrite expandtabs_id by (intros T; specialize (Q _ T); discriminate Q).
  rewrite (compound_read c KC k [] k I); [reflexivity| |exact Logic.I].
  rewrite app_nil_r. destruct k as [|a k]; [reflexivity|]. specialize (Q a (or_introl eq_refl)).
  assert (W : is_white a = false) by (apply negb_true_iff; chars Q). cbn [skip_white]. now rewrite W.
Qed.

Lemma compound_known : forall ign k, In k (c_compounds c) ->
  exists p, setParticleType (x4grammars c) ign (PGroup [PTok k]) = Ok (RPart p) /\ spot_object (Compound k) p /\ sturdy p /\ counts (RPart p) = false.
Proof.
  intros ign k I. destruct (proj1 (Forall_forall _ _) KC k I) as (z & s & a & t & E & Z & S & A & _).
  assert (CO : compound_of k z s) by (exists (a :: t); auto).
  destruct (digits_number z Z) as (zn & N). exists (PCompound k s zn). split; [|split; [econstructor; eauto|split; [|reflexivity]]].
  - cbn [setParticleType]. 
    assert (L : 4 <? length k = true).
    { rewrite E. rewrite !app_length. cbn [length tx list_ascii_of_string]. destruct Z as [Z _], S as [S _]. destruct z; [congruence|]. destruct s; [congruence|].
      cbn [length]. apply Nat.ltb_lt. lia. }
    rewrite L. unfold X4ChemicalCompound. rewrite (chemical_text k I). cbn [of_option bind idx nth_error tok].
    destruct (compound_split k z s CO) as (r & ->). cbn [idx nth_error of_option bind]. rewrite (number_int _ _ N). reflexivity.
  - split; [eexists; reflexivity|]. split; [eexists; reflexivity|]. intros d D. cbn [pretty]. destruct (D k I) as (row & -> & NE).
    cbn [of_option bind]. apply idx_first. exact NE.
Qed.
Lemma variable_sturdy : forall w, sturdy (PVariable w).
Proof.
  intros w. split; [eexists; reflexivity|]. split; [eexists; reflexivity|]. intros d _. cbn [pretty].
  unfold particle_pretty, several. cbn [bind]. eexists. reflexivity.
Qed.
Lemma sum_known : forall ign w, In w residual_sums -> setParticleType (x4grammars c) ign (PTok w) = Ok (RPart (PVariable w)).
Proof. intros ign w I. unfold residual_sums, target_sums in I. cbn [app In] in I. destruct I as [<-|[<-|[<-|[<-|[]]]]]; reflexivity. Qed.

Lemma spot_known : forall x, good_spot residual_sums (c_compounds c) x -> known_spot x ->
  exists p, setParticleType (x4grammars c) false (spot_tree x) = Ok (RPart p) /\ spot_object x p /\ sturdy p /\
    counts (RPart p) = (match x with Compound _ => false | _ => true end).
Proof.
  intros [n|k|w] G K; cbn [good_spot known_spot spot_tree] in *.
  - destruct (nuclide_known c false n eq_refl G K) as (p & E & O & W). exists p. split; [exact E|]. split; [now constructor|].
    split; [now apply weighty_sturdy|]. apply W.
  - exact (compound_known false k G).
  - exists (PVariable w). split; [now apply sum_known|]. split; [constructor|]. split; [apply variable_sturdy|reflexivity].
Qed.
Lemma target_residual : forall x, good_spot target_sums (c_compounds c) x -> good_spot residual_sums (c_compounds c) x.
Proof. intros [n|k|w] G; cbn [good_spot] in *; try exact G. unfold residual_sums. apply in_or_app. now left. Qed.

(** ** Products *)
Definition firm (p : product) : Prop := (exists s, p = RStr s) \/ exists q, p = RPart q /\ sturdy q.
Lemma solid_firm : forall p, solid p -> firm p.
Proof. intros p [H|(q & -> & W)]; [now left|right]. exists q. split; [reflexivity|now apply weighty_sturdy]. Qed.

Lemma spot_product : forall x, good_spot residual_sums (c_compounds c) x ->
  setProduct (x4grammars c) false (spot_tree x) = setParticleType (x4grammars c) false (spot_tree x).
Proof.
  intros [n|k|w] G; try reflexivity. cbn [good_spot spot_tree] in *. cbn [setProduct]. unfold residual_sums, target_sums in G. cbn [app In] in G.
  destruct G as [<-|[<-|[<-|[<-|[]]]]]; reflexivity.
Qed.

Lemma extra_known : forall w z a, In (w, (z, a)) particle_codes ->
  map_res (setProduct (x4grammars c) false) [PTok (tx "X"); PTok (tx w)] = Ok [RStr (tx "X"); RPart (PParticle (NInt 1) (tx w) z a)].
Proof.
  intros w z a I. cbn [map_res]. change (setProduct (x4grammars c) false (PTok (tx "X"))) with (@Ok product (RStr (tx "X"))). cbn [bind].
  cbn [setProduct]. rewrite (particle_not_process _ _ _ I), (particle_one c false w z a I). reflexivity.
Qed.

Definition counted_all (ps : list product) : Prop := Forall (fun p => counts p = true) ps.
Lemma outgoing_known : forall o, good_outgoing (c_particles c) o -> known_outgoing o ->
  exists ps, map_res (setProduct (x4grammars c) false) (outgoing_trees o) = Ok ps /\ outgoing_objects o ps /\ Forall firm ps /\
    (vague o -> exists s, In (RStr s) ps) /\ (~ vague o -> exists q, ps = [RPart q] /\ counts (RPart q) = true).
Proof.
  intros [x|w] G K; cbn [good_outgoing known_outgoing outgoing_trees vague] in *.
  - assert (PK : exists p, setProduct (x4grammars c) false (code_tree x) = Ok p /\ product_meaning x p /\ solid p /\
      (process_code x -> exists s, p = RStr s) /\ (~ process_code x -> exists q, p = RPart q)).
    { destruct G as [G| ->]; [exact (product_known c (c_particles c) x G K)|]. exists (RStr (tx "0")). split; [reflexivity|].
      split; [apply means_process with (name := "None"); cbn; tauto|]. split; [left; eauto|]. split; [eauto|].
      intros NP. destruct NP. exists "0". split; [cbn; tauto|reflexivity]. }
    destruct PK as (p & E & O & S & A & B). exists [p]. split; [cbn [map_res]; rewrite E; reflexivity|].
    split; [now constructor|]. split; [constructor; [now apply solid_firm|constructor]|]. split.
    + intros V. destruct (A V) as (s & ->). exists s. now left.
    + intros V. destruct (B V) as (q & ->). exists q. split; [reflexivity|]. destruct S as [(s & Q)|(q' & Q & W)]; [discriminate|].
      assert (q' = q) by congruence. subst. apply W.
  - destruct K as (w' & I & ->). apply in_map_iff in I. destruct I as ([s [z a]] & <- & I). cbn [fst] in *.
    eexists. split; [exact (extra_known s z a I)|]. split; [now constructor|]. split.
    + constructor; [left; eauto|]. constructor; [|constructor]. right. eexists. split; [reflexivity|]. apply weighty_sturdy, particle_weighty.
    + split; [intros _; exists (tx "X"); now left|]. intros V. now contradiction V.
Qed.
Lemma outgoings_known : forall l, Forall (good_outgoing (c_particles c)) l -> Forall known_outgoing l ->
  exists pss, map_res (setProduct (x4grammars c) false) (flat_map outgoing_trees l) = Ok (concat pss) /\ Forall2 outgoing_objects l pss /\
    Forall firm (concat pss) /\ (Exists vague l -> exists s, In (RStr s) (concat pss)) /\
    (~ Exists vague l -> exists qs, concat pss = map RPart qs /\ pss = map (fun q => [RPart q]) qs /\ Forall (fun q => counts (RPart q) = true) qs).
Proof.
  intros l G K. induction l as [|o l IH].
  - exists []. split; [reflexivity|]. split; [constructor|]. split; [constructor|]. split; [intros H; inversion H|]. intros _. exists [].
    split; [reflexivity|]. split; [reflexivity|constructor].
  - inversion G as [|? ? Go Gl]; subst. inversion K as [|? ? Ko Kl]; subst. destruct (IH Gl Kl) as (pss & E & F & S & A & B).
    destruct (outgoing_known o Go Ko) as (ps & Ep & Op & Sp & Ap & Bp).
    exists (ps :: pss). cbn [flat_map concat]. split; [now apply map_res_app|]. split; [now constructor|]. split; [apply Forall_app; now split|]. split.
    + intros H. inversion H as [? ? H1|? ? H1]; subst; [destruct (Ap H1) as (s & I)|destruct (A H1) as (s & I)]; exists s; apply in_or_app; auto.
    + intros H. destruct B as (qs & -> & -> & C); [intros Q; apply H; now right|]. destruct Bp as (q & -> & Cq); [intros Q; apply H; now left|].
      exists (q :: qs). split; [reflexivity|]. split; [reflexivity|now constructor].
Qed.

(** ** Charges *)
Lemma spot_charged : forall x p z, spot_object x p -> spot_charge x z -> getZ p = Ok z.
Proof.
  intros x p z O C. destruct O as [n p O|k z' s zn CO N|w]; inversion C as [n0 z0 N0 Q|k0 z0 s0 zn0 CO0 N0 Q|w0 Q]; subst.
  - eapply nuclide_charge; eauto.
  - destruct (compound_split _ _ _ CO) as (r & E), (compound_split _ _ _ CO0) as (r' & E'). rewrite E in E'. cbn [getZ]. f_equal.
    assert (z0 = z') by congruence. subst. eapply number_functional; eauto.
  - reflexivity.
Qed.

(** ** The residual *)
Lemma out_any_firm : forall heavy ps z a can, Forall firm ps ->
  exists z' a' can', fold_res (out_step heavy) ps (z, a, can) = Ok (z', a', can') /\
    ((exists p, In p ps /\ counts p = false) -> can' = false) /\ (can = false -> can' = false) /\
    (heavy = false -> ps <> [] -> can' = false).
Proof.
  intros heavy ps. induction ps as [|p ps IH]; intros z a can F.
  - exists z, a, can. split; [reflexivity|]. split; [intros (s & [] & _)|]. split; [auto|]. intros _ H. now contradiction H.
  - inversion F as [|? ? Fp Fl]; subst. cbn [fold_res]. unfold out_step at 1. destruct (counts p && heavy) eqn:CH.
    + apply andb_prop in CH. destruct CH as [CP ->]. destruct Fp as [(s & ->)|(q & -> & (zq & Zq) & (aq & Aq) & _)]; [discriminate|].
      cbn [prodZ prodA]. rewrite Zq, Aq. cbn [bind]. destruct (IH (z + zq)%Z (a + aq)%Z can Fl) as (z' & a' & can' & E & B & D & _).
      exists z', a', can'. split; [exact E|]. split; [intros (p & [<-|I] & C); [congruence|eauto]|]. split; [exact D|]. intros Q. discriminate.
    + cbn [bind]. destruct (IH z a false Fl) as (z' & a' & can' & E & _ & D & _). exists z', a', can'. split; [exact E|].
      specialize (D eq_refl). auto.
Qed.
Lemma out_charge_firm : forall qs zs, Forall2 (fun q z => getZ q = Ok z) qs zs -> Forall (fun q => counts (RPart q) = true) qs -> Forall firm (map RPart qs) ->
  forall z a can, exists a', fold_res (out_step true) (map RPart qs) (z, a, can) = Ok ((z + fold_right Z.add 0 zs)%Z, a', can).
Proof.
  intros qs zs F. induction F as [|q zq qs zs Q F IH]; intros C S z a can.
  - exists a. cbn [map fold_res fold_right]. now rewrite Z.add_0_r.
  - inversion C as [|? ? Cq Cl]; subst. cbn [map] in S. inversion S as [|? ? Sp Sl]; subst.
    destruct Sp as [(s & E)|(q' & E & _ & (aq & Aq) & _)]; [discriminate|]. assert (q' = q) by congruence. subst q'.
    cbn [map fold_res]. unfold out_step at 1. rewrite Cq. cbn [andb prodZ prodA]. rewrite Q, Aq. cbn [bind].
    destruct (IH Cl Sl (z + zq)%Z (a + aq)%Z can) as (a' & E'). exists a'. rewrite E'. cbn [fold_right]. do 3 f_equal. lia.
Qed.
Lemma symbols_none : forall z, (1000 < Z.abs z)%Z -> endl_ZSymbol z = None.
Proof.
  intros z H. destruct (endl_ZSymbol z) as [s|] eqn:E; [|reflexivity]. exfalso.
  assert (R : (0 <= z < 119)%Z) by (apply ZSymbol_known; eauto). lia.
Qed.
Lemma computed_firm : forall dz da, (0 <= dz < 119 \/ 1000 < Z.abs dz)%Z ->
  exists R, computed_residual (x4grammars c) dz da = Ok R /\ (R = RNone \/ exists q, R = RPart q /\ sturdy q).
Proof.
  intros dz da [H|H]; unfold computed_residual, X4Nucleus_of_parts.
  - destruct (proj2 (ZSymbol_known dz) H) as (sym & ->). eexists. split; [reflexivity|]. right. eexists. split; [reflexivity|].
    split; [eexists; cbn [getZ]; now rewrite int_of_z_to_str|].
    split; [eexists; cbn [getA]; now rewrite int_of_z_to_str|]. intros cs _. eexists. reflexivity.
  - rewrite (symbols_none _ H).
    assert (E1 : (dz =? -1)%Z = false) by (apply Z.eqb_neq; lia). assert (E2 : (dz =? 1)%Z = false) by (apply Z.eqb_neq; lia).
    assert (E3 : (1000 <? Z.abs dz)%Z = true) by (apply Z.ltb_lt; lia). rewrite E1, E2, E3. cbn [andb orb]. eauto.
Qed.

Lemma residual_firm : forall ps T J tz pz, sturdy T -> sturdy J -> getZ T = Ok tz -> getZ J = Ok pz ->
  Forall firm ps -> ps <> [] ->
  (exists p, In p ps /\ counts p = false) \/
  (exists qs zs, ps = map RPart qs /\ Forall (fun q => counts (RPart q) = true) qs /\ Forall2 (fun q z => getZ q = Ok z) qs zs /\
     let d := (tz + pz - fold_right Z.add 0 zs)%Z in (0 <= d < 119 \/ 1000 < Z.abs d)%Z) ->
  exists out R, setResidual (x4grammars c) (RPart T) (RPart J) ps = Ok (out, R) /\ Forall firm out /\ (R = RNone \/ firm R) /\
    ((forall s, ~ In (RStr s) ps) -> out = ps \/ out ++ [R] = ps) /\
    ((forall s, In (RStr s) ps -> ~ In s leave_target) -> (exists p, In p ps /\ counts p = false) ->
       (out = ps /\ R = RNone) \/ out ++ [R] = ps \/ exists s, R = RStr s) /\
    ((exists s, In (RStr s) ps /\ In s leave_target) -> exists s, In (RStr s) ps /\ In s leave_target /\ out = [RStr s] /\ R = RPart T).
Proof.
  intros ps T J tz pz WT (_ & (pa & JA) & _) TZ JZ S NE H. pose proof WT as (_ & (ta & TA) & _).
  unfold setResidual. cbn [prodZ prodA]. rewrite TA. cbn [bind].
  destruct (find (fun ch => has_channel ch ps) leave_target) as [ch|] eqn:EC.
  { exists [RStr ch], (RPart T). split; [reflexivity|]. split; [constructor; [left; eauto|constructor]|].
    split; [right; right; eauto|]. apply find_some in EC. destruct EC as [IC EC]. unfold has_channel in EC.
    apply existsb_exists in EC. destruct EC as ([s|q|] & I & Q); try discriminate Q. apply str_eqb_eq in Q. subst s.
    split; [intros N; exfalso; exact (N ch I)|]. split; [intros N _; exfalso; exact (N ch I IC)|]. intros _. exists ch. auto. }
  assert (NS : ~ exists s, In (RStr s) ps /\ In s leave_target).
  { intros (s & I & L). pose proof (find_none _ _ EC s L) as Q. cbn beta in Q. unfold has_channel in Q.
    rewrite <- not_true_iff_false in Q. apply Q. apply existsb_exists. exists (RStr s). split; [exact I|apply str_eqb_refl]. }
  rewrite TZ, JZ, JA. cbn [bind].
  destruct (out_any_firm (tz + pz <? ta + pa)%Z ps 0%Z 0%Z (negb (ta =? 0)%Z) S) as (z' & a' & can & E & C1 & _ & C3).
  rewrite E. cbn [bind].
  destruct ((tz + pz =? z') && (ta + pa =? a'))%Z.
  { destruct (last_of_some _ ps NE) as (t & x & -> & -> & ->). cbn [bind]. exists (remove_first x t), x.
    apply Forall_app in S. destruct S as [St Sx]. inversion Sx as [|? ? Sx' _]; subst.
    split; [reflexivity|]. split.
    - clear - St. induction St as [|y t Y St IH]; [constructor|]. cbn [remove_first]. destruct (same_value x y); [exact St|now constructor].
    - split; [right; exact Sx'|]. split; [|split; [|intros Q; contradiction]].
      2:{ intros _ _. right. destruct Sx' as [(s & ->)|(q & -> & _)]; [right; eauto|left; now rewrite remove_first_part]. }
      intros N. right. f_equal. destruct Sx' as [(s & ->)|(q & -> & _)]; [|apply remove_first_part].
      exfalso. apply (N s). apply in_or_app. right. now left. }
  destruct can.
  2:{ exists (remove_first RNone ps), RNone. cbn [bind]. split; [reflexivity|].
      assert (RN : remove_first RNone ps = ps).
      { clear - S. induction S as [|y t Y S IH]; [reflexivity|]. cbn [remove_first]. destruct Y as [(s & ->)|(q & -> & _)]; cbn [same_value]; now rewrite IH. }
      rewrite RN. split; [exact S|]. split; [now left|]. split; [auto|]. split; [auto|]. intros Q; contradiction. }
  destruct H as [H|(qs & zs & -> & CQ & F2 & RG)]; [specialize (C1 H); discriminate|].
  destruct (tz + pz <? ta + pa)%Z; [|specialize (C3 eq_refl NE); discriminate].
  destruct (out_charge_firm qs zs F2 CQ S 0%Z 0%Z (negb (ta =? 0)%Z)) as (a'' & E'). rewrite E' in E.
  assert (z' = fold_right Z.add 0%Z zs) by (injection E as <- _ _; lia). subst z'.
  destruct (computed_firm _ (ta + pa - a')%Z RG) as (R & -> & FR). cbn [bind].
  exists (map RPart qs), R. destruct FR as [->|(q & -> & SQ)].
  - assert (RN : remove_first RNone (map RPart qs) = map RPart qs) by (clear; induction qs as [|q qs IH]; [reflexivity|]; cbn [map remove_first same_value]; now rewrite IH).
    rewrite RN. split; [reflexivity|]. split; [exact S|]. split; [now left|]. split; [auto|]. split; [auto|]. intros Q; contradiction.
  - rewrite remove_first_part. split; [reflexivity|]. split; [exact S|]. split; [right; right; eauto|]. split; [auto|]. split; [|intros Q; contradiction].
    intros _ (p & I & CP). exfalso. apply in_map_iff in I. destruct I as (q' & <- & I). pose proof (proj1 (Forall_forall _ _) CQ q' I). cbn beta in *. congruence.
Qed.

Lemma firm_type : forall d ps, has_names (c_compounds c) d -> Forall firm ps -> exists t, setProcessType d ps = Ok t.
Proof.
  intros d ps D S. unfold setProcessType.
  assert (G : exists l, map_res (prod_str d) ps = Ok l).
  { induction S as [|p ps Sp S (l & IH)]; [now exists []|].
    assert (P : exists t, prod_str d p = Ok t).
    { destruct Sp as [(s & ->)|(q & -> & _ & _ & P)]; [eexists; reflexivity|]. destruct (P d D) as (t & T). exists t. exact T. }
    destruct P as (t & P). exists (t :: l). cbn [map_res]. rewrite P. cbn [bind]. now rewrite IH. }
  destruct G as (l & ->). eexists. reflexivity.
Qed.

(** ** Reactions *)
Record gmade (compounds : x4dict) (r : gcode) (rx : reaction) (T J : particle) (objs : list product) : Prop := {
  gmade_targ : p_targ (r_process rx) = RPart T;
  gmade_T : spot_object (gc_target r) T;
  gmade_wT : sturdy T;
  gmade_proj : p_proj (r_process rx) = RPart J;
  gmade_J : projectile_meaning (gc_projectile r) J;
  gmade_wJ : sturdy J;
  gmade_resid : setResidual (x4grammars c) (RPart T) (RPart J) objs = Ok (p_products (r_process rx), p_residual (r_process rx));
  gmade_type : setProcessType compounds (p_products (r_process rx)) = Ok (p_type (r_process rx));
  gmade_left : p_residual (r_process rx) = RNone \/ firm (p_residual (r_process rx));
  gmade_quant : r_quant rx = map PTok (general_quantities r) }.

Lemma outgoing_charged : forall l zs, outgoing_charges l zs -> forall qs, Forall2 outgoing_objects l (map (fun q => [RPart q]) qs) ->
  exists zl, Forall2 (fun q z => getZ q = Ok z) qs zl /\ fold_right Z.add 0%Z zl = zs.
Proof.
  intros l zs C. induction C as [|x l z zs C CL IH]; intros qs F; destruct qs as [|q qs]; inversion F as [|? ? ? ? O FL]; subst.
  - exists []. split; [constructor|reflexivity].
  - destruct (IH qs FL) as (zl & Z & <-). exists (z :: zl). split; [|reflexivity]. constructor; [|exact Z].
    inversion O as [x0 p O' Q1 Q2|]; subst. eapply product_charge; eauto.
Qed.

Lemma decide_scatters : forall l pss, Forall2 outgoing_objects l pss -> Exists scatters l \/ ~ Exists scatters l.
Proof.
  intros l pss _. induction l as [|o l IH]; [right; intros H; inversion H|]. destruct IH as [IH|IH]; [left; now right|].
  assert (DS : scatters o \/ ~ scatters o).
  { destruct o as [[n|w|k w]|w]; try (right; intros (v & _ & Q); discriminate).
    destruct (scattering (string_of_list_ascii w)) eqn:E.
    - left. exists (string_of_list_ascii w). split; [exact E|]. do 2 f_equal. unfold tx. now rewrite list_ascii_of_string_of_list_ascii.
    - right. intros (v & SV & Q). assert (Q' : w = tx v) by congruence. subst w. unfold tx in E. rewrite string_of_list_ascii_of_string in E. congruence. }
  destruct DS as [S|S]; [left; now left|]. right. intros H. inversion H; subst; contradiction.
Qed.
Lemma remove_first_incl : forall x (p : product) l, In p (remove_first x l) -> In p l.
Proof. intros x p. induction l as [|y l IH]; intros I; [exact I|]. cbn [remove_first] in I. destruct (same_value x y); [now right|]. destruct I as [I|I]; [now left|right; now apply IH]. Qed.
Lemma resid_incl : forall T J objs out R p, setResidual (x4grammars c) T J objs = Ok (out, R) -> In p out -> R <> T -> In p objs.
Proof.
  intros T J objs out R p E I N. unfold setResidual in E.
  destruct (prodA T) as [ta|]; [|discriminate]. cbn [bind] in E.
  destruct (find (fun ch => has_channel ch objs) leave_target); [exfalso; apply N; congruence|].
  destruct (prodZ T) as [tz|]; [|discriminate]. destruct (prodZ J) as [pz|]; [|discriminate]. cbn [bind] in E. destruct (prodA J) as [pa|]; [|discriminate]. cbn [bind] in E.
  destruct (fold_res _ _ _) as [[[zo ao] can]|]; [|discriminate]. cbn [bind] in E.
  destruct ((tz + pz =? zo) && (ta + pa =? ao))%Z.
  - destruct objs as [|x objs]; [discriminate|]. destruct (last_of_some _ (x :: objs) ltac:(discriminate)) as (t & y & EQ & L & B).
    rewrite L, B in E. cbn [bind] in E. assert (out = remove_first y t) by congruence. subst out. rewrite EQ. apply in_or_app. left. eapply remove_first_incl; eauto.
  - destruct can.
    + destruct (computed_residual _ _ _) as [y|]; [|discriminate]. cbn [bind] in E. assert (out = remove_first y objs) by congruence. subst. eapply remove_first_incl; eauto.
    + cbn [bind] in E. assert (out = remove_first RNone objs) by congruence. subst. eapply remove_first_incl; eauto.
Qed.
Lemma decide_vague : forall l pss, Forall2 outgoing_objects l pss -> Exists vague l \/ ~ Exists vague l.
Proof.
  intros l pss F. induction F as [|o ps l pss O F IH]; [right; intros H; inversion H|].
  destruct IH as [IH|IH]; [left; now right|]. destruct O as [x p M|w z a I].
  - destruct M as [w name I|w z a I|count k w z a K I|n p O].
    + left. left. cbn [vague]. exists w. split; [|reflexivity]. apply in_map_iff. exists (w, name). auto.
    + right. intros H. inversion H as [? ? H1|? ? H1]; subst; [|contradiction]. destruct H1 as (s & Is & Q).
      assert (Q' : tx w = tx s) by congruence. apply tx_inj in Q'. subst s. apply in_map_iff in Is. destruct Is as ([w' name] & Qw & Is). cbn [fst] in Qw. subst w'.
      pose proof (particle_not_process _ _ _ I) as N. unfold dhas in N. rewrite (process_is_process _ _ Is) in N. discriminate.
    + right. intros H. inversion H as [? ? H1|? ? H1]; subst; [|contradiction]. destruct H1 as (s & _ & Q). discriminate.
    + right. intros H. inversion H as [? ? H1|? ? H1]; subst; [|contradiction]. destruct H1 as (s & _ & Q). discriminate.
  - left. left. exact Logic.I.
Qed.

(** *** Scattering among the products *)
Lemma scattering_leave : forall w, scattering w = true -> In (tx w) leave_target.
Proof.
  intros w H. unfold scattering in H. apply existsb_exists in H. destruct H as (v & I & E). apply String.eqb_eq in E. subst v.
  cbn [In] in I. repeat (destruct I as [<-|I]; [vm_compute; tauto|]). destruct I.
Qed.
Lemma scattering_object : forall l pss, Forall2 outgoing_objects l pss -> forall w, scattering w = true -> In (Out (CWord (tx w))) l -> In (RStr (tx w)) (concat pss).
Proof.
  intros l pss F. induction F as [|o ps l pss O F IH]; intros w SW I; [destruct I|]. cbn [concat]. apply in_or_app.
  destruct I as [->|I]; [left|right; now apply IH]. inversion O as [x p M|]; subst.
  inversion M as [w' n' I' Q|w' z a I' Q|? ? ? ? ? ? ? Q|]; subst.
  - apply tx_inj in Q. subst. now left.
  - exfalso. apply tx_inj in Q. subst w'. unfold scattering in SW. apply existsb_exists in SW. destruct SW as (v & Iv & E). apply String.eqb_eq in E. subst v.
    pose proof (particle_not_process _ _ _ I') as D. cbn [In] in Iv. repeat (destruct Iv as [<-|Iv]; [vm_compute in D; discriminate|]). destruct Iv.
Qed.
Lemma object_scattering : forall l pss, Forall2 outgoing_objects l pss -> forall s, In (RStr s) (concat pss) -> In s leave_target ->
  exists w, scattering w = true /\ s = tx w /\ In (Out (CWord (tx w))) l.
Proof.
  intros l pss F. induction F as [|o ps l pss O F IH]; intros s I L; [destruct I|]. cbn [concat] in I. apply in_app_or in I.
  destruct I as [I|I]; [|destruct (IH s I L) as (w & ? & ? & ?); exists w; split; [assumption|split; [assumption|now right]]].
  destruct O as [x p M|w z a Iw].
  - destruct I as [->|[]]. inversion M as [w n I Q1 Q2| | |]; subst. exists w. split; [|split; [reflexivity|now left]].
    unfold process_codes in I. cbn [In] in I. repeat (destruct I as [I|I]; [injection I as <- <-; vm_compute in L; vm_compute; intuition congruence|]). destruct I.
  - exfalso. destruct I as [I|[I|[]]]; [|discriminate]. assert (s = tx "X") by congruence. subst s. vm_compute in L. intuition congruence.
Qed.

Lemma general_made : forall compounds r, good_general (c_particles c) (c_compounds c) r -> known_general r -> has_names (c_compounds c) compounds ->
  exists rx T J pss rs, X4Reaction (x4grammars c) compounds false (PGroup (general_tree r)) = Ok rx /\
    gmade compounds r rx T J (concat pss ++ rs) /\ Forall2 outgoing_objects (gc_products r) pss /\ residual_objects (gc_residual r) rs /\
    comes_out r T (concat pss ++ rs) (p_products (r_process rx)) (p_residual (r_process rx)).
Proof.
  intros compounds r (GT & GJ & (NE & GP & _) & GR & _) [KT KJ KPr KR KL] D.
  destruct (spot_known _ (target_residual _ GT) KT) as (T & ET & OT & WT & _).
  destruct (projectile_known c _ GJ KJ) as (J & EJ & OJ & WJ'). pose proof (weighty_sturdy _ WJ') as WJ. clear WJ'.
  destruct (outgoings_known _ GP KPr) as (pss & EP & F2 & S & A & B).
  assert (RS : exists rs, map_res (setProduct (x4grammars c) false) (match gc_residual r with Some n => [spot_tree n] | None => [] end) = Ok rs /\
    residual_objects (gc_residual r) rs /\ Forall firm rs /\
    ((exists k, gc_residual r = Some (Compound k)) -> exists p, In p rs /\ counts p = false) /\
    (forall zr, left_charge (gc_residual r) zr -> (exists p, In p rs /\ counts p = false) \/
       exists qs zs, rs = map RPart qs /\ Forall (fun q => counts (RPart q) = true) qs /\ Forall2 (fun q z => getZ q = Ok z) qs zs /\ fold_right Z.add 0%Z zs = zr)).
  { destruct (gc_residual r) as [x|].
    - destruct (spot_known x (GR x eq_refl) (KR x eq_refl)) as (p & E & O & W & CO). exists [RPart p].
      split; [cbn [map_res]; rewrite (spot_product x (GR x eq_refl)), E; reflexivity|].
      split; [now constructor|]. split; [constructor; [right; eauto|constructor]|]. split.
      + intros (k & Q). assert (x = Compound k) by congruence. subst x. exists (RPart p). split; [now left|exact CO].
      + intros zr C. inversion C as [|x0 z0 C0]; subst. destruct (counts (RPart p)) eqn:CP.
        * right. exists [p], [zr]. split; [reflexivity|]. split; [now constructor|]. split; [|cbn; lia]. constructor; [|constructor]. eapply spot_charged; eauto.
        * left. exists (RPart p). split; [now left|exact CP].
    - exists []. split; [reflexivity|]. split; [constructor|]. split; [constructor|]. split; [intros (k & Q); discriminate|].
      intros zr C. inversion C; subst. right. exists [], []. repeat split; constructor. }
  destruct RS as (rs & ER & OR & SR & CR & ZR).
  assert (SK : map_res (setProduct (x4grammars c) false) (skipn 2 (gprocess_tree r)) = Ok (concat pss ++ rs)).
  { unfold gprocess_tree. cbn [skipn]. now apply map_res_app. }
  assert (NP : concat pss ++ rs <> []).
  { intros Q. apply app_eq_nil in Q. destruct Q as [Q _]. inversion F2 as [|? ? ? ? O _]; subst; [congruence|]. destruct O; discriminate Q. }
  assert (SA : Forall firm (concat pss ++ rs)) by (apply Forall_app; now split).
  pose proof WT as ((tz & TZ) & _). pose proof WJ as ((pz & JZ) & _).
  assert (H : (exists p, In p (concat pss ++ rs) /\ counts p = false) \/
    (exists qs zs, concat pss ++ rs = map RPart qs /\ Forall (fun q => counts (RPart q) = true) qs /\ Forall2 (fun q z => getZ q = Ok z) qs zs /\
     let d := (tz + pz - fold_right Z.add 0 zs)%Z in (0 <= d < 119 \/ 1000 < Z.abs d)%Z)).
  { assert (VA : Exists vague (gc_products r) -> exists p, In p (concat pss ++ rs) /\ counts p = false).
    { intros V. destruct (A V) as (s & I). exists (RStr s). split; [apply in_or_app; now left|reflexivity]. }
    destruct KL as [V|[V|(zt & zj & zs & zr & C1 & C2 & C3 & C4 & RG)]].
    - left. auto.
    - left. destruct (CR V) as (p & I & C). exists p. split; [apply in_or_app; now right|exact C].
    - destruct (decide_vague _ _ F2) as [V|V]; [left; auto|].
      destruct (B V) as (qs & Q1 & -> & CQ). destruct (outgoing_charged _ _ C3 qs F2) as (zl & Z1 & <-).
      destruct (ZR zr C4) as [(p & I & C)|(qs' & zs' & -> & CQ' & Z2 & <-)]; [left; exists p; split; [apply in_or_app; now right|exact C]|].
      right. exists (qs ++ qs'), (zl ++ zs'). rewrite Q1. split; [now rewrite map_app|]. split; [apply Forall_app; now split|].
      split; [now apply Forall2_app|]. cbv zeta.
      assert (SUM : forall a b, fold_right Z.add 0%Z (a ++ b) = (fold_right Z.add 0 a + fold_right Z.add 0 b)%Z).
      { clear. induction a as [|x a IH]; intros b; [reflexivity|]. cbn [app fold_right]. rewrite IH. lia. }
      rewrite SUM. assert (zt = tz) by (pose proof (spot_charged _ _ _ OT C1); congruence).
      assert (zj = pz) by (pose proof (projectile_charge _ _ _ OJ C2); congruence). subst. exact RG. }
  destruct (residual_firm _ T J tz pz WT WJ TZ JZ SA NP H) as (out & R & SRE & SO & SR' & PART & VAGUE & SCAT).
  destruct (firm_type compounds out D SO) as (ty & TY).
  exists (mkReaction (mkProcess (RPart T) (RPart J) out R ty) (map PTok (general_quantities r))), T, J, pss, rs. split; [|split; [|split; [exact F2|split; [exact OR|]]]].
  - unfold X4Reaction, general_tree. cbn [bind idx nth_error of_option]. unfold process_of_results.
    unfold gprocess_tree at 1 2. cbn [bind idx nth_error of_option]. rewrite ET. cbn [bind]. rewrite EJ. cbn [bind].
    rewrite SK. cbn [bind]. rewrite SRE. cbn [bind]. rewrite TY. cbn [bind skipn]. reflexivity.
  - constructor; cbn [r_process r_quant p_targ p_proj p_products p_residual p_type]; auto.
  - cbn [r_process p_products p_residual].
    assert (NR : forall s, ~ In (RStr s) rs) by (intros s I; destruct OR as [|x p O]; [destruct I|destruct I as [I|[]]; discriminate]).
    constructor.
    + intros X. destruct SCAT as (s & I & L & -> & ->).
      * apply Exists_exists in X. destruct X as (o & I & w & SW & ->). exists (tx w). split; [|now apply scattering_leave].
        apply in_or_app. left. now apply (scattering_object _ _ F2).
      * apply in_app_or in I. destruct I as [I|I]; [|exfalso; exact (NR s I)].
        destruct (object_scattering _ _ F2 s I L) as (w & SW & -> & IO). exists w. auto.
    + intros V NX. apply VAGUE.
      * intros s I L. apply in_app_or in I. destruct I as [I|I]; [|exact (NR s I)].
        destruct (object_scattering _ _ F2 s I L) as (w & SW & -> & IO). apply NX. apply Exists_exists. exists (Out (CWord (tx w))). split; [exact IO|]. now exists w.
      * destruct (A V) as (s & I). exists (RStr s). split; [apply in_or_app; now left|reflexivity].
    + intros NX. apply PART. intros s I. apply in_app_or in I. destruct I as [I|I]; [|exact (NR s I)].
      destruct (B NX) as (qs & Q & _). rewrite Q in I. apply in_map_iff in I. destruct I as (? & ? & _). discriminate.
Qed.
Lemma gmade_says : forall compounds r rx T J objs, gmade compounds r rx T J objs -> gsays r rx T J.
Proof. intros compounds r rx T J objs []. constructor; auto. Qed.

(** ** From the text of a field *)
Lemma general_field : forall e r line text rx, e_g e = x4grammars c ->
  good_general (c_particles c) (c_compounds c) r -> in_field (general_tokens r) line text ->
  X4Reaction (x4grammars c) (e_compounds e) false (PGroup (general_tree r)) = Ok rx ->
  reaction_of_text e text = Ok (MRxn rx, PTok line).
Proof.
  intros e r line text rx EG G F X. unfold reaction_of_text. rewrite EG.
  assert (W : written (c_particles c) (c_compounds c) (general_tokens r) (general_tree r)) by (exists r; auto).
  rewrite (field_read c _ _ line text KP KC (cf_reaction _ _ _ W) F). cbn [of_option bind app].
  destruct (last_of_snoc _ [PGroup (general_tree r)] (PTok line)) as [L B]. cbn [app] in L, B. rewrite L, B.
  unfold getMeasurementType. match goal with |- context [existsb ?f math_symbols] => change (existsb f math_symbols) with false end.
  cbn [idx nth_error of_option bind]. rewrite X. reflexivity.
Qed.

(** ** Printing *)
Lemma firm_str : forall d p, has_names (c_compounds c) d -> p = RNone \/ firm p -> exists t, part_str d p = Ok t.
Proof.
  intros d p D [->|[(s & ->)|(q & -> & _ & _ & P)]]; try (eexists; reflexivity). destruct (P d D) as (t & T). exists t. exact T.
Qed.
Lemma gmade_str : forall compounds r rx T J objs d, has_names (c_compounds c) d -> gmade compounds r rx T J objs -> exists t, process_str d (r_process rx) = Ok t.
Proof.
  intros compounds r rx T J objs d D M. destruct (firm_str d _ D (gmade_left _ _ _ _ _ _ M)) as (u & U).
  unfold process_str. rewrite (gmade_targ _ _ _ _ _ _ M), (gmade_proj _ _ _ _ _ _ M). cbn [part_str].
  destruct (gmade_wT _ _ _ _ _ _ M) as (_ & _ & PT), (gmade_wJ _ _ _ _ _ _ M) as (_ & _ & PJ).
  destruct (PT d D) as (t & ->), (PJ d D) as (j & ->). cbn [bind].
  destruct (truthy (p_residual (r_process rx))); [rewrite U|]; cbn [bind]; eexists; reflexivity.
Qed.
Lemma gmade_reaction_str : forall compounds r rx T J objs d qd md, has_names (c_compounds c) d -> full_rows qd -> full_rows md -> gmade compounds r rx T J objs ->
  exists t, reaction_str d qd md rx = Ok t.
Proof.
  intros compounds r rx T J objs d qd md D FQ FM M. unfold reaction_str.
  destruct (quantity_type qd md rx _ FQ FM (gmade_quant _ _ _ _ _ _ M)) as (t & ->). cbn [bind].
  destruct (gmade_str _ _ _ _ _ _ d D M) as (p & ->). eexists. reflexivity.
Qed.

(** ** Combinations *)
Definition shown (x : element) : Prop :=
  forall d qd md, has_names (c_compounds c) d -> full_rows qd -> full_rows md -> exists t, element_str d qd md x = Ok t.
Lemma shown_op : forall op, shown (EOp op).
Proof. intros op d qd md _ _ _. eexists. reflexivity. Qed.
Lemma shown_rxn : forall compounds r rx T J objs, gmade compounds r rx T J objs -> shown (ERxn rx).
Proof. intros compounds r rx T J objs M d qd md D FQ FM. cbn [element_str]. eapply gmade_reaction_str; eauto. Qed.
Lemma shown_iso : forall data, Forall shown data -> shown (EIso data).
Proof.
  intros data F d qd md D FQ FM. induction F as [|x data P F (t & IH)].
  - exists []. reflexivity.
  - cbn [element_str] in *. destruct (P d qd md D FQ FM) as (u & U). rewrite U. cbn [bind]. rewrite IH. cbn [bind]. eexists. reflexivity.
Qed.
Lemma shown_str : forall d qd md data, has_names (c_compounds c) d -> full_rows qd -> full_rows md -> Forall shown data ->
  exists t, element_str d qd md (EIso data) = Ok t.
Proof. intros d qd md data D FQ FM F. exact (shown_iso data F d qd md D FQ FM). Qed.
Lemma general_said : forall compounds r, good_general (c_particles c) (c_compounds c) r -> known_general r -> has_names (c_compounds c) compounds ->
  exists rx, X4Reaction (x4grammars c) compounds false (PGroup (general_tree r)) = Ok rx /\ gsaying (PGroup (general_tree r)) (ERxn rx) /\ shown (ERxn rx).
Proof.
  intros compounds r G B D. destruct (general_made compounds r G B D) as (rx & T & J & pss & rs & X & M & F2 & R & C).
  exists rx. split; [exact X|]. split; [|eapply shown_rxn; eauto]. exists r, rx, T, J, pss, rs. split; [reflexivity|]. split; [reflexivity|].
  split; [eapply gmade_says; eauto|]. auto.
Qed.
Lemma gsaying_combination : forall compounds depth l, has_names (c_compounds c) compounds ->
  (forall op, In (PTok op) l -> In op math_symbols) ->
  (forall q, In (PGroup q) l -> exists r, good_general (c_particles c) (c_compounds c) r /\ known_general r /\ q = general_tree r) ->
  exists data, X4ReactionCombination depth (x4grammars c) compounds l = Ok data /\ Forall2 gsaying l data /\ Forall shown data.
Proof.
  intros compounds depth l D S K. unfold X4ReactionCombination. induction l as [|p l IH]; [exists []; auto|].
  destruct IH as (data & E & F & PR); [intros op I; apply S; now right|intros q I; apply K; now right|].
  assert (H : exists x, getStrOrX4Reaction depth (x4grammars c) compounds p = Ok x /\ gsaying p x /\ shown x).
  { destruct p as [op|q].
    - exists (EOp op). split; [|split; [reflexivity|apply shown_op]]. cbn [getStrOrX4Reaction].
      replace (smem op math_symbols) with true; [reflexivity|]. symmetry. apply smem_In, S. now left.
    - destruct (K q (or_introl eq_refl)) as (r & G & B & ->).
      destruct (general_said compounds r G B D) as (rx & X & Sx & Hx).
      exists (ERxn rx). split; [|split; auto]. cbn [getStrOrX4Reaction]. rewrite X. reflexivity. }
  destruct H as (x & Ex & Tx & Px). exists (x :: data). split; [|split; constructor; auto].
  cbn [map_res]. rewrite Ex. cbn [bind]. rewrite E. reflexivity.
Qed.
Lemma general_combination : forall e ts l line text, e_g e = x4grammars c -> has_names (c_compounds c) (e_compounds e) ->
  cexpr (written (c_particles c) (c_compounds c)) ts l -> in_field (tx "(" :: ts ++ [tx ")"]) line text ->
  (forall q, In (PGroup q) l -> exists r, good_general (c_particles c) (c_compounds c) r /\ known_general r /\ q = general_tree r) ->
  exists data, reaction_of_text e text = Ok (MComb (EOp (tx "(") :: data ++ [EOp (tx ")")]), PTok line) /\
    Forall2 gsaying l data /\ Forall shown data.
Proof.
  intros e ts l line text EG D C F B. unfold reaction_of_text. rewrite EG.
  rewrite (field_read c _ _ line text KP KC (cf_paren _ _ _ C) F). cbn [of_option bind].
  destruct (last_of_snoc _ (PTok (tx "(") :: l ++ [PTok (tx ")")]) (PTok line)) as [-> ->].
  destruct (gsaying_combination (e_compounds e) (e_depth e) l D (pieces_symbols _ _ _ C) B) as (data & E & F2 & PR).
  exists data. split; [|auto].
  unfold getMeasurementType.
  assert (M : existsb (fun i => existsb (is_tok i) (PTok (tx "(") :: l ++ [PTok (tx ")")])) math_symbols = true) by reflexivity.
  rewrite M. unfold X4ReactionCombination in *. cbn [map_res].
  rewrite (map_res_app _ _ _ l [PTok (tx ")")] data [EOp (tx ")")] E) by reflexivity. reflexivity.
Qed.
Lemma general_text : forall e r line text, e_g e = x4grammars c -> has_names (c_compounds c) (e_compounds e) ->
  good_general (c_particles c) (c_compounds c) r -> known_general r -> in_field (general_tokens r) line text ->
  exists rx T J pss rs, reaction_of_text e text = Ok (MRxn rx, PTok line) /\ gsays r rx T J /\
    Forall2 outgoing_objects (gc_products r) pss /\ residual_objects (gc_residual r) rs /\
    comes_out r T (concat pss ++ rs) (p_products (r_process rx)) (p_residual (r_process rx)).
Proof.
  intros e r line text EG D G K F. destruct (general_made (e_compounds e) r G K D) as (rx & T & J & pss & rs & X & M & F2 & R & P).
  exists rx, T, J, pss, rs. split; [now apply (general_field e r)|]. split; [eapply gmade_says; eauto|]. auto.
Qed.

(** ** The text of a reaction *)
Lemma gmade_shown : forall compounds r rx T J pss rs, has_names (c_compounds c) compounds -> gmade compounds r rx T J (concat pss ++ rs) ->
  Forall2 outgoing_objects (gc_products r) pss -> residual_objects (gc_residual r) rs ->
  comes_out r T (concat pss ++ rs) (p_products (r_process rx)) (p_residual (r_process rx)) ->
  exists t j ns u, pretty compounds T = Ok t /\ pretty compounds J = Ok j /\
    Forall2 (shown_as compounds) (p_products (r_process rx)) ns /\ left_shown compounds (p_residual (r_process rx)) u /\
    process_str compounds (r_process rx) = Ok (t ++ tx "(" ++ j ++ tx "," ++ join (tx "+") ns ++ tx ")" ++ u).
Proof.
  intros compounds r rx T J pss rs D [M1 M2 M3 M4 M5 M6 M7 M8 M9 M10] F2 R C.
  destruct M3 as (_ & _ & PT), M6 as (_ & _ & PJ). destruct (PT _ D) as (t & Pt), (PJ _ D) as (j & Pj).
  assert (OK : Forall (fun p => match p with RStr s => exists w name, In (w, name) process_codes /\ s = tx w | RPart _ => True | RNone => False end) (p_products (r_process rx))).
  { apply Forall_forall. intros p I. assert (Q : In p (concat pss ++ rs) \/ exists w, scattering w = true /\ In (Out (CWord (tx w))) (gc_products r) /\ p = RStr (tx w)).
    { destruct (decide_scatters _ _ F2) as [S|S].
      - destruct (out_scattered _ _ _ _ _ C S) as (w & SW & IW & E & _). rewrite E in I. destruct I as [<-|[]]. right. eauto.
      - left. destruct (decide_vague _ _ F2) as [V|V].
        + destruct (out_vague _ _ _ _ _ C V S) as [[E _]|[E|(s & E)]]; [now rewrite <- E|rewrite <- E; apply in_or_app; now left|].
          eapply resid_incl; [exact M7|exact I|]. intros Q. inversion Q as [Q1]. rewrite Q1 in E. discriminate.
        + destruct (out_plain _ _ _ _ _ C V) as [E|E]; [now rewrite <- E|rewrite <- E; apply in_or_app; now left]. }
    destruct Q as [Q|(w & SW & _ & ->)].
    - apply in_app_or in Q. destruct Q as [Q|Q].
      + clear - F2 Q. induction F2 as [|o ps l pss O F IH]; [destruct Q|]. cbn [concat] in Q. apply in_app_or in Q. destruct Q as [Q|Q]; [|now apply IH].
        destruct O as [x q M|w z a I].
        * destruct Q as [<-|[]]. destruct M; eauto.
        * destruct Q as [<-|[<-|[]]]; [|exact Logic.I]. exists "X"%string, "Unspecified"%string. split; [vm_compute; tauto|reflexivity].
      + destruct R; [destruct Q|]. destruct Q as [<-|[]]. exact Logic.I.
    - unfold scattering in SW. apply existsb_exists in SW. destruct SW as (v & I' & E). apply String.eqb_eq in E. subst v. exists w.
      cbn [In] in I'. repeat (destruct I' as [<-|I']; [eexists; split; [vm_compute; tauto|reflexivity]|]). destruct I'. }
  unfold setProcessType in M8. destruct (map_res (prod_str compounds) (p_products (r_process rx))) as [ns|] eqn:EN; [|discriminate M8].
  cbn [bind] in M8. assert (TY : p_type (r_process rx) = join (lit "+") ns) by congruence.
  assert (FN : Forall2 (shown_as compounds) (p_products (r_process rx)) ns).
  { clear - OK EN. revert ns EN. induction OK as [|p l P OK IH]; intros ns EN; cbn [map_res] in EN; [assert (ns = []) by congruence; subst; constructor|].
    destruct (prod_str compounds p) as [x|] eqn:EX; [|discriminate]. cbn [bind] in EN. destruct (map_res (prod_str compounds) l) as [ns'|]; [|discriminate].
    cbn [bind] in EN. assert (ns = x :: ns') by congruence. subst ns. constructor; [|now apply IH].
    destruct p as [s|q|]; [|now constructor|destruct P]. destruct P as (w & name & I & ->). cbn [prod_str] in EX. rewrite (process_is_process _ _ I) in EX.
    assert (x = tx name) by congruence. subst x. now constructor. }
  assert (U : exists u, left_shown compounds (p_residual (r_process rx)) u /\
    (if truthy (p_residual (r_process rx)) then part_str compounds (p_residual (r_process rx)) else Ok []) = Ok u).
  { destruct M9 as [E|F]; [rewrite E; exists []; split; [constructor|reflexivity]|].
    destruct F as [(s & E)|(q & E & _ & _ & Pq)]; rewrite E.
    - exists s. split; [constructor|]. cbn [truthy part_str]. destruct s; reflexivity.
    - destruct (Pq _ D) as (u & Pu). exists u. split; [now constructor|]. cbn [truthy part_str]. exact Pu. }
  destruct U as (u & LU & EU). exists t, j, ns, u. split; [exact Pt|]. split; [exact Pj|]. split; [exact FN|]. split; [exact LU|].
  unfold process_str. rewrite M1, M4. cbn [part_str]. rewrite Pt, Pj. cbn [bind]. rewrite TY.
  destruct (truthy (p_residual (r_process rx))).
  - rewrite EU. cbn [bind]. rewrite !app_assoc. reflexivity.
  - assert (u = []) by congruence. subst u. cbn [bind]. rewrite !app_nil_r, ?app_assoc. reflexivity.
Qed.
Lemma general_printed : forall e r line text, e_g e = x4grammars c -> has_names (c_compounds c) (e_compounds e) ->
  good_general (c_particles c) (c_compounds c) r -> known_general r -> in_field (general_tokens r) line text ->
  exists rx T J t j ns u, reaction_of_text e text = Ok (MRxn rx, PTok line) /\ gsays r rx T J /\
    pretty (e_compounds e) T = Ok t /\ pretty (e_compounds e) J = Ok j /\
    Forall2 (shown_as (e_compounds e)) (p_products (r_process rx)) ns /\ left_shown (e_compounds e) (p_residual (r_process rx)) u /\
    process_str (e_compounds e) (r_process rx) = Ok (t ++ tx "(" ++ j ++ tx "," ++ join (tx "+") ns ++ tx ")" ++ u).
Proof.
  intros e r line text EG D G K F. destruct (general_made (e_compounds e) r G K D) as (rx & T & J & pss & rs & X & M & F2 & R & P).
  destruct (gmade_shown _ r rx T J pss rs D M F2 R P) as (t & j & ns & u & S).
  exists rx, T, J, t, j, ns, u. split; [now apply (general_field e r)|]. split; [eapply gmade_says; eauto|]. exact S.
Qed.
End Codes.
Lemma spot_named : forall d x p t, spot_object x p -> spot_name d x t -> pretty d p = Ok t.
Proof.
  intros d x p t O N. destruct O as [n p O|k z s zn C NZ|w]; cbn [spot_name] in N.
  - destruct N as (NI & N). destruct O as [n HI HA|n HI HA|n i l HI HS]; cbn [pretty]; [| |congruence].
    + destruct N as [(_ & NN & ->)|(Q & _)]; [|contradiction]. destruct (str_eqb (capitalize (n_sym n)) (lit "Nn")) eqn:E; [|reflexivity].
      exfalso. apply NN. now apply str_eqb_eq in E.
    + destruct N as [(Q & _)|(_ & ->)]; [contradiction|reflexivity].
  - destruct N as (more & E). cbn [pretty]. rewrite E. reflexivity.
  - destruct N as (I & ->). cbn [pretty]. vm_compute in I. repeat (destruct I as [<-|I]; [vm_compute; reflexivity|]). destruct I.
Qed.
