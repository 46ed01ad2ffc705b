(** Reactions of known codes are read. *)
From Coq Require Import String List Ascii NArith ZArith Bool Arith Lia.
From Verif.Model Require Import Py Dicts Particle Reaction Field Pyparsing Grammars.
From Verif.Spec Require Import Text Codes General Nuclear Balance Known.
From Verif.Proofs Require Import StrLemmas NumLemmas IntLemmas DictLemmas ReactionLemmas ParseLemmas GrammarLemmas GrammarCodes GrammarReactions GrammarGeneral GrammarFields BalanceLemmas.
Import ListNotations.
Local Open Scope string_scope.
Local Open Scope list_scope.
Local Open Scope nat_scope.

Lemma digits_number : forall s, nonempty digit s -> exists n, number_is s n.
Proof.
  intros s [NE D]. exists (Z.of_N (value10 (map (fun c => (N_of_ascii c - 48)%N) s))), (map (fun c => (N_of_ascii c - 48)%N) s).
  split; [|split; [|split; [|reflexivity]]].
  - unfold digits_text. rewrite map_map. rewrite <- (map_id s) at 1. apply map_ext_in. intros c I. rewrite Forall_forall in D.
    specialize (D c I). unfold digit in D. unfold digit_char. replace (48 + (N_of_ascii c - 48))%N with (N_of_ascii c) by lia.
    symmetry. apply ascii_N_embedding.
  - unfold is_digits. apply Forall_forall. intros n I. apply in_map_iff in I. destruct I as (c & <- & I). rewrite Forall_forall in D.
    specialize (D c I). unfold digit in D. lia.
  - destruct s; [contradiction|discriminate].
Qed.

(** ** Codes *)

Ltac code_cases H := unfold particle_codes in H; cbn [In] in H;
  repeat (destruct H as [H|H]; [injection H as <- <- <-|]); [..|destruct H].

Definition weighty (p : particle) : Prop :=
  (exists z, getZ p = Ok z) /\ (exists a, getA p = Ok a) /\ counts (RPart p) = true /\ forall compounds, exists t, pretty compounds p = Ok t.

Lemma particle_one : forall c ign w z a, In (w, (z, a)) particle_codes ->
  setParticleType (x4grammars c) ign (PTok (tx w)) = Ok (RPart (PParticle (NInt 1) (tx w) z a)).
Proof. intros c ign w z a H. code_cases H; vm_compute; reflexivity. Qed.
Lemma particle_weighty : forall k w z a, weighty (PParticle (NInt k) w z a).
Proof.
  intros. split; [eexists; reflexivity|]. split; [eexists; reflexivity|]. split; [reflexivity|]. intros cs. cbn [pretty].
  unfold particle_pretty, several. cbn [bind]. eexists. reflexivity.
Qed.
Lemma particle_not_process : forall w z a, In (w, (z, a)) particle_codes -> dhas str_eqb (tx w) x4ReactionMap = false.
Proof. intros w z a H. code_cases H; vm_compute; reflexivity. Qed.
Lemma process_is_process : forall w name, In (w, name) process_codes -> dget str_eqb (tx w) x4ReactionMap = Some (tx name).
Proof.
  intros w name H. unfold process_codes in H. cbn [In] in H.
  repeat (destruct H as [H|H]; [injection H as <- <-; vm_compute; reflexivity|]). destruct H.
Qed.

Lemma particle_several : forall c ign count k w z a, number_is count k -> In (w, (z, a)) particle_codes ->
  setParticleType (x4grammars c) ign (PGroup [PTok count; PTok (tx w)]) = Ok (RPart (PParticle (NInt k) (lower (tx w)) z a)).
Proof.
  intros c ign count k w z a K H.
  assert (E1 : g_particle (x4grammars c) (lit "N") = Some [PTok (lit "N")]) by (vm_compute; reflexivity).
  assert (E2 : int_of_str (lower count) = Some k).
  { rewrite (lower_number_is _ _ K). now apply number_int. }
  cbn [setParticleType]. unfold X4Particle. rewrite E1.
  cbn [of_option bind map_res tok map]. unfold particle_of_list.
  change (1 <? length [PTok (lower count); PTok (lower (tx w))]) with true. cbv iota.
  cbn [idx nth_error of_option bind]. rewrite E2. cbn [of_option bind tok].
  code_cases H; vm_compute; reflexivity.
Qed.

(** ** Nuclides *)
Lemma digits_not_letter : forall s x, nonempty digit s -> ~ digit x -> str_eqb [x] s = false.
Proof.
  intros s x [NE D] X. destruct (str_eqb [x] s) eqn:E; [|reflexivity]. apply str_eqb_eq in E. subst s.
  inversion D; subst. contradiction.
Qed.
Lemma lower_digits : forall s, nonempty digit s -> lower s = s.
Proof. intros s H. destruct (digits_number s H) as (n & N). exact (lower_number_is _ _ N). Qed.

Lemma isomer_states : forall i, good_isomer i -> exists l, states i l /\
  isomer_loop false ([i_letter i] :: number_tokens (i_number i)) ([i_letter i] :: number_tokens (i_number i)) [] = Ok l.
Proof.
  intros [op l num] (_ & L & D). cbn [i_letter i_number] in *.
  destruct num as [|d num].
  - unfold states. cbn [number_tokens i_letter i_number]. cbn [tx list_ascii_of_string In] in L.
    destruct L as [<-|[<-|[<-|[<-|[<-|[<-|[]]]]]]]; vm_compute; eexists; (split; [|reflexivity]);
      (split; [|split]); try (intros _; try intros _; reflexivity); try (intros [Q|[Q|[]]]; discriminate Q); try (intro Q; discriminate Q).
  - set (num' := d :: num) in *. assert (ND : nonempty digit num') by (split; [discriminate|exact D]).
    change (number_tokens num') with [num'].
    destruct (digits_number num' ND) as (n & NN). pose proof (number_isdigit _ _ NN) as ID.
    assert (X : forall x, ~ digit x -> str_eqb [x] num' = false) by (intros; now apply digits_not_letter).
    assert (X' : forall x, ~ digit x -> str_eqb num' [x] = false).
    { intros x Hx. destruct (str_eqb num' [x]) eqn:E; [|reflexivity]. apply str_eqb_eq in E. specialize (X x Hx).
      rewrite E, str_eqb_refl in X. discriminate. }
    assert (XG : forall x, In x (tx "mMgGTLt") -> ~ digit x).
    { intros x I. unfold digit. cbn [tx list_ascii_of_string In] in I.
      destruct I as [<-|[<-|[<-|[<-|[<-|[<-|[<-|[]]]]]]]]; vm_compute; intros [Q R]; try (now apply Q); now apply R. }
    assert (M : isomer_math [[l]; num'] = false).
    { unfold isomer_math, smem. cbn [existsb filter]. 
      change (lit "G") with ["G"%char]. change (lit "T") with ["T"%char]. change (lit "M") with ["M"%char].
      rewrite !(X "G"%char), !(X "T"%char), !(X "M"%char) by (apply XG; vm_compute; auto 10).
      cbn [tx list_ascii_of_string In] in L.
      destruct L as [<-|[<-|[<-|[<-|[<-|[<-|[]]]]]]]; vm_compute; reflexivity. }
    assert (S2 : forall acc, isomer_step false [[l]; num'] acc num' false = Ok (acc ++ [num'])).
    { intros acc. unfold isomer_step. rewrite M. rewrite (lower_digits _ ND). change (lit "g") with ["g"%char]. change (lit "m") with ["m"%char].
      rewrite (X' "g"%char), (X' "m"%char) by (apply XG; vm_compute; auto 10). cbn [andb]. now rewrite ID. }
    cbn [isomer_loop]. unfold isomer_step at 1. rewrite M. cbn [bind].
    rewrite S2. cbn [bind]. unfold states. cbn [i_letter i_number].
    cbn [tx list_ascii_of_string In] in L.
    destruct L as [<-|[<-|[<-|[<-|[<-|[<-|[]]]]]]];
      eexists; (split; [|vm_compute; reflexivity]); (split; [|split]); try (intros _; reflexivity);
      try (intros [Q|[Q|[]]]; discriminate Q); try (intro Q; discriminate Q); intros _ Q; discriminate Q.
Qed.

Lemma nuclide_known : forall c ign n, ign = false -> good_nuclide n -> known_nuclide n ->
  exists p, setParticleType (x4grammars c) ign (nuclide_tree n) = Ok (RPart p) /\ nuclide_object n p /\ weighty p.
Proof.
  intros c ign n -> G K. pose proof G as (DZ & DA & GI & _).
  destruct (digits_number _ DZ) as (z & Z), (digits_number _ DA) as (a & A).
  destruct K as [K|(i & K)].
  - unfold nuclide_tree. rewrite K. cbn [flat_map app map setParticleType tok bind]. rewrite (number_isdigit _ _ A).
    destruct (str_eqb (n_A n) (lit "0")) eqn:E0.
    + apply str_eqb_eq in E0. eexists. split; [reflexivity|]. split; [now apply object_element|].
      split; [exists z; cbn [getZ]; now rewrite (number_int _ _ Z)|]. split; [eexists; reflexivity|]. split; [reflexivity|].
      intros cs. eexists. reflexivity.
    + eexists. split; [reflexivity|]. split; [apply object_isotope; [exact K|]|].
      { intros Q. rewrite Q in E0. discriminate. }
      split; [exists z; cbn [getZ]; now rewrite (number_int _ _ Z)|]. split; [exists a; cbn [getA]; now rewrite (number_int _ _ A)|].
      split; [reflexivity|]. intros cs. eexists. reflexivity.
  - rewrite K in GI. inversion GI as [|? ? Gi _]; subst.
    destruct (isomer_states i Gi) as (l & S & L).
    exists (PIsomer (n_Z n) (capitalize (n_sym n)) (n_A n) l). split; [|split].
    + unfold nuclide_tree. rewrite K. unfold isomer_tokens. cbn [flat_map app map]. rewrite app_nil_r.
      cbn [setParticleType]. unfold X4Isomer, nucleus_parts. cbn [bind idx nth_error of_option tok skipn].
      assert (M : map_res tok (map PTok ([i_letter i] :: number_tokens (i_number i))) = Ok ([i_letter i] :: number_tokens (i_number i))).
      { generalize ([i_letter i] :: number_tokens (i_number i)). induction l0 as [|x l0 IH]; [reflexivity|].
        cbn [map map_res tok bind]. rewrite IH. reflexivity. }
      cbn [map] in M. rewrite M. cbn [bind]. rewrite L. reflexivity.
    + eapply object_isomer; eauto.
    + split; [exists z; cbn [getZ]; now rewrite (number_int _ _ Z)|]. split; [exists a; cbn [getA]; now rewrite (number_int _ _ A)|].
      split; [reflexivity|]. intros cs. cbn [pretty]. destruct (single_one l); eexists; reflexivity.
Qed.

(** ** Products *)
Definition solid (p : product) : Prop := (exists s, p = RStr s) \/ exists q, p = RPart q /\ weighty q.

Lemma projectile_known : forall c x, good_projectile x -> known_projectile x ->
  exists p, setParticleType (x4grammars c) false (code_tree x) = Ok (RPart p) /\ projectile_meaning x p /\ weighty p.
Proof.
  intros c x G K. destruct x as [n|w|count w]; [| |destruct K].
  - destruct (nuclide_known c false n eq_refl G K) as (p & E & O & W). exists p. split; [exact E|]. split; [now constructor|exact W].
  - destruct K as [->|(s & I & ->)].
    + eexists. split; [vm_compute; reflexivity|]. split; [apply means_none|]. apply (particle_weighty 0 (tx "0") 0 0).
    + apply in_map_iff in I. destruct I as ([w [z a]] & <- & I). cbn [fst]. eexists. split; [apply particle_one; exact I|].
      split; [now apply means_projectile|apply particle_weighty].
Qed.
Lemma product_known : forall c keys x, good_product keys x -> known_product x ->
  exists p, setProduct (x4grammars c) false (code_tree x) = Ok p /\ product_meaning x p /\ solid p /\
    (process_code x -> exists s, p = RStr s) /\ (~ process_code x -> exists q, p = RPart q).
Proof.
  intros c keys x G [(s & I & ->)|K].
  - apply in_map_iff in I. destruct I as ([w name] & <- & I). cbn [fst]. exists (RStr (tx w)). split; [|split; [|split; [|split]]].
    + cbn [code_tree setProduct]. unfold dhas. rewrite (process_is_process _ _ I). reflexivity.
    + econstructor; eassumption.
    + left. eauto.
    + eauto.
    + intros H. exfalso. apply H. exists w. split; [|reflexivity]. apply in_map_iff. exists (w, name). auto.
  - assert (NP : forall q, setProduct (x4grammars c) false (code_tree x) = Ok (RPart q) -> process_code x -> exists s, RPart q = RStr s).
    { intros q E (s & I & ->). exfalso. apply in_map_iff in I. destruct I as ([w name] & <- & I). cbn [fst code_tree setProduct] in E.
      unfold dhas in E. rewrite (process_is_process _ _ I) in E. discriminate. }
    destruct x as [n|w|count w].
    + destruct (nuclide_known c false n eq_refl G K) as (p & E & O & W). exists (RPart p). split; [exact E|]. split; [now constructor|].
      split; [right; eauto|]. split; [now apply NP|eauto].
    + destruct K as (s & I & ->). apply in_map_iff in I. destruct I as ([w [z a]] & <- & I). cbn [fst] in *.
      assert (E : setProduct (x4grammars c) false (code_tree (CWord (tx w))) = Ok (RPart (PParticle (NInt 1) (tx w) z a))).
      { cbn [code_tree setProduct]. rewrite (particle_not_process _ _ _ I). now apply particle_one. }
      eexists. split; [exact E|]. split; [now apply means_product|]. split; [right; eexists; split; [reflexivity|apply particle_weighty]|].
      split; [now apply NP|eauto].
    + destruct G as [GC _]. destruct (digits_number _ GC) as (k & KN).
      destruct K as (s & I & ->). apply in_map_iff in I. destruct I as ([w [z a]] & <- & I). cbn [fst] in *.
      assert (E : setProduct (x4grammars c) false (code_tree (CMany count (tx w))) = Ok (RPart (PParticle (NInt k) (lower (tx w)) z a))).
      { cbn [code_tree setProduct]. now apply particle_several. }
      eexists. split; [exact E|]. split; [now apply means_many|]. split; [right; eexists; split; [reflexivity|apply particle_weighty]|].
      split; [now apply NP|eauto].
Qed.

Lemma products_known : forall c keys l, Forall (good_product keys) l -> Forall known_product l ->
  exists ps, map_res (setProduct (x4grammars c) false) (map code_tree l) = Ok ps /\ Forall2 product_meaning l ps /\ Forall solid ps /\
    (Exists process_code l -> exists s, In (RStr s) ps) /\ (~ Exists process_code l -> exists qs, ps = map RPart qs).
Proof.
  intros c keys l G K. induction l as [|x l IH].
  - exists []. split; [reflexivity|]. split; [constructor|]. split; [constructor|]. split; [intros H; inversion H|]. intros _. now exists [].
  - inversion G as [|? ? Gx Gl]; subst. inversion K as [|? ? Kx Kl]; subst. destruct (IH Gl Kl) as (ps & E & F & S & A & B).
    destruct (product_known c keys x Gx Kx) as (p & Ep & Op & Sp & Ap & Bp).
    exists (p :: ps). split; [|split; [now constructor|split; [now constructor|split]]].
    + cbn [map map_res]. rewrite Ep. cbn [bind]. rewrite E. reflexivity.
    + intros H. inversion H as [? ? H1|? ? H1]; subst; [destruct (Ap H1) as (s & ->)|destruct (A H1) as (s & I)]; exists s; [now left|now right].
    + intros H. destruct B as (qs & ->); [intros Q; apply H; now right|]. destruct Bp as (q & ->); [intros Q; apply H; now left|].
      now exists (q :: qs).
Qed.

(** Charges of objects are those of the codes. *)
Lemma nuclide_charge : forall n p z, nuclide_object n p -> number_is (n_Z n) z -> getZ p = Ok z.
Proof. intros n p z O N. destruct O; cbn [getZ]; now rewrite (number_int _ _ N). Qed.
Lemma tx_inj : forall a b, tx a = tx b -> a = b.
Proof.
  intros a b H. unfold tx in H. rewrite <- (string_of_list_ascii_of_string a), <- (string_of_list_ascii_of_string b). now rewrite H.
Qed.
Lemma code_functional : forall w z a z' a', In (w, (z, a)) particle_codes -> In (w, (z', a')) particle_codes -> z = z'.
Proof.
  intros w z a z' a' H H'. code_cases H; unfold particle_codes in H'; cbn [In] in H';
    repeat (destruct H' as [H'|H']; [try discriminate H'; try (injection H'; congruence)|]); destruct H'.
Qed.
Lemma number_functional : forall s n m, number_is s n -> number_is s m -> n = m.
Proof. intros s n m A B. apply number_int in A, B. congruence. Qed.
Lemma zero_not_code : forall z a, ~ In ("0", (z, a)) particle_codes.
Proof. intros z a H. unfold particle_codes in H. cbn [In] in H. repeat (destruct H as [H|H]; [discriminate H|]). destruct H. Qed.
Lemma projectile_charge : forall x p z, projectile_meaning x p -> charge x z -> getZ p = Ok z.
Proof.
  intros x p z O C. destruct O as [|w z' a I|n p O]; inversion C as [Q|w0 z0 a0 I0 Q|? ? ? ? ? ? ? Q|n0 z0 N0 Q]; subst.
  - reflexivity.
  - exfalso. apply (tx_inj w0 "0") in Q. subst w0. exact (zero_not_code _ _ I0).
  - exfalso. symmetry in Q. apply (tx_inj w "0") in Q. subst w. exact (zero_not_code _ _ I).
  - apply tx_inj in Q. subst w0. cbn [getZ times]. f_equal. pose proof (code_functional _ _ _ _ _ I I0). lia.
  - eapply nuclide_charge; eauto.
Qed.
Lemma product_charge : forall x p z, product_meaning x (RPart p) -> charge x z -> getZ p = Ok z.
Proof.
  intros x p z O C. inversion O as [|w z' a I|count k w z' a K I|n p' O']; subst; inversion C; subst.
  - exfalso. match goal with H : _ = tx w |- _ => symmetry in H; apply (tx_inj w "0") in H; subst w end. exact (zero_not_code _ _ I).
  - match goal with H : tx _ = tx _ |- _ => apply tx_inj in H; subst end. cbn [getZ times]. f_equal.
    match goal with H : In (w, _) particle_codes |- _ => pose proof (code_functional _ _ _ _ _ I H) end. lia.
  - match goal with H : tx _ = tx _ |- _ => apply tx_inj in H; subst end. cbn [getZ times]. f_equal.
    match goal with H : In (w, (?z, ?a)) particle_codes |- _ = (?k * ?z)%Z => pose proof (code_functional _ _ _ _ _ I H) end.
    match goal with H : number_is count ?k0 |- _ = (?k0 * _)%Z => pose proof (number_functional _ _ _ K H) end. subst. reflexivity.
  - eapply nuclide_charge; eauto.
Qed.

(** ** The residual *)
Lemma out_any : forall heavy ps z a can, Forall solid ps ->
  exists z' a' can', fold_res (out_step heavy) ps (z, a, can) = Ok (z', a', can') /\
    ((exists s, In (RStr s) ps) -> can' = false) /\ (can = false -> can' = false) /\
    (heavy = false -> ps <> [] -> can' = false).
Proof.
  intros heavy ps. induction ps as [|p ps IH]; intros z a can F.
  - exists z, a, can. split; [reflexivity|]. split; [intros (s & [])|]. split; [auto|]. intros _ H. now contradiction H.
  - inversion F as [|? ? Fp Fl]; subst. cbn [fold_res]. destruct Fp as [(s & ->)|(q & -> & (zq & Zq) & (aq & Aq) & Cq & _)].
    + unfold out_step at 1. cbn [counts andb bind]. destruct (IH z a false Fl) as (z' & a' & can' & E & _ & D & _).
      exists z', a', can'. split; [exact E|]. specialize (D eq_refl). auto.
    + unfold out_step at 1. rewrite Cq. cbn [andb]. destruct heavy.
      * cbn [prodZ prodA]. rewrite Zq, Aq. cbn [bind]. destruct (IH (z + zq)%Z (a + aq)%Z can Fl) as (z' & a' & can' & E & B & D & _).
        exists z', a', can'. split; [exact E|]. split; [intros (s & [Q|I]); [discriminate|eauto]|]. split; [exact D|]. intros Q. discriminate.
      * cbn [bind]. destruct (IH z a false Fl) as (z' & a' & can' & E & _ & D & _). exists z', a', can'. split; [exact E|].
        specialize (D eq_refl). auto.
Qed.
Lemma out_charge : forall l ps, Forall2 product_meaning l (map RPart ps) -> Forall solid (map RPart ps) -> forall zs z a can, charges l zs ->
  exists a', fold_res (out_step true) (map RPart ps) (z, a, can) = Ok ((z + zs)%Z, a', can).
Proof.
  intros l. induction l as [|x l IH]; intros [|p ps] F S zs z a can C; inversion F; subst; inversion C; subst.
  - exists a. cbn [map fold_res]. now rewrite Z.add_0_r.
  - cbn [map] in S. inversion S as [|? ? Sp Sl]; subst. destruct Sp as [(s & Q)|(q & Q & _ & (aq & Aq) & Cq & _)]; [discriminate|].
    injection Q as <-. cbn [map fold_res]. unfold out_step at 1. rewrite Cq. cbn [andb prodZ prodA].
    match goal with O : product_meaning x (RPart p), H : charge x ?z1, F' : Forall2 product_meaning l _, C' : charges l _ |- _ =>
      rewrite (product_charge _ _ _ O H), Aq; cbn [bind]; destruct (IH ps F' Sl _ (z + z1)%Z (a + aq)%Z can C') as (a' & E) end. exists a'. rewrite E. do 3 f_equal. lia.
Qed.

Lemma last_of_some : forall A (l : list A), l <> [] -> exists t x, l = t ++ [x] /\ last_of l = Ok x /\ but_last l = t.
Proof.
  intros A l NE. destruct (snoc_cases A l) as [->|(t & x & ->)]; [contradiction|]. exists t, x. split; [reflexivity|].
  destruct (last_of_snoc _ t x). auto.
Qed.

Lemma residual_known : forall c l ps T J tz pz zs, weighty T -> weighty J -> getZ T = Ok tz -> getZ J = Ok pz ->
  Forall2 product_meaning l ps -> Forall solid ps -> ps <> [] ->
  (exists s, In (RStr s) ps) \/ (exists qs, ps = map RPart qs) /\ charges l zs /\ (0 <= tz + pz - zs < 119)%Z ->
  exists out R, setResidual (x4grammars c) (RPart T) (RPart J) ps = Ok (out, R) /\ Forall solid out /\ (R = RNone \/ solid R) /\
    ((exists qs, ps = map RPart qs) -> out = ps \/ out ++ [R] = ps).
Proof.
  intros c l ps T J tz pz zs WT (_ & (pa & JA) & _) TZ JZ F2 S NE H. pose proof WT as (_ & (ta & TA) & _).
  unfold setResidual. cbn [prodZ prodA]. rewrite TA. cbn [bind].
  destruct (find (fun ch => has_channel ch ps) leave_target) as [ch|] eqn:EC.
  { exists [RStr ch], (RPart T). split; [reflexivity|]. split; [constructor; [left; eauto|constructor]|].
    split; [right; right; eauto|]. intros (qs & ->). exfalso. rewrite <- (app_nil_r (map RPart qs)) in EC. rewrite no_channel in EC by reflexivity. discriminate. }
  rewrite TZ, JZ, JA. cbn [bind].
  destruct (out_any (tz + pz <? ta + pa)%Z ps 0%Z 0%Z (negb (ta =? 0)%Z) S) as (z' & a' & can & E & C1 & _ & C3).
  rewrite E. cbn [bind].
  destruct ((tz + pz =? z') && (ta + pa =? a'))%Z.
  { destruct (last_of_some _ ps NE) as (t & x & -> & -> & ->). cbn [bind]. exists (remove_first x t), x.
    apply Forall_app in S. destruct S as [St Sx]. inversion Sx as [|? ? Sx' _]; subst.
    split; [reflexivity|]. split.
    - clear - St. induction St as [|y t Y St IH]; [constructor|]. cbn [remove_first]. destruct (same_value x y); [exact St|now constructor].
    - split; [right; exact Sx'|]. intros (qs & Q). right. f_equal. destruct Sx' as [(s & ->)|(q & -> & _)]; [|apply remove_first_part].
      assert (I : In (RStr s) (map RPart qs)) by (rewrite <- Q; apply in_or_app; right; now left).
      apply in_map_iff in I. destruct I as (? & ? & _). discriminate. }
  destruct can.
  2:{ exists (remove_first RNone ps), RNone. cbn [bind]. split; [reflexivity|]. 
      assert (RN : remove_first RNone ps = ps).
      { clear - S. induction S as [|y t Y S IH]; [reflexivity|]. cbn [remove_first]. destruct Y as [(s & ->)|(q & -> & _)]; cbn [same_value]; now rewrite IH. }
      rewrite RN. split; [exact S|]. split; [now left|]. auto. }
  destruct H as [H|((qs & ->) & C & RG)]; [specialize (C1 H); discriminate|].
  destruct (tz + pz <? ta + pa)%Z; [|specialize (C3 eq_refl NE); discriminate].
  destruct (out_charge l qs F2 S zs 0%Z 0%Z (negb (ta =? 0)%Z) C) as (a'' & E'). rewrite E' in E.
  assert (z' = zs) by (injection E as <- _ _; lia). subst z'.
  unfold computed_residual, X4Nucleus_of_parts. destruct (proj2 (ZSymbol_known (tz + pz - zs)) RG) as (sym & ->). cbn [bind].
  rewrite remove_first_part. eexists. eexists. split; [reflexivity|]. split; [exact S|]. split; [|auto].
  right. right. eexists. split; [reflexivity|]. split; [eexists; cbn [getZ]; now rewrite int_of_z_to_str|].
  split; [eexists; cbn [getA]; now rewrite int_of_z_to_str|]. split; [reflexivity|]. intros cs. eexists. reflexivity.
Qed.

Lemma solid_type : forall compounds ps, Forall solid ps -> exists t, setProcessType compounds ps = Ok t.
Proof.
  intros compounds ps S. unfold setProcessType.
  assert (G : exists l, map_res (prod_str compounds) ps = Ok l).
  { induction S as [|p ps Sp S (l & IH)]; [now exists []|].
    assert (P : exists t, prod_str compounds p = Ok t).
    { destruct Sp as [(s & ->)|(q & -> & _ & _ & _ & P)]; [eexists; reflexivity|]. destruct (P compounds) as (t & T). exists t. exact T. }
    destruct P as (t & P). exists (t :: l). cbn [map_res]. rewrite P. cbn [bind]. now rewrite IH. }
  destruct G as (l & ->). eexists. reflexivity.
Qed.

(** ** Reactions *)
Lemma map_res_app : forall (A B : Type) (f : A -> res B) l m a b, map_res f l = Ok a -> map_res f m = Ok b -> map_res f (l ++ m) = Ok (a ++ b).
Proof.
  intros A B f l. induction l as [|x l IH]; intros m a b H K.
  - cbn in H. injection H as <-. exact K.
  - cbn [map_res] in H. apply bind_ok in H. destruct H as (y & Y & H). apply bind_ok in H. destruct H as (t & T & H). injection H as <-.
    cbn [app map_res]. rewrite Y. cbn [bind]. rewrite (IH _ _ _ T K). reflexivity.
Qed.

(** What a known reaction becomes: the objects of the codes, and what the class makes of them. *)
Record made (g : grammars) (compounds : x4dict) (r : rcode) (rx : reaction) (T J : particle) (objs : list product) : Prop := {
  made_targ : p_targ (r_process rx) = RPart T;
  made_T : nuclide_object (rc_target r) T;
  made_wT : weighty T;
  made_proj : p_proj (r_process rx) = RPart J;
  made_J : projectile_meaning (rc_projectile r) J;
  made_wJ : weighty J;
  made_objs : Forall2 product_meaning (rc_products r ++ match rc_residual r with Some n => [CNuclide n] | None => [] end) objs;
  made_resid : setResidual g (RPart T) (RPart J) objs = Ok (p_products (r_process rx), p_residual (r_process rx));
  made_type : setProcessType compounds (p_products (r_process rx)) = Ok (p_type (r_process rx));
  made_left : p_residual (r_process rx) = RNone \/ solid (p_residual (r_process rx));
  made_quant : r_quant rx = map PTok (quantities r) }.

Lemma Exists_app_not : forall (A : Type) (P : A -> Prop) l m, ~ Exists P m -> Exists P (l ++ m) -> Exists P l.
Proof. intros A P l m N H. apply Exists_app in H. destruct H; [assumption|contradiction]. Qed.

Lemma known_made : forall c compounds keys r, good_reaction keys r -> known_reaction r ->
  exists rx T J objs, X4Reaction (x4grammars c) compounds false (PGroup (reaction_tree r)) = Ok rx /\
    made (x4grammars c) compounds r rx T J objs /\
    (~ Exists process_code (rc_products r) -> p_products (r_process rx) = objs \/ p_products (r_process rx) ++ [p_residual (r_process rx)] = objs).
Proof.
  intros c compounds keys r (GT & GJ & (NE & GP & _) & GR & _) [KT KJ KP KR KL].
  destruct (nuclide_known c false _ eq_refl GT KT) as (T & ET & OT & WT).
  destruct (projectile_known c _ GJ KJ) as (J & EJ & OJ & WJ).
  set (more := match rc_residual r with Some n => [CNuclide n] | None => [] end).
  assert (GL : Forall (good_product keys) (rc_products r ++ more)).
  { apply Forall_app. split; [exact GP|]. unfold more. destruct (rc_residual r) as [n|]; [|constructor]. constructor; [|constructor]. exact (GR n eq_refl). }
  assert (KL' : Forall known_product (rc_products r ++ more)).
  { apply Forall_app. split; [exact KP|]. unfold more. destruct (rc_residual r) as [n|]; [|constructor]. constructor; [|constructor]. right. exact (KR n eq_refl). }
  destruct (products_known c keys _ GL KL') as (ps & EP & F2 & S & A & B).
  assert (NM : ~ Exists process_code more).
  { unfold more. destruct (rc_residual r) as [n|]; intros H; inversion H as [? ? H1|? ? H1]; subst; [|inversion H1].
    destruct H1 as (s & _ & Q). discriminate. }
  assert (SK : skipn 2 (process_tree r) = map code_tree (rc_products r ++ more)).
  { unfold process_tree. cbn [skipn]. rewrite map_app. f_equal. unfold more. destruct (rc_residual r); reflexivity. }
  assert (NP : ps <> []).
  { intros ->. inversion F2 as [Q|]. symmetry in Q. apply app_eq_nil in Q. destruct Q. contradiction. }
  pose proof WT as ((tz & TZ) & _). pose proof WJ as ((pz & JZ) & _).
  assert (H : exists zs, (exists s, In (RStr s) ps) \/ (exists qs, ps = map RPart qs) /\ charges (rc_products r ++ more) zs /\ (0 <= tz + pz - zs < 119)%Z).
  { destruct KL as [X|(z & zs & CI & CO & RG)].
    - exists 0%Z. left. apply A. apply Exists_app. now left.
    - exists zs. inversion CI as [|? ? z1 zs1 C1 CI1]; subst. inversion CI1 as [|? ? z2 zs2 C2 CI2]; subst. inversion CI2; subst.
      assert (getZ T = Ok z1) by (inversion C1; subst; eapply nuclide_charge; eauto).
      assert (getZ J = Ok z2) by (eapply projectile_charge; eauto).
      assert (tz = z1) by congruence. assert (pz = z2) by congruence. subst.
      assert (D : (exists s, In (RStr s) ps) \/ exists qs, ps = map RPart qs).
      { clear - S. induction S as [|p ps [(s & ->)|(q & -> & _)] S [(s' & I)|(qs & ->)]]; eauto.
        - right. now exists [].
        - left. exists s. now left.
        - left. exists s. now left.
        - left. exists s'. now right.
        - right. now exists (q :: qs). }
      destruct D as [D|D]; [left; exact D|right]. split; [exact D|]. split; [exact CO|]. lia. }
  destruct H as (zs & H).
  destruct (residual_known c _ _ T J tz pz zs WT WJ TZ JZ F2 S NP H) as (out & R & SR & SO & SR' & PART).
  destruct (solid_type compounds out SO) as (ty & TY).
  exists (mkReaction (mkProcess (RPart T) (RPart J) out R ty) (map PTok (quantities r))), T, J, ps. split; [|split].
  - unfold X4Reaction, reaction_tree. cbn [bind idx nth_error of_option]. unfold process_of_results.
    unfold process_tree at 1 2. cbn [bind idx nth_error of_option]. rewrite ET. cbn [bind]. rewrite EJ. cbn [bind].
    rewrite SK, EP. cbn [bind]. rewrite SR. cbn [bind]. rewrite TY. cbn [bind skipn]. reflexivity.
  - constructor; cbn [r_process r_quant p_targ p_proj p_products p_residual p_type]; auto.
  - cbn [r_process p_products p_residual]. intros NX. apply PART, B. intros X. apply NX. now apply (Exists_app_not _ _ _ more).
Qed.

Lemma made_says : forall g compounds r rx T J objs, made g compounds r rx T J objs -> says r rx T J.
Proof. intros g compounds r rx T J objs []. constructor; auto. Qed.

Lemma known_text : forall c e r line text,
  Forall particle_key (c_particles c) -> Forall compound_key (c_compounds c) -> e_g e = x4grammars c ->
  good_reaction (c_particles c) r -> in_field (reaction_tokens r) line text -> known_reaction r ->
  exists rx T J objs, reaction_of_text e text = Ok (MRxn rx, PTok line) /\ says r rx T J /\
    Forall2 product_meaning (rc_products r ++ match rc_residual r with Some n => [CNuclide n] | None => [] end) objs /\
    (~ Exists process_code (rc_products r) -> p_products (r_process rx) = objs \/ p_products (r_process rx) ++ [p_residual (r_process rx)] = objs).
Proof.
  intros c e r line text KP KC EG G F K.
  destruct (known_made c (e_compounds e) _ r G K) as (rx & T & J & objs & X & M & P).
  exists rx, T, J, objs. split; [eapply field_reaction; eauto|]. split; [eapply made_says; eauto|]. split; [apply M|exact P].
Qed.

(** ** Processes *)
Lemma scattering_leaves : forall w name, In (w, name) process_codes ->
  find (fun ch => has_channel ch [RStr (tx w)]) leave_target = if scattering w then Some (tx w) else None.
Proof.
  intros w name H. unfold process_codes in H. cbn [In] in H.
  repeat (destruct H as [H|H]; [injection H as <- <-; vm_compute; reflexivity|]). destruct H.
Qed.

Lemma process_resid : forall c T J w name r, In (w, name) process_codes -> weighty T -> weighty J ->
  nuclide_object (rc_target r) T -> projectile_meaning (rc_projectile r) J -> good_projectile (rc_projectile r) ->
  real_target (rc_target r) -> rc_projectile r <> CWord (tx "AP") ->
  setResidual (x4grammars c) (RPart T) (RPart J) [RStr (tx w)] =
    Ok ([RStr (tx w)], if scattering w then RPart T else RNone).
Proof.
  intros c T J w name r I ((tz & TZ) & (ta & TA) & _) ((pz & JZ) & (pa & JA) & _) OT OJ GJ (z & NZ & Z1 & RA) NAP.
  unfold setResidual. cbn [prodZ prodA]. rewrite TA. cbn [bind]. rewrite (scattering_leaves _ _ I).
  destruct (scattering w); [reflexivity|].
  rewrite TZ, JZ, JA. cbn [bind fold_res]. unfold out_step. cbn [counts andb bind].
  assert (NE : ((tz + pz =? 0) && (ta + pa =? 0))%Z = false).
  { apply andb_false_iff. rewrite !Z.eqb_neq. 
    assert (z = tz) by (pose proof (nuclide_charge _ _ _ OT NZ); congruence). subst z.
    assert (A : (ta = -3000 \/ 1 <= ta)%Z).
    { destruct RA as [(QI & QA)|(a & NA & A1)].
      - destruct OT as [n HI HA|n HI HA|n i l HI HS]; [contradiction| |congruence]. left. cbn [getA] in TA. congruence.
      - destruct OT as [n HI HA|n HI HA|n i l HI HS]; cbn [getA] in TA.
        + rewrite (number_int _ _ NA) in TA. injection TA as <-. now right.
        + left. congruence.
        + rewrite (number_int _ _ NA) in TA. injection TA as <-. now right. }
    destruct OJ as [|w' z' a' I'|n p O].
    - cbn [getZ getA times] in JZ, JA. injection JZ as <-. left. lia.
    - cbn [getZ getA times] in JZ, JA. injection JZ as <-. injection JA as <-.
      assert (w' <> "AP") by (intros ->; now apply NAP). clear - I' A Z1 H.
      unfold particle_codes in I'. cbn [In] in I'.
      repeat (destruct I' as [I'|I']; [injection I' as <- <- <-; solve [exfalso; now apply H|left; lia|right; lia]|]). destruct I'.
    - left. destruct GJ as (DZ & _). destruct (digits_number _ DZ) as (k & KN). pose proof (nuclide_charge _ _ _ O KN).
      destruct KN as (ds & _ & _ & _ & ->). assert (pz = Z.of_N (value10 ds)) by congruence. lia. }
  rewrite NE. cbn [bind remove_first same_value]. reflexivity.
Qed.

Lemma process_text : forall c e r line text w name,
  Forall particle_key (c_particles c) -> Forall compound_key (c_compounds c) -> e_g e = x4grammars c ->
  good_reaction (c_particles c) r -> in_field (reaction_tokens r) line text ->
  known_nuclide (rc_target r) -> known_projectile (rc_projectile r) -> rc_products r = [CWord (tx w)] -> In (w, name) process_codes ->
  rc_residual r = None -> real_target (rc_target r) -> rc_projectile r <> CWord (tx "AP") ->
  exists rx T J, reaction_of_text e text = Ok (MRxn rx, PTok line) /\ says r rx T J /\
    p_products (r_process rx) = [RStr (tx w)] /\
    p_residual (r_process rx) = (if scattering w then RPart T else RNone) /\
    forall compounds, exists t j, pretty compounds T = Ok t /\ pretty compounds J = Ok j /\
      process_str compounds (r_process rx) =
        Ok (t ++ tx "(" ++ j ++ tx "," ++ tx name ++ tx ")" ++ if scattering w then t else []).
Proof.
  intros c e r line text w name KP KC EG G F KT KJ EP I ER RT NAP.
  assert (PC : process_code (CWord (tx w))).
  { exists w. split; [|reflexivity]. apply in_map_iff. exists (w, name). auto. }
  assert (K : known_reaction r).
  { constructor; auto.
    - rewrite EP. constructor; [now left|constructor].
    - rewrite ER. discriminate.
    - left. rewrite EP. now left. }
  destruct (known_made c (e_compounds e) _ r G K) as (rx & T & J & objs & X & M & _).
  pose proof (made_says _ _ _ _ _ _ _ M) as SY. destruct M as [M1 M2 M3 M4 M5 M6 M7 M8 M9 M10 M11].
  rewrite EP, ER in M7. cbn [app] in M7. inversion M7 as [|? o ? os MO MN Q1 Q2]; subst. inversion MN; subst.
  assert (o = RStr (tx w)).
  { inversion MO as [w' n' I' Q|w' z a I' Q|? ? ? ? ? ? ? Q|]; subst.
    - apply tx_inj in Q. now subst.
    - exfalso. apply tx_inj in Q. subst w'. pose proof (particle_not_process _ _ _ I') as D. unfold dhas in D.
      rewrite (process_is_process _ _ I) in D. discriminate. }
  subst o. pose proof G as (GT & GJ & _).
  rewrite (process_resid c T J w name r I M3 M6 M2 M5 GJ RT NAP) in M8.
  assert (E1 : [RStr (tx w)] = p_products (r_process rx)) by congruence.
  assert (E2 : (if scattering w then RPart T else RNone) = p_residual (r_process rx)) by congruence. clear M8.
  exists rx, T, J. split; [eapply field_reaction; eauto|]. split; [exact SY|]. split; [now symmetry|]. split; [now symmetry|].
  intros compounds. destruct M3 as (_ & _ & _ & PT), M6 as (_ & _ & _ & PJ). destruct (PT compounds) as (t & Pt), (PJ compounds) as (j & Pj).
  exists t, j. split; [exact Pt|]. split; [exact Pj|].
  rewrite <- E1 in M9. unfold setProcessType in M9. cbn [map_res prod_str] in M9. rewrite (process_is_process _ _ I) in M9. cbn [bind join] in M9.
  unfold process_str. rewrite M1, M4, <- E2. cbn [part_str]. rewrite Pt, Pj. cbn [bind].
  assert (TY : p_type (r_process rx) = tx name) by congruence. rewrite TY.
  destruct (scattering w); cbn [truthy part_str]; rewrite ?Pt; cbn [bind]; rewrite ?app_assoc, ?app_nil_r; reflexivity.
Qed.

(** ** Printing *)
Lemma solid_str : forall compounds p, p = RNone \/ solid p -> exists t, part_str compounds p = Ok t.
Proof.
  intros compounds p [->|[(s & ->)|(q & -> & _ & _ & _ & P)]]; try (eexists; reflexivity). destruct (P compounds) as (t & T). exists t. exact T.
Qed.
Lemma made_str : forall g compounds r rx T J objs cs, made g compounds r rx T J objs -> exists t, process_str cs (r_process rx) = Ok t.
Proof.
  intros g compounds r rx T J objs cs M. destruct (solid_str cs _ (made_left _ _ _ _ _ _ _ M)) as (u & U).
  unfold process_str. rewrite (made_targ _ _ _ _ _ _ _ M), (made_proj _ _ _ _ _ _ _ M). cbn [part_str].
  destruct (made_wT _ _ _ _ _ _ _ M) as (_ & _ & _ & PT), (made_wJ _ _ _ _ _ _ _ M) as (_ & _ & _ & PJ).
  destruct (PT cs) as (t & ->), (PJ cs) as (j & ->). cbn [bind].
  destruct (truthy (p_residual (r_process rx))); [rewrite U|]; cbn [bind]; eexists; reflexivity.
Qed.
Definition full_rows (d : x4dict) : Prop := forall k row, dget str_eqb k d = Some row -> row <> [].
Lemma idx_first : forall (A : Type) (l : list A), l <> [] -> exists x, idx l 0 = Ok x.
Proof. intros A [|x l] H; [contradiction|]. now exists x. Qed.
Lemma find_dhas : forall (d : x4dict) l i, find (fun i => dhas str_eqb i d) l = Some i -> exists row, dget str_eqb i d = Some row.
Proof.
  intros d l i H. apply find_some in H. destruct H as [_ H]. unfold dhas in H. destruct (dget str_eqb i d); [eauto|discriminate].
Qed.
Lemma join_toks_ok : forall sep l, join_toks sep (map PTok l) = Ok (join sep l).
Proof.
  intros sep l. unfold join_toks. assert (M : map_res (fun t => match t with PTok s => Ok s | PGroup _ => Raise TypeError end) (map PTok l) = Ok l).
  { induction l as [|x l IH]; [reflexivity|]. cbn [map map_res bind]. now rewrite IH. }
  now rewrite M.
Qed.
Lemma quantity_type : forall qd md rx l, full_rows qd -> full_rows md -> r_quant rx = map PTok l -> exists t, getReactionType qd md rx = Ok t.
Proof.
  intros qd md rx l FQ FM Q. unfold getReactionType. rewrite Q, join_toks_ok. cbn [bind].
  destruct (dget str_eqb (join (lit ",") l) qd) as [row|] eqn:E.
  { apply FQ in E. destruct (idx_first _ row E) as (x & ->). eauto. }
  set (qs := map _ (map PTok l)). 
  assert (P : exists pre, (match find (fun i => dhas str_eqb i md) qs with
             | Some i => l <- of_option KeyError (dget str_eqb i md) ;; t <- idx l 0 ;; Ok (t ++ lit " ")
             | None => Ok [] end) = Ok pre).
  { destruct (find (fun i => dhas str_eqb i md) qs) as [i|] eqn:F; [|eauto]. apply find_dhas in F. destruct F as (row & F). rewrite F.
    apply FM in F. cbn [of_option bind]. destruct (idx_first _ row F) as (x & ->). cbn [bind]. eauto. }
  destruct P as (pre & ->). cbn [bind].
  destruct (find (fun i => dhas str_eqb i qd) (qs ++ map (fun x => lit "," ++ x) qs)) as [i|] eqn:F; [|eauto].
  apply find_dhas in F. destruct F as (row & F). rewrite F. apply FQ in F. cbn [of_option bind]. destruct (idx_first _ row F) as (x & ->). cbn [bind]. eauto.
Qed.
Lemma made_reaction_str : forall g compounds r rx T J objs cs qd md, full_rows qd -> full_rows md -> made g compounds r rx T J objs ->
  exists t, reaction_str cs qd md rx = Ok t.
Proof.
  intros g compounds r rx T J objs cs qd md FQ FM M. unfold reaction_str.
  destruct (quantity_type qd md rx _ FQ FM (made_quant _ _ _ _ _ _ _ M)) as (t & ->). cbn [bind].
  destruct (made_str _ _ _ _ _ _ _ cs M) as (p & ->). eexists. reflexivity.
Qed.

(** ** Combinations *)
Definition printable (x : element) : Prop :=
  (exists op, x = EOp op) \/ exists rx, x = ERxn rx /\ forall cs qd md, full_rows qd -> full_rows md -> exists t, reaction_str cs qd md rx = Ok t.
Lemma combination_str : forall cs qd md data, full_rows qd -> full_rows md -> Forall printable data ->
  exists t, element_str cs qd md (EIso data) = Ok t.
Proof.
  intros cs qd md data FQ FM F. induction F as [|x data P F (t & IH)].
  - exists []. reflexivity.
  - cbn [element_str] in *. destruct P as [(op & ->)|(rx & -> & P)].
    + cbn [element_str bind]. rewrite IH. eexists. reflexivity.
    + destruct (P cs qd md FQ FM) as (u & U). cbn [element_str]. rewrite U. cbn [bind]. rewrite IH. eexists. reflexivity.
Qed.

Lemma saying_combination : forall c compounds depth keys l,
  (forall op, In (PTok op) l -> In op math_symbols) ->
  (forall q, In (PGroup q) l -> exists r, good_reaction keys r /\ known_reaction r /\ q = reaction_tree r) ->
  exists data, X4ReactionCombination depth (x4grammars c) compounds l = Ok data /\ Forall2 saying l data /\ Forall printable data.
Proof.
  intros c compounds depth keys l S K. unfold X4ReactionCombination. induction l as [|p l IH]; [exists []; auto|].
  destruct IH as (data & E & F & PR); [intros op I; apply S; now right|intros q I; apply K; now right|].
  assert (H : exists x, getStrOrX4Reaction depth (x4grammars c) compounds p = Ok x /\ saying p x /\ printable x).
  { destruct p as [op|q].
    - exists (EOp op). split; [|split; [reflexivity|left; eauto]]. cbn [getStrOrX4Reaction].
      replace (smem op math_symbols) with true; [reflexivity|]. symmetry. apply smem_In, S. now left.
    - destruct (K q (or_introl eq_refl)) as (r & G & B & ->).
      destruct (known_made c compounds keys r G B) as (rx & T & J & objs & X & M & _).
      exists (ERxn rx). split; [|split].
      + cbn [getStrOrX4Reaction]. rewrite X. reflexivity.
      + exists r, rx, T, J. split; [reflexivity|]. split; [reflexivity|]. eapply made_says; eauto.
      + right. exists rx. split; [reflexivity|]. intros. eapply made_reaction_str; eauto. }
  destruct H as (x & Ex & Tx & Px). exists (x :: data). split; [|split; constructor; auto].
  cbn [map_res]. rewrite Ex. cbn [bind]. rewrite E. reflexivity.
Qed.
Lemma known_combination : forall c e ts l line text,
  Forall particle_key (c_particles c) -> Forall compound_key (c_compounds c) -> e_g e = x4grammars c ->
  cexpr (written (c_particles c) (c_compounds c)) ts l -> in_field (tx "(" :: ts ++ [tx ")"]) line text ->
  (forall q, In (PGroup q) l -> exists r, good_reaction (c_particles c) r /\ known_reaction r /\ q = reaction_tree r) ->
  exists data, reaction_of_text e text = Ok (MComb (EOp (tx "(") :: data ++ [EOp (tx ")")]), PTok line) /\
    Forall2 saying l data /\ Forall printable data.
Proof.
  intros c e ts l line text KP KC EG C F B. unfold reaction_of_text. rewrite EG.
  rewrite (field_read c _ _ line text KP KC (cf_paren _ _ _ C) F). cbn [of_option bind].
  destruct (last_of_snoc _ (PTok (tx "(") :: l ++ [PTok (tx ")")]) (PTok line)) as [-> ->].
  destruct (saying_combination c (e_compounds e) (e_depth e) _ l (pieces_symbols _ _ _ C) B) as (data & E & F2 & PR).
  exists data. split; [|auto].
  unfold getMeasurementType.
  assert (M : existsb (fun i => existsb (is_tok i) (PTok (tx "(") :: l ++ [PTok (tx ")")])) math_symbols = true) by reflexivity.
  rewrite M. unfold X4ReactionCombination in *. cbn [map_res].
  rewrite (map_res_app _ _ _ l [PTok (tx ")")] data [EOp (tx ")")] E) by reflexivity. reflexivity.
Qed.
