(** From the codes of a reaction to its objects. *)
From Coq Require Import String List Ascii NArith ZArith Bool Arith Lia.
From Verif.Model Require Import Py Dicts Particle Reaction Field Pyparsing Grammars.
From Verif.Spec Require Import Text Codes General Nuclear Balance.
From Verif.Proofs Require Import StrLemmas NumLemmas IntLemmas DictLemmas ReactionLemmas ParseLemmas GrammarLemmas GrammarCodes GrammarReactions GrammarGeneral GrammarFields.
Import ListNotations.
Local Open Scope string_scope.
Local Open Scope list_scope.
Local Open Scope nat_scope.

Lemma number_int : forall s n, number_is s n -> int_of_str s = Some n.
Proof.
  intros s n (ds & -> & D & NE & ->). pose proof (int_of_digits [] ds [] (Forall_nil _) (Forall_nil _) D NE) as H.
  cbn [app] in H. now rewrite app_nil_r in H.
Qed.
Lemma number_isdigit : forall s n, number_is s n -> str_isdigit s = true.
Proof.
  intros s n (ds & -> & D & NE & ->). unfold str_isdigit. destruct ds as [|d ds]; [contradiction|].
  cbn [digits_text map]. change (digit_char d :: map digit_char ds) with (digits_text (d :: ds)).
  apply forallb_forall. intros c I. unfold digits_text in I. apply in_map_iff in I. destruct I as (x & <- & I).
  unfold is_digits in D. rewrite Forall_forall in D. specialize (D x I).
  assert (G : forall n, n < 10 -> is_digit_py (digit_char (N.of_nat n)) = true).
  { intros m M. do 10 (destruct m as [|m]; [reflexivity|]). lia. }
  specialize (G (N.to_nat x)). rewrite N2Nat.id in G. apply G. lia.
Qed.
(** ** Decimal texts without leading zeros are unique *)
Lemma snoc_cases : forall (A : Type) (l : list A), l = [] \/ exists t x, l = t ++ [x].
Proof. intros A l. destruct l using rev_ind; [now left|right; eauto]. Qed.
Lemma value10_cons : forall d ds, (value10 (d :: ds) = d * 10 ^ N.of_nat (length ds) + value10 ds)%N.
Proof.
  intros d ds. induction ds as [|x ds IH] using rev_ind; [unfold value10; cbn; lia|].
  rewrite app_comm_cons, !value10_snoc, IH, app_length. cbn [length]. rewrite Nat.add_1_r, Nat2N.inj_succ, N.pow_succ_r'. lia.
Qed.
Lemma value10_pos : forall d ds, (0 < d)%N -> (0 < value10 (d :: ds))%N.
Proof.
  intros d ds D. rewrite value10_cons. assert (0 < 10 ^ N.of_nat (length ds))%N by (apply N.neq_0_lt_0, N.pow_nonzero; lia).
  nia.
Qed.
Lemma value10_snoc_inj : forall a x b y, (x < 10)%N -> (y < 10)%N ->
  value10 (a ++ [x]) = value10 (b ++ [y]) -> x = y /\ value10 a = value10 b.
Proof. intros a x b y X Y E. rewrite !value10_snoc in E. lia. Qed.
Lemma canonical : forall a b, is_digits a -> is_digits b -> value10 a = value10 b ->
  (forall t, a <> 0%N :: t) -> (forall t, b <> 0%N :: t) -> a = b.
Proof.
  intros a. induction a as [|x a IH] using rev_ind; intros b Da Db E Ca Cb.
  - destruct b as [|y b]; [reflexivity|]. exfalso. assert (P : (0 < y)%N).
    { destruct (N.eq_dec y 0) as [->|]; [now destruct (Cb b)|lia]. }
    pose proof (value10_pos y b P) as Q. rewrite <- E in Q. now apply N.lt_irrefl in Q.
  - destruct (snoc_cases _ b) as [->|(b' & y & ->)].
    + exfalso. destruct a as [|z a].
      * cbn [app] in *. assert (P : (0 < x)%N) by (destruct (N.eq_dec x 0) as [->|]; [now destruct (Ca [])|lia]).
        pose proof (value10_pos x [] P) as Q. rewrite E in Q. now apply N.lt_irrefl in Q.
      * cbn [app] in *. assert (P : (0 < z)%N) by (destruct (N.eq_dec z 0) as [->|]; [now destruct (Ca (a ++ [x]))|lia]).
        pose proof (value10_pos z (a ++ [x]) P) as Q. rewrite E in Q. now apply N.lt_irrefl in Q.
    + unfold is_digits in Da, Db. apply Forall_app in Da, Db. destruct Da as [Da Dx], Db as [Db Dy].
      inversion Dx; inversion Dy; subst. apply value10_snoc_inj in E; auto. destruct E as [-> E]. f_equal.
      apply IH; auto.
      * intros t ->. now apply (Ca (t ++ [y])).
      * intros t ->. now apply (Cb (t ++ [y])).
Qed.
Lemma n_digits_aux_head : forall fuel n acc, (0 < n)%N -> (n < 2 ^ N.of_nat fuel)%N ->
  forall ds, n_digits_aux fuel n acc = digits_text ds ++ acc -> forall t, ds <> 0%N :: t.
Proof.
  induction fuel as [|fuel IH]; intros n acc P B ds E t ->.
  - change (2 ^ N.of_nat 0)%N with 1%N in B. lia.
  - cbn [n_digits_aux] in E. destruct (N.eqb_spec (n / 10) 0) as [Q|Q].
    + assert (DM : n = (10 * (n / 10) + n mod 10)%N) by (apply N.div_mod; discriminate). rewrite Q in DM.
      assert (L : length (digits_text (0%N :: t) ++ acc) = length (dig_chr (n mod 10) :: acc)) by now rewrite <- E.
      rewrite app_length in L. cbn [digits_text map length] in L. destruct t as [|t0 t]; [|cbn [map length] in L; lia].
      cbn in E. injection E as E.
      assert (M : (n mod 10 < 10)%N) by (apply N.mod_lt; lia).
      pose proof (digits_text_inj [n mod 10]%N [0]%N) as J. cbn in J. unfold is_digits in J.
      assert (G : [(n mod 10)%N] = [0%N]).
      { apply J; [now constructor|constructor; [lia|constructor]|]. unfold digit_char at 1. cbn. f_equal. exact E. }
      injection G as G. lia.
    + assert (HB : (n / 10 < 2 ^ N.of_nat fuel)%N).
      { apply N.div_lt_upper_bound; [lia|]. rewrite Nat2N.inj_succ, N.pow_succ_r' in B. lia. }
      assert (HF : 0 < fuel).
      { destruct fuel; [|lia]. change (2 ^ N.of_nat 0)%N with 1%N in HB. exfalso. apply Q. now apply N.lt_1_r. }
      destruct (n_digits_aux_spec fuel (n / 10)%N (dig_chr (n mod 10) :: acc) HB HF) as (ds & E1 & D & NE & V).
      assert (PQ : (0 < n / 10)%N) by lia.
      pose proof (IH _ (dig_chr (n mod 10) :: acc) PQ HB ds E1) as N0.
      rewrite E1 in E.
      destruct ds as [|d ds]; [contradiction|]. cbn [digits_text map app] in E. injection E as E _.
      inversion D as [|? ? D1 D2]; subst. apply (N0 ds). f_equal.
      pose proof (digits_text_inj [d] [0]%N) as J. unfold is_digits in J.
      assert (G : [d] = [0%N]); [|now injection G].
      apply J; [now constructor|constructor; [lia|constructor]|]. cbn. now f_equal.
Qed.
Lemma n_to_str_canonical : forall ds, is_digits ds -> ds <> [] -> (forall t, ds <> 0%N :: t) ->
  n_to_str (value10 ds) = digits_text ds.
Proof.
  intros ds D NE C. destruct (n_to_str_spec (value10 ds)) as (ds' & E & D' & NE' & V). rewrite E. f_equal.
  apply canonical; auto. unfold n_to_str in E.
  refine (n_digits_aux_head (S (N.size_nat (value10 ds))) (value10 ds) [] _ (size_nat_bound _) ds' _).
  - destruct ds as [|d ds]; [contradiction|]. apply value10_pos. destruct (N.eq_dec d 0) as [->|]; [now destruct (C ds)|lia].
  - now rewrite app_nil_r.
Qed.
Lemma count_str : forall s n, count_is s n -> z_to_str n = s.
Proof.
  intros s n [(ds & -> & D & NE & ->) [G C]]. rewrite <- (n_to_str_canonical ds D NE).
  - destruct (value10 ds) eqn:V; [lia|reflexivity].
  - intros t ->. now apply (C (digits_text t)).
Qed.
(** ** Objects of codes *)
Definition fine (x : pcode) (z a : Z) (p : particle) : Prop :=
  object_of x z a p /\ counts (RPart p) = true /\ forall compounds, exists t, pretty compounds p = Ok t.

Lemma map_digits : forall f s n, (forall d, (d < 10)%N -> f (digit_char d) = digit_char d) -> number_is s n -> map f s = s.
Proof.
  intros f s n F (ds & -> & D & _). unfold digits_text. rewrite map_map. apply map_ext_in. intros d I.
  unfold is_digits in D. rewrite Forall_forall in D. apply F. auto.
Qed.
Lemma lower_number_is : forall s n, number_is s n -> lower s = s.
Proof. intros s n. apply map_digits. intros d D. now apply digit_lower. Qed.
Lemma digit_upper : forall d, (d < 10)%N -> upper_c (digit_char d) = digit_char d.
Proof.
  intros d D. assert (G : forall n, n < 10 -> upper_c (digit_char (N.of_nat n)) = digit_char (N.of_nat n)).
  { intros m M. do 10 (destruct m as [|m]; [reflexivity|]). lia. }
  specialize (G (N.to_nat d)). rewrite N2Nat.id in G. apply G. lia.
Qed.
Lemma upper_number_is : forall s n, number_is s n -> upper s = s.
Proof. intros s n. apply map_digits. exact digit_upper. Qed.

Ltac light_cases H := unfold light in H; cbn [In] in H;
  repeat (destruct H as [H|H]; [injection H as <- <- <-|]); [..|destruct H].

Lemma light_one : forall c ign w z a, In (w, (z, a)) light ->
  exists p, setParticleType (x4grammars c) ign (PTok (tx w)) = Ok (RPart p) /\ fine (CWord (tx w)) z a p.
Proof.
  intros c ign w z a H. light_cases H.
  all: eexists; split; [vm_compute; reflexivity|].
  all: split; [split; [reflexivity|split; [reflexivity|intros _; eexists; split; vm_compute; reflexivity]]|].
  all: split; [reflexivity|]; intros cs; eexists; vm_compute; reflexivity.
Qed.
Lemma light_product : forall c ign w z a, word (tx w) -> In (w, (z, a)) light ->
  exists p, setProduct (x4grammars c) ign (PTok (tx w)) = Ok (RPart p) /\ fine (CWord (tx w)) z a p.
Proof.
  intros c ign w z a W H. pose proof H as H'. light_cases H.
  1:{ exfalso. destruct W as (x & b & E & [NE L] & _). destruct x as [|x0 x]; [contradiction|]. cbn in E. injection E as <- _.
      inversion L as [|? ? [[K1 K2]|[K1 K2]]]; vm_compute in K1; now apply K1. }
  all: apply (light_one c ign) in H'; destruct H' as (p & E & F); exists p; split; [|exact F]; cbn [setProduct];
    match goal with |- (if ?b then _ else _) = _ => change b with false end; exact E.
Qed.

Lemma upper_app : forall a b, upper (a ++ b) = upper a ++ upper b.
Proof. intros. apply map_app. Qed.
Lemma light_many : forall c ign count k w z a, count_is count k -> In (w, (z, a)) light ->
  exists p, setParticleType (x4grammars c) ign (PGroup [PTok count; PTok (tx w)]) = Ok (RPart p) /\
    fine (CMany count (tx w)) (k * z) (k * a) p.
Proof.
  intros c ign count k w z a K H.
  assert (E1 : g_particle (x4grammars c) (lit "N") = Some [PTok (lit "N")]) by (vm_compute; reflexivity).
  assert (E2 : int_of_str (lower count) = Some k).
  { destruct K as [K _]. rewrite (lower_number_is _ _ K). now apply number_int. }
  assert (E3 : setParticleType (x4grammars c) ign (PGroup [PTok count; PTok (tx w)]) =
               Ok (RPart (PParticle (NInt k) (lower (tx w)) z a))).
  { cbn [setParticleType]. unfold X4Particle. rewrite E1.
    cbn [of_option bind map_res tok map]. unfold particle_of_list.
    change (1 <? length [PTok (lower count); PTok (lower (tx w))]) with true. cbv iota.
    cbn [idx nth_error of_option bind]. rewrite E2. cbn [of_option bind tok].
    light_cases H; vm_compute; reflexivity. }
  eexists. split; [exact E3|]. split; [|split].
  - split; [reflexivity|]. split; [reflexivity|]. intros _. exists (z_to_str k ++ lower (tx w)). split.
    + cbn [exfor]. unfold particle_exfor, several. cbn [bind].
      destruct K as (_ & K & _). replace (1 <? k)%Z with true by (symmetry; apply Z.ltb_lt; lia). reflexivity.
    + rewrite (count_str _ _ K). cbn [code_tokens concat]. rewrite app_nil_r, !upper_app. f_equal.
      light_cases H; vm_compute; reflexivity.
  - reflexivity.
  - intros cs. cbn [pretty]. unfold particle_pretty, several. cbn [bind]. eexists. reflexivity.
Qed.

Lemma letter_upper_lower : forall d, letter d -> upper_c (lower_c d) = upper_c d.
Proof.
  intros d D. pose proof (forall_ascii (fun d => implb (((65 <=? N_of_ascii d) && (N_of_ascii d <=? 90) || (97 <=? N_of_ascii d) && (N_of_ascii d <=? 122))%N)
     (Ascii.eqb (upper_c (lower_c d)) (upper_c d)))) as F.
  specialize (F ltac:(vm_compute; reflexivity) d). cbv beta in F.
  assert (B : (((65 <=? N_of_ascii d) && (N_of_ascii d <=? 90) || (97 <=? N_of_ascii d) && (N_of_ascii d <=? 122))%N) = true).
  { destruct D as [[A B]|[A B]]; apply orb_true_iff; [left|right]; apply andb_true_iff; split; now apply N.leb_le. }
  rewrite B in F. now apply Ascii.eqb_eq in F.
Qed.
Lemma upper_idem_c : forall d, letter d -> upper_c (upper_c d) = upper_c d.
Proof.
  intros d D. pose proof (forall_ascii (fun d => implb (((65 <=? N_of_ascii d) && (N_of_ascii d <=? 90) || (97 <=? N_of_ascii d) && (N_of_ascii d <=? 122))%N)
     (Ascii.eqb (upper_c (upper_c d)) (upper_c d)))) as F.
  specialize (F ltac:(vm_compute; reflexivity) d). cbv beta in F.
  assert (B : (((65 <=? N_of_ascii d) && (N_of_ascii d <=? 90) || (97 <=? N_of_ascii d) && (N_of_ascii d <=? 122))%N) = true).
  { destruct D as [[A B]|[A B]]; apply orb_true_iff; [left|right]; apply andb_true_iff; split; now apply N.leb_le. }
  rewrite B in F. now apply Ascii.eqb_eq in F.
Qed.
Lemma upper_capitalize : forall s, Forall letter s -> upper (capitalize s) = upper s.
Proof.
  intros [|d s] L; [reflexivity|]. inversion L as [|? ? D L']; subst. unfold capitalize, upper, lower. cbn [map].
  rewrite upper_idem_c by auto. f_equal. rewrite map_map. apply map_ext_in. intros x I. rewrite Forall_forall in L'.
  apply letter_upper_lower. auto.
Qed.
Lemma symbol_letters : forall n, good_nuclide n -> Forall letter (n_sym n).
Proof.
  intros n (_ & _ & _ & c & t & E & C & T). rewrite E. constructor; [now left|].
  destruct T as [->|(d & -> & D)]; auto.
Qed.
Lemma upper_idem : forall s, Forall letter s -> upper (upper s) = upper s.
Proof.
  intros s L. unfold upper. rewrite map_map. apply map_ext_in. intros x I. rewrite Forall_forall in L. apply upper_idem_c. auto.
Qed.
Lemma number_nonzero : forall s n, number_is s n -> (0 < n)%Z -> str_eqb s (lit "0") = false.
Proof.
  intros s n H P. destruct (str_eqb s (lit "0")) eqn:E; [|reflexivity]. apply str_eqb_eq in E as ->.
  apply number_int in H. vm_compute in H. injection H as <-. lia.
Qed.
Lemma nuclide_one : forall c ign n z a, good_nuclide n -> nuclide_is n z a ->
  exists p, p = PNucleus (n_Z n) (capitalize (n_sym n)) (n_A n) /\
    setParticleType (x4grammars c) ign (nuclide_tree n) = Ok (RPart p) /\ fine (CNuclide n) z a p.
Proof.
  intros c ign n z a G (I & NZ & NA & P).
  eexists. split; [reflexivity|]. split.
  - unfold nuclide_tree. rewrite I. cbn [flat_map app map setParticleType tok bind].
    rewrite (number_isdigit _ _ NA), (number_nonzero _ _ NA P). reflexivity.
  - split; [|split].
    + split; [cbn [getZ]; now rewrite (number_int _ _ NZ)|]. split; [cbn [getA]; now rewrite (number_int _ _ NA)|].
      intros NN. cbn [exfor]. unfold nucleus_exfor. destruct (str_eqb (capitalize (n_sym n)) (lit "Nn")) eqn:E.
      { exfalso. apply str_eqb_eq in E. apply NN. exists n. split; [reflexivity|].
        rewrite <- (upper_capitalize _ (symbol_letters n G)), E. reflexivity. }
      eexists. split; [reflexivity|]. cbn [code_tokens]. unfold nuclide_tokens. rewrite I. cbn [flat_map app concat].
      rewrite (upper_capitalize _ (symbol_letters n G)), app_nil_r, !upper_app, (upper_idem _ (symbol_letters n G)).
      reflexivity.
    + reflexivity.
    + intros cs. eexists. reflexivity.
Qed.

Lemma code_object : forall c ign x z a, (forall n, x = CNuclide n -> good_nuclide n) -> weighs x z a ->
  exists p, setParticleType (x4grammars c) ign (code_tree x) = Ok (RPart p) /\ fine x z a p.
Proof.
  intros c ign x z a G W. destruct W as [w z a H|count k w z a K H|n z a H].
  - exact (light_one c ign w z a H).
  - exact (light_many c ign count k w z a K H).
  - destruct (nuclide_one c ign n z a (G n eq_refl) H) as (p & _ & E & F). eauto.
Qed.
Lemma product_object : forall c ign keys x z a, good_product keys x -> weighs x z a ->
  exists p, setProduct (x4grammars c) ign (code_tree x) = Ok (RPart p) /\ fine x z a p.
Proof.
  intros c ign keys x z a G W. destruct W as [w z a H|count k w z a K H|n z a H]; cbn [code_tree].
  - destruct G as [G _]. exact (light_product c ign w z a G H).
  - exact (light_many c ign count k w z a K H).
  - destruct (nuclide_one c ign n z a G H) as (p & _ & E & F). eauto.
Qed.

Lemma products_objects : forall c ign keys l zs sa, Forall (good_product keys) l -> weigh_all l zs sa ->
  exists ps, map_res (setProduct (x4grammars c) ign) (map code_tree l) = Ok (map RPart ps) /\
    objects_of l ps /\ Forall (fun p => counts (RPart p) = true /\ forall compounds, exists t, pretty compounds p = Ok t) ps /\
    forall z a can more, fold_res (out_step true) (map RPart ps ++ more) (z, a, can) =
      fold_res (out_step true) more ((z + zs)%Z, (a + sa)%Z, can).
Proof.
  intros c ign keys l zs sa G W. induction W as [|x l z a zs sa Wx Wl IH].
  - exists []. repeat split; try constructor. intros z a can more. cbn [map app]. now rewrite !Z.add_0_r.
  - inversion G as [|? ? Gx Gl]; subst. destruct (IH Gl) as (ps & E & O & F & D).
    destruct (product_object c ign keys x z a Gx Wx) as (p & Ep & Op & Cp & Pp).
    exists (p :: ps). repeat split.
    + cbn [map map_res]. rewrite Ep. cbn [bind]. rewrite E. reflexivity.
    + econstructor; eauto.
    + constructor; auto.
    + intros z0 a0 can more. cbn [map app fold_res]. unfold out_step at 1. rewrite Cp. cbn [andb].
      destruct Op as (OZ & OA & _). cbn [prodZ prodA]. rewrite OZ, OA. cbn [bind]. rewrite D. f_equal. f_equal. f_equal; lia.
Qed.
Lemma no_channel : forall ps more, (forall c, has_channel c more = false) -> 
  find (fun c => has_channel c (map RPart ps ++ more)) leave_target = None.
Proof.
  intros ps more M. assert (F : forall c, has_channel c (map RPart ps ++ more) = false).
  { intros c. induction ps as [|p ps IH]; [apply M|exact IH]. }
  destruct (find (fun c => has_channel c (map RPart ps ++ more)) leave_target) eqn:E; [|reflexivity].
  apply find_some in E. destruct E as [_ E]. rewrite F in E. discriminate.
Qed.
Lemma process_type_ok : forall compounds ps,
  Forall (fun p => counts (RPart p) = true /\ forall compounds, exists t, pretty compounds p = Ok t) ps ->
  exists t, setProcessType compounds (map RPart ps) = Ok t.
Proof.
  intros compounds ps F. unfold setProcessType.
  assert (G : exists l, map_res (prod_str compounds) (map RPart ps) = Ok l).
  { induction F as [|p ps [_ P] F [l IH]]; [now exists []|]. destruct (P compounds) as [t T].
    exists (t :: l). cbn [map map_res prod_str]. rewrite T. cbn [bind]. now rewrite IH. }
  destruct G as [l ->]. eexists. reflexivity.
Qed.
Lemma remove_first_RPart : forall p l, remove_first (RPart p) l = l.
Proof. exact remove_first_part. Qed.
Lemma last_of_snoc : forall (A : Type) (l : list A) x, last_of (l ++ [x]) = Ok x /\ but_last (l ++ [x]) = l.
Proof.
  intros A l x. unfold last_of, but_last. rewrite app_length. cbn [length].
  replace (length l + 1 - 1) with (length l) by lia. split.
  - rewrite nth_error_app2 by lia. now rewrite Nat.sub_diag.
  - rewrite firstn_app, Nat.sub_diag, firstn_all. cbn. apply app_nil_r.
Qed.

(** A reaction whose codes all have charge and mass. *)
Definition sums (r : rcode) (tz ta pz pa zs sa : Z) : Prop :=
  nuclide_is (rc_target r) tz ta /\ weighs (rc_projectile r) pz pa /\ weigh_all (rc_products r) zs sa.

(** How a reaction object came about; reading the residual after the products would not change it. *)
Record built (g : grammars) (compounds : x4dict) (ign : bool) (r : rcode) (rx : reaction) (R : particle) : Prop := {
  b_targ : setParticleType g ign (nuclide_tree (rc_target r)) = Ok (p_targ (r_process rx));
  b_proj : setParticleType g ign (code_tree (rc_projectile r)) = Ok (p_proj (r_process rx));
  b_prods : map_res (setProduct g ign) (map code_tree (rc_products r)) = Ok (p_products (r_process rx));
  b_type : setProcessType compounds (p_products (r_process rx)) = Ok (p_type (r_process rx));
  b_resid : p_residual (r_process rx) = RPart R;
  b_again : setResidual g (p_targ (r_process rx)) (p_proj (r_process rx)) (p_products (r_process rx) ++ [RPart R]) =
            Ok (p_products (r_process rx), RPart R);
  b_written : forall n, rc_residual r = Some n -> R = PNucleus (n_Z n) (capitalize (n_sym n)) (n_A n) }.

Lemma residual_object : forall c compounds ign keys r tz ta pz pa zs sa, good_reaction keys r ->
  sums r tz ta pz pa zs sa -> (tz + pz < ta + pa)%Z ->
  match rc_residual r with
  | Some n => nuclide_is n (tz + pz - zs) (ta + pa - sa)
  | None => (0 <= tz + pz - zs < 119)%Z /\ (tz + pz - zs <> 0 \/ ta + pa - sa <> 0)%Z
  end ->
  exists rx R, X4Reaction (x4grammars c) compounds ign (PGroup (reaction_tree r)) = Ok rx /\ tells r rx R /\
    built (x4grammars c) compounds ign r rx R /\
    getZ R = Ok (tz + pz - zs)%Z /\ getA R = Ok (ta + pa - sa)%Z /\
    match rc_residual r with
    | Some n => object_of (CNuclide n) (tz + pz - zs) (ta + pa - sa) R
    | None => exists sym, endl_ZSymbol (tz + pz - zs) = Some sym /\
                R = PNucleus (z_to_str (tz + pz - zs)) (capitalize sym) (z_to_str (ta + pa - sa))
    end.
Proof.
  intros c compounds ign keys r tz ta pz pa zs sa (GT & GJ & (_ & GP & _) & GR & _) (WT & WJ & WP) HV RES.
  destruct (nuclide_one c ign _ _ _ GT WT) as (T & _ & ET & OT & CT & PT).
  assert (GJ' : forall n, rc_projectile r = CNuclide n -> good_nuclide n).
  { intros n E. now rewrite E in GJ. }
  destruct (code_object c ign _ _ _ GJ' WJ) as (J & EJ & OJ & CJ & PJ).
  destruct (products_objects c ign keys _ _ _ GP WP) as (ps & EP & OP & FP & DP).
  pose proof (process_type_ok compounds ps FP) as [ty TY].
  destruct OT as (TZ & TA & TX), OJ as (JZ & JA & JX).
  assert (NZ : negb (ta =? 0)%Z = true).
  { apply negb_true_iff, Z.eqb_neq. destruct WT as (_ & _ & _ & W). lia. }
  assert (X : forall R more, map_res (setProduct (x4grammars c) ign) (skipn 2 (process_tree r)) = Ok (map RPart ps ++ more) ->
     setResidual (x4grammars c) (RPart T) (RPart J) (map RPart ps ++ more) = Ok (map RPart ps, RPart R) ->
     setResidual (x4grammars c) (RPart T) (RPart J) (map RPart ps ++ [RPart R]) = Ok (map RPart ps, RPart R) ->
     (forall n, rc_residual r = Some n -> R = PNucleus (n_Z n) (capitalize (n_sym n)) (n_A n)) ->
     exists rx, X4Reaction (x4grammars c) compounds ign (PGroup (reaction_tree r)) = Ok rx /\ tells r rx R /\
       built (x4grammars c) compounds ign r rx R).
  { intros R more MP SR SA SW. eexists. split; [|split].
    - unfold X4Reaction, reaction_tree. cbn [bind idx nth_error of_option]. unfold process_of_results.
      unfold process_tree at 1 2. cbn [bind idx nth_error of_option]. rewrite ET. cbn [bind]. rewrite EJ. cbn [bind].
      rewrite MP. cbn [bind]. rewrite SR. cbn [bind]. rewrite TY. cbn [bind skipn]. reflexivity.
    - constructor; cbn [r_process r_quant p_targ p_proj p_products p_residual].
      + exists T, tz, ta. repeat split; auto. now constructor.
      + exists J, pz, pa. repeat split; auto.
      + exists ps. auto.
      + reflexivity.
      + reflexivity.
    - constructor; cbn [r_process r_quant p_targ p_proj p_products p_residual p_type]; auto. }
  assert (AG : forall R, counts (RPart R) = true -> getZ R = Ok (tz + pz - zs)%Z -> getA R = Ok (ta + pa - sa)%Z ->
     setResidual (x4grammars c) (RPart T) (RPart J) (map RPart ps ++ [RPart R]) = Ok (map RPart ps, RPart R)).
  { intros R CR RZ RA. unfold setResidual. cbn [prodZ prodA]. rewrite TA. cbn [bind]. rewrite no_channel by reflexivity.
    rewrite TZ, JZ, JA. cbn [bind]. replace (tz + pz <? ta + pa)%Z with true by (symmetry; now apply Z.ltb_lt).
    rewrite DP. cbn [fold_res]. unfold out_step. rewrite CR. cbn [andb prodZ prodA].
    rewrite RZ, RA. cbn [bind].
    replace (tz + pz =? 0 + zs + (tz + pz - zs))%Z with true by (symmetry; apply Z.eqb_eq; lia).
    replace (ta + pa =? 0 + sa + (ta + pa - sa))%Z with true by (symmetry; apply Z.eqb_eq; lia).
    cbn [andb]. destruct (last_of_snoc _ (map RPart ps) (RPart R)) as [-> ->]. cbn [bind].
    now rewrite remove_first_part. }
  assert (SK : skipn 2 (process_tree r) = map code_tree (rc_products r) ++
                 match rc_residual r with Some n => [nuclide_tree n] | None => [] end) by reflexivity.
  destruct (rc_residual r) as [n|] eqn:ER.
  - destruct (nuclide_one c ign n _ _ (GR n eq_refl) RES) as (R & RV & ERn & OR & CR & PR).
    assert (ERp : setProduct (x4grammars c) ign (nuclide_tree n) = Ok (RPart R)) by exact ERn.
    destruct (X R [RPart R]) as (rx & E & TL).
    + rewrite SK. assert (MA : forall l m, map_res (setProduct (x4grammars c) ign) l = Ok m ->
        map_res (setProduct (x4grammars c) ign) (l ++ [nuclide_tree n]) = Ok (m ++ [RPart R])).
      { induction l as [|y l IH]; intros m M.
        - cbn in M. injection M as <-. cbn [app map_res]. rewrite ERp. reflexivity.
        - cbn [map_res] in M. apply bind_ok in M. destruct M as (y' & Y & M). apply bind_ok in M. destruct M as (m' & M' & M).
          injection M as <-. cbn [app map_res]. rewrite Y. cbn [bind]. rewrite (IH _ M'). reflexivity. }
      exact (MA _ _ EP).
    + apply AG; auto; now destruct OR as (? & ? & _).
    + apply AG; auto; now destruct OR as (? & ? & _).
    + intros m M. injection M as <-. exact RV.
    + destruct TL as [TL BL]. exists rx, R. pose proof OR as (RZ & RA & _). split; [exact E|]. split; [exact TL|]. split; [exact BL|]. split; [exact RZ|]. split; [exact RA|exact OR].
  - destruct RES as [RG NE]. destruct (proj2 (ZSymbol_known (tz + pz - zs)) RG) as (sym & SY).
    set (R := PNucleus (z_to_str (tz + pz - zs)) (capitalize sym) (z_to_str (ta + pa - sa))).
    destruct (X R []) as (rx & E & TL).
    + rewrite SK, !app_nil_r. exact EP.
    + unfold setResidual. cbn [prodZ prodA]. rewrite TA. cbn [bind]. rewrite no_channel by reflexivity.
      rewrite TZ, JZ, JA. cbn [bind]. replace (tz + pz <? ta + pa)%Z with true by (symmetry; now apply Z.ltb_lt).
      rewrite DP. cbn [fold_res bind].
      replace ((tz + pz =? 0 + zs) && (ta + pa =? 0 + sa))%Z with false.
      2:{ symmetry. apply andb_false_iff. destruct NE; [left|right]; apply Z.eqb_neq; lia. }
      rewrite NZ. unfold computed_residual, X4Nucleus_of_parts.
      replace (tz + pz - (0 + zs))%Z with (tz + pz - zs)%Z by lia. replace (ta + pa - (0 + sa))%Z with (ta + pa - sa)%Z by lia.
      rewrite SY. cbn [bind]. rewrite remove_first_part, app_nil_r. reflexivity.
    + apply AG; [reflexivity| |]; unfold R; cbn [getZ getA]; now rewrite int_of_z_to_str.
    + discriminate.
    + destruct TL as [TL BL]. exists rx, R. split; [exact E|]. split; [exact TL|]. split; [exact BL|]. split; [|split].
      * unfold R. cbn [getZ]. now rewrite int_of_z_to_str.
      * unfold R. cbn [getA]. now rewrite int_of_z_to_str.
      * exists sym. auto.
Qed.

(** ** From the text of a field *)
Lemma field_read : forall c ts l line text,
  Forall particle_key (c_particles c) -> Forall compound_key (c_compounds c) ->
  cfactor (written (c_particles c) (c_compounds c)) ts l -> in_field ts line text ->
  g_reactionfield (x4grammars c) text = Some (l ++ [PTok line]).
Proof.
  intros c ts l line text KP KC C (s & w & k & -> & S & W & K & A & L & T).
  exact (field_text c KP KC ts l s w k line C S W K A L T).
Qed.

Lemma field_reaction : forall c e r line text rx,
  Forall particle_key (c_particles c) -> Forall compound_key (c_compounds c) -> e_g e = x4grammars c ->
  good_reaction (c_particles c) r -> in_field (reaction_tokens r) line text ->
  X4Reaction (x4grammars c) (e_compounds e) false (PGroup (reaction_tree r)) = Ok rx ->
  reaction_of_text e text = Ok (MRxn rx, PTok line).
Proof.
  intros c e r line text rx KP KC EG G F X. unfold reaction_of_text. rewrite EG.
  rewrite (field_read c _ _ line text KP KC (cf_reaction _ _ _ (general_written _ _ r G)) F). cbn [of_option bind app].
  destruct (last_of_snoc _ [PGroup (reaction_tree r)] (PTok line)) as [L B]. cbn [app] in L, B. rewrite L, B.
  unfold getMeasurementType. match goal with |- context [existsb ?f math_symbols] => change (existsb f math_symbols) with false end.
  cbn [idx nth_error of_option bind]. rewrite X. reflexivity.
Qed.

Lemma leaves_reaction : forall c compounds ign keys r z a, good_reaction keys r -> leaves r z a ->
  match rc_residual r with
  | Some n => nuclide_is n z a
  | None => (0 <= z < 119)%Z /\ (z <> 0 \/ a <> 0)%Z
  end ->
  exists rx R, X4Reaction (x4grammars c) compounds ign (PGroup (reaction_tree r)) = Ok rx /\ tells r rx R /\
    built (x4grammars c) compounds ign r rx R /\ getZ R = Ok z /\ getA R = Ok a /\
    match rc_residual r with
    | Some n => object_of (CNuclide n) z a R
    | None => exists sym, endl_ZSymbol z = Some sym /\ R = PNucleus (z_to_str z) (capitalize sym) (z_to_str a)
    end.
Proof.
  intros c compounds ign keys r z a G (tz & ta & pz & pa & zs & sa & WT & WJ & WP & HV & -> & ->) RES.
  exact (residual_object c compounds ign keys r tz ta pz pa zs sa G (conj WT (conj WJ WP)) HV RES).
Qed.
Lemma balances_reaction : forall c compounds ign keys r, good_reaction keys r -> balances r ->
  exists rx R, X4Reaction (x4grammars c) compounds ign (PGroup (reaction_tree r)) = Ok rx /\ tells r rx R.
Proof.
  intros c compounds ign keys r G (z & a & L & RES).
  destruct (leaves_reaction c compounds ign keys r z a G L RES) as (rx & R & X & TL & _); eauto.
Qed.

Lemma written_residual : forall c e r n line text z a,
  Forall particle_key (c_particles c) -> Forall compound_key (c_compounds c) -> e_g e = x4grammars c ->
  good_reaction (c_particles c) r -> in_field (reaction_tokens r) line text ->
  leaves r z a -> rc_residual r = Some n -> nuclide_is n z a ->
  exists rx R, reaction_of_text e text = Ok (MRxn rx, PTok line) /\ tells r rx R /\ object_of (CNuclide n) z a R.
Proof.
  intros c e r n line text z a KP KC EG G F L ER WR.
  destruct (leaves_reaction c (e_compounds e) false _ r z a G L) as (rx & R & X & TL & _ & _ & _ & O).
  - now rewrite ER.
  - rewrite ER in O. exists rx, R. split; [|auto]. eapply field_reaction; eauto.
Qed.
Lemma computed_residual_text : forall c e r line text z a,
  Forall particle_key (c_particles c) -> Forall compound_key (c_compounds c) -> e_g e = x4grammars c ->
  good_reaction (c_particles c) r -> in_field (reaction_tokens r) line text ->
  leaves r z a -> rc_residual r = None -> (0 <= z < 119)%Z -> (z <> 0 \/ a <> 0)%Z ->
  exists rx R, reaction_of_text e text = Ok (MRxn rx, PTok line) /\ tells r rx R /\
    getZ R = Ok z /\ getA R = Ok a /\
    exists sym, endl_ZSymbol z = Some sym /\ exfor R = Ok (nucleus_exfor (z_to_str z) (capitalize sym) (z_to_str a)).
Proof.
  intros c e r line text z a KP KC EG G F L ER RG NE.
  destruct (leaves_reaction c (e_compounds e) false _ r z a G L) as (rx & R & X & TL & _ & RZ & RA & O).
  - now rewrite ER.
  - rewrite ER in O. destruct O as (sym & SY & ->). exists rx. eexists. split; [eapply field_reaction; eauto|].
    split; [exact TL|]. split; [exact RZ|]. split; [exact RA|]. exists sym. auto.
Qed.

(** ** Combinations *)
Scheme cfactor_mi := Induction for cfactor Sort Prop
  with cterm_mi := Induction for cterm Sort Prop
  with cexpr_mi := Induction for cexpr Sort Prop.
Lemma pieces_symbols : forall wr ts l, cexpr wr ts l -> forall op, In (PTok op) l -> In op math_symbols.
Proof.
  intros wr.
  assert (P : forall op, In (PTok op) [PTok (tx "(")] \/ In (PTok op) [PTok (tx ")")] -> In op math_symbols).
  { intros op [[H|[]]|[H|[]]]; injection H as <-; vm_compute; auto 20. }
  apply (cexpr_mi wr (fun _ l _ => forall op, In (PTok op) l -> In op math_symbols)
    (fun _ l _ => forall op, In (PTok op) l -> In op math_symbols) (fun _ l _ => forall op, In (PTok op) l -> In op math_symbols)).
  - intros ts l G op [H|[]]. discriminate.
  - intros ts l C IH op H. change (PTok (tx "(") :: l ++ [PTok (tx ")")]) with ([PTok (tx "(")] ++ l ++ [PTok (tx ")")]) in H.
    rewrite !in_app_iff in H. destruct H as [H|[H|H]]; auto.
  - auto.
  - intros op ts l ts' l' O C IH C' IH' o H. apply in_app_or in H. destruct H as [H|[H|H]]; auto.
    injection H as <-. cbn [In] in O. destruct O as [<-|[<-|[<-|[<-|[]]]]]; vm_compute; auto 20.
  - auto.
  - intros op ts l ts' l' O C IH C' IH' o H. apply in_app_or in H. destruct H as [H|[H|H]]; auto.
    injection H as <-. cbn [In] in O. destruct O as [<-|[<-|[]]]; vm_compute; auto 20.
Qed.

Definition known (keys : list str) (piece : ptree) : Prop :=
  forall l, piece = PGroup l -> exists r, good_reaction keys r /\ balances r /\ l = reaction_tree r.
Lemma combination_told : forall c compounds depth keys l,
  (forall op, In (PTok op) l -> In op math_symbols) -> Forall (known keys) l ->
  exists data, X4ReactionCombination depth (x4grammars c) compounds l = Ok data /\ Forall2 telling l data.
Proof.
  intros c compounds depth keys l S K. unfold X4ReactionCombination. induction l as [|p l IH]; [exists []; auto|].
  inversion K as [|? ? K1 K2]; subst. destruct IH as (data & E & F); [intros op I; apply S; now right|exact K2|].
  assert (H : exists x, getStrOrX4Reaction depth (x4grammars c) compounds p = Ok x /\ telling p x).
  { destruct p as [op|q].
    - exists (EOp op). split; [|reflexivity]. cbn [getStrOrX4Reaction].
      replace (smem op math_symbols) with true; [reflexivity|]. symmetry. apply smem_In, S. now left.
    - destruct (K1 q eq_refl) as (r & G & B & ->).
      destruct (balances_reaction c compounds false keys r G B) as (rx & R & X & TL).
      exists (ERxn rx). split; [|exists r, rx, R; auto]. cbn [getStrOrX4Reaction]. rewrite X. reflexivity. }
  destruct H as (x & Ex & Tx). exists (x :: data). split; [|constructor; auto].
  cbn [map_res]. rewrite Ex. cbn [bind]. rewrite E. reflexivity.
Qed.

Lemma combination_text : forall c e ts l line text,
  Forall particle_key (c_particles c) -> Forall compound_key (c_compounds c) -> e_g e = x4grammars c ->
  cexpr (written (c_particles c) (c_compounds c)) ts l -> in_field (tx "(" :: ts ++ [tx ")"]) line text ->
  (forall q, In (PGroup q) l -> exists r, good_reaction (c_particles c) r /\ balances r /\ q = reaction_tree r) ->
  exists data, reaction_of_text e text = Ok (MComb (EOp (tx "(") :: data ++ [EOp (tx ")")]), PTok line) /\
    Forall2 telling l data.
Proof.
  intros c e ts l line text KP KC EG C F B. unfold reaction_of_text. rewrite EG.
  rewrite (field_read c _ _ line text KP KC (cf_paren _ _ _ C) F). cbn [of_option bind].
  destruct (last_of_snoc _ (PTok (tx "(") :: l ++ [PTok (tx ")")]) (PTok line)) as [-> ->].
  assert (K : Forall (known (c_particles c)) l).
  { apply Forall_forall. intros p I q ->. now apply B. }
  destruct (combination_told c (e_compounds e) (e_depth e) _ l (pieces_symbols _ _ _ C) K) as (data & E & F2).
  exists data. split; [|exact F2].
  unfold getMeasurementType.
  assert (M : existsb (fun i => existsb (is_tok i) (PTok (tx "(") :: l ++ [PTok (tx ")")])) math_symbols = true) by reflexivity.
  rewrite M. unfold X4ReactionCombination in *. cbn [map_res].
  assert (A : forall l m, map_res (getStrOrX4Reaction (e_depth e) (x4grammars c) (e_compounds e)) l = Ok m ->
     map_res (getStrOrX4Reaction (e_depth e) (x4grammars c) (e_compounds e)) (l ++ [PTok (tx ")")]) = Ok (m ++ [EOp (tx ")")])).
  { clear. induction l as [|y l IH]; intros m M.
    - cbn in M. injection M as <-. reflexivity.
    - cbn [map_res] in M. apply bind_ok in M. destruct M as (y' & Y & M). apply bind_ok in M. destruct M as (m' & M' & M).
      injection M as <-. cbn [app map_res]. rewrite Y. cbn [bind]. rewrite (IH _ M'). reflexivity. }
  rewrite (A _ _ E). reflexivity.
Qed.
