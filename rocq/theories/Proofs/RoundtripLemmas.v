(** Printed reactions read back. *)
From Coq Require Import String List Ascii NArith ZArith Bool Arith Lia.
From Verif.Model Require Import Py Dicts Particle Reaction Field Pyparsing Grammars.
From Verif.Spec Require Import Text Codes Nuclear Balance.
From Verif.Proofs Require Import StrLemmas NumLemmas IntLemmas DictLemmas ReactionLemmas GrammarFields BalanceLemmas.
Import ListNotations.
Local Open Scope string_scope.
Local Open Scope list_scope.
Local Open Scope nat_scope.

Definition up_nuclide (n : nuclide) : nuclide := mkNuclide (n_Z n) (upper (n_sym n)) (n_A n) (n_iso n).
Definition up (x : pcode) : pcode := match x with CNuclide n => CNuclide (up_nuclide n) | _ => x end.

Lemma letter_facts : forall d, letter d ->
  letter (upper_c d) /\ capital (upper_c d) /\ lower_c (upper_c d) = lower_c d.
Proof.
  intros d D. pose proof (forall_ascii (fun d => implb (((65 <=? N_of_ascii d) && (N_of_ascii d <=? 90) || (97 <=? N_of_ascii d) && (N_of_ascii d <=? 122))%N)
     (((65 <=? N_of_ascii (upper_c d)) && (N_of_ascii (upper_c d) <=? 90))%N && Ascii.eqb (lower_c (upper_c d)) (lower_c d)))) as F.
  specialize (F ltac:(vm_compute; reflexivity) d). cbv beta in F.
  assert (B : (((65 <=? N_of_ascii d) && (N_of_ascii d <=? 90) || (97 <=? N_of_ascii d) && (N_of_ascii d <=? 122))%N) = true).
  { destruct D as [[A B]|[A B]]; apply orb_true_iff; [left|right]; apply andb_true_iff; split; now apply N.leb_le. }
  rewrite B in F. cbn [implb] in F. apply andb_true_iff in F. destruct F as [F1 F2].
  rewrite andb_true_iff, !N.leb_le in F1. apply Ascii.eqb_eq in F2. unfold letter, capital. auto.
Qed.
Lemma up_good : forall n, good_nuclide n -> good_nuclide (up_nuclide n).
Proof.
  intros n (A & B & C & c & t & E & D & T). split; [exact A|]. split; [exact B|]. split; [exact C|].
  exists (upper_c c), (upper t). cbn [up_nuclide n_sym]. rewrite E. split; [reflexivity|].
  split; [apply (letter_facts c); now left|]. destruct T as [->|(d & -> & L)]; [now left|right].
  exists (upper_c d). split; [reflexivity|]. now apply (letter_facts d).
Qed.
Lemma up_product : forall keys x, good_product keys x -> good_product keys (up x).
Proof. intros keys [n|w|c w] G; cbn [up]; auto. now apply up_good. Qed.
Lemma capitalize_upper : forall s, Forall letter s -> capitalize (upper s) = capitalize s.
Proof.
  intros [|d s] L; [reflexivity|]. inversion L as [|? ? D L']; subst. unfold capitalize, upper, lower. cbn [map].
  rewrite upper_idem_c by auto. f_equal. rewrite map_map. apply map_ext_in. intros x I. rewrite Forall_forall in L'.
  apply (letter_facts x). auto.
Qed.

(** Reading the upper-case code gives the same object. *)
Lemma up_nuclide_read : forall g ign n z a, good_nuclide n -> nuclide_is n z a ->
  setParticleType g ign (nuclide_tree (up_nuclide n)) = setParticleType g ign (nuclide_tree n).
Proof.
  intros g ign n z a G (I & _). unfold nuclide_tree. cbn [up_nuclide n_iso n_Z n_A n_sym]. rewrite I.
  cbn [flat_map app map setParticleType tok bind].
  destruct (str_isdigit (n_A n)); [|reflexivity].
  destruct (str_eqb (n_A n) (lit "0")).
  - unfold X4Element, nucleus_parts. cbn [bind idx nth_error of_option tok]. now rewrite capitalize_upper by now apply symbol_letters.
  - unfold X4Nucleus, nucleus_parts. cbn [bind idx nth_error of_option tok]. now rewrite capitalize_upper by now apply symbol_letters.
Qed.
Lemma up_read : forall g ign x z a, (forall n, x = CNuclide n -> good_nuclide n) -> weighs x z a ->
  setParticleType g ign (code_tree (up x)) = setParticleType g ign (code_tree x) /\
  setProduct g ign (code_tree (up x)) = setProduct g ign (code_tree x).
Proof.
  intros g ign x z a G W. destruct W as [w z a H|count k w z a K H|n z a H]; cbn [up]; auto.
  specialize (G n eq_refl). split; [exact (up_nuclide_read g ign n z a G H)|].
  cbn [code_tree]. unfold setProduct, nuclide_tree. exact (up_nuclide_read g ign n z a G H).
Qed.

(** The tokens of the upper-case code are the upper-case tokens. *)
Lemma up_tokens : forall x z a, weighs x z a -> upper (concat (code_tokens x)) = concat (code_tokens (up x)).
Proof.
  intros x z a W. destruct W as [w z a H|count k w z a K H|n z a (I & NZ & NA & _)].
  - light_cases H; reflexivity.
  - cbn [up code_tokens concat]. rewrite app_nil_r, upper_app. destruct K as [K _]. rewrite (upper_number_is _ _ K). f_equal.
    light_cases H; reflexivity.
  - cbn [up code_tokens]. unfold nuclide_tokens. cbn [up_nuclide n_iso n_Z n_A n_sym]. rewrite I. cbn [flat_map app concat].
    rewrite app_nil_r, !upper_app, (upper_number_is _ _ NZ), (upper_number_is _ _ NA). reflexivity.
Qed.
(** Characters of codes. *)
Definition code_char (c : ascii) : Prop := letter c \/ digit c \/ In c (tx "-").
Lemma digit_is : forall s n, number_is s n -> Forall digit s.
Proof.
  intros s n (ds & -> & D & _). unfold digits_text. apply Forall_forall. intros c I. apply in_map_iff in I.
  destruct I as (d & <- & I). unfold is_digits in D. rewrite Forall_forall in D. specialize (D d I).
  unfold digit, digit_char. rewrite N_ascii_embedding by lia. lia.
Qed.
Lemma code_chars : forall x z a, (forall n, x = CNuclide n -> good_nuclide n) -> weighs x z a ->
  Forall code_char (concat (code_tokens x)).
Proof.
  assert (DG : forall s n, number_is s n -> Forall code_char s).
  { intros s n H. eapply Forall_impl; [|exact (digit_is _ _ H)]. intros c D. right. now left. }
  assert (LG : forall w z a, In (w, (z, a)) light -> Forall code_char (tx w)).
  { intros w z a H. light_cases H; repeat apply Forall_cons; try apply Forall_nil.
    all: first [left; left; vm_compute; split; discriminate | right; left; vm_compute; split; discriminate]. }
  assert (DA : Forall code_char (tx "-")) by (constructor; [right; right; now left|constructor]).
  intros x z a G W. destruct W as [w z a H|count k w z a [K _] H|n z a (I & NZ & NA & _)].
  - cbn [code_tokens concat]. rewrite app_nil_r. eauto.
  - cbn [code_tokens concat]. rewrite app_nil_r. apply Forall_app. split; eauto.
  - cbn [code_tokens]. unfold nuclide_tokens. rewrite I. cbn [flat_map app concat]. rewrite app_nil_r.
    assert (S : Forall code_char (n_sym n)).
    { eapply Forall_impl; [|exact (symbol_letters n (G n eq_refl))]. intros c L. now left. }
    rewrite !Forall_app. eauto 10.
Qed.

Lemma upper_quote : forall d, upper_c d = "'"%char -> d = "'"%char.
Proof.
  intros d E. pose proof (forall_ascii (fun d => implb (Ascii.eqb (upper_c d) "'"%char) (Ascii.eqb d "'"%char))) as F.
  specialize (F ltac:(vm_compute; reflexivity) d). cbv beta in F. rewrite E in F. cbn [implb Ascii.eqb] in F.
  apply Ascii.eqb_eq. exact F.
Qed.
Lemma no_quote_upper : forall t, ~ In "'"%char (upper t) -> ~ In "'"%char t.
Proof. intros t H I. apply H. unfold upper. apply in_map_iff. exists "'"%char. auto. Qed.
Lemma code_char_not : forall c s, Forall code_char s -> ~ letter c -> ~ digit c -> c <> "-"%char -> ~ In c s.
Proof.
  intros c s F L D N I. rewrite Forall_forall in F. specialize (F c I). destruct F as [F|[F|[F|[]]]]; auto.
Qed.
Lemma quote_not : forall s, Forall code_char s -> ~ In "'"%char s.
Proof.
  intros s F. apply (code_char_not _ _ F); try discriminate.
  - intros [[A B]|[A B]]; vm_compute in A; now apply A.
  - intros [A B]; vm_compute in A; now apply A.
Qed.
Lemma tab_not : forall s, Forall code_char s -> ~ In (ascii_of_N 9) s.
Proof.
  intros s F. apply (code_char_not _ _ F); try discriminate.
  - intros [[A B]|[A B]]; vm_compute in A; now apply A.
  - intros [A B]; vm_compute in A; now apply A.
Qed.
Lemma up_weighs : forall x z a, weighs x z a -> weighs (up x) z a.
Proof.
  intros x z a W. destruct W as [w z a H|count k w z a K H|n z a (I & NZ & NA & P)]; cbn [up]; now constructor.
Qed.
Lemma up_nuclides : forall x, (forall n, x = CNuclide n -> good_nuclide n) -> forall n, up x = CNuclide n -> good_nuclide n.
Proof. intros [m|w|c w] G n E; cbn [up] in E; try discriminate. injection E as <-. apply up_good. now apply G. Qed.

Definition prints (p : particle) (s : str) : Prop := exists t, exfor p = Ok t /\ upper t = s /\ ~ In "'"%char t.
Lemma object_prints : forall x z a p, (forall n, x = CNuclide n -> good_nuclide n) -> weighs x z a -> object_of x z a p ->
  ~ neutron x -> prints p (concat (code_tokens (up x))).
Proof.
  intros x z a p G W (_ & _ & O) N. destruct (O N) as (t & E & U). exists t. split; [exact E|].
  rewrite (up_tokens x z a W) in U. split; [exact U|]. apply no_quote_upper. rewrite U. apply quote_not.
  apply (code_chars (up x) z a); [now apply up_nuclides|now apply up_weighs].
Qed.

Lemma objects_print : forall keys l ps, objects_of l ps -> Forall (good_product keys) l -> Forall (fun x => ~ neutron x) l ->
  exists ts, map_res part_repr (map RPart ps) = Ok ts /\
    upper (join (lit "+") ts) = concat (separated (tx "+") (map code_tokens (map up l))) /\
    ~ In "'"%char (join (lit "+") ts).
Proof.
  intros keys l ps O. induction O as [|x p l ps z a W O Os IH]; intros G N.
  - exists []. repeat split; auto.
  - inversion G as [|? ? G1 G2]; inversion N as [|? ? N1 N2]; subst.
    destruct (IH G2 N2) as (ts & E & U & Q).
    assert (GN : forall n, x = CNuclide n -> good_nuclide n) by (intros n ->; exact G1).
    destruct (object_prints x z a p GN W O N1) as (t & Et & Ut & Qt).
    exists (t :: ts). split; [cbn [map map_res part_repr]; rewrite Et; cbn [bind]; rewrite E; reflexivity|].
    inversion Os as [|x' p' l' ps' z' a' W' O' Os']; subst.
    + cbn in E. injection E as <-. cbn [join map separated]. auto.
    + destruct ts as [|t2 ts].
      { exfalso. cbn [map map_res] in E. apply bind_ok in E. destruct E as (? & _ & E). apply bind_ok in E.
        destruct E as (? & _ & E). discriminate. }
      change (join (lit "+") (t :: t2 :: ts)) with (t ++ lit "+" ++ join (lit "+") (t2 :: ts)).
      rewrite !upper_app, U, Ut. cbn [map separated]. rewrite concat_app. split; [reflexivity|].
      rewrite !in_app_iff. intros [H|[[H|[]]|H]]; auto. discriminate.
Qed.

(** The code a reaction object prints as. *)
Definition reprint (r : rcode) (nR : nuclide) : rcode :=
  mkRcode (up_nuclide (rc_target r)) (up (rc_projectile r)) (map up (rc_products r)) (Some nR)
    (match quantities r with [] => [None] | q => map Some q end).

Lemma reprint_quantities : forall r nR, quantities (reprint r nR) = quantities r.
Proof.
  intros r nR. unfold quantities at 1. cbn [reprint rc_quantities]. destruct (quantities r) as [|q l]; [reflexivity|].
  induction (q :: l) as [|x m IH]; [reflexivity|]. cbn [map flat_map app]. now rewrite IH.
Qed.
Lemma quantity_text : forall q l,
  concat (flat_map quantity_tokens (map Some (q :: l))) = tx "," ++ join (lit ",") (q :: l).
Proof.
  intros q l. revert q. induction l as [|x l IH]; intros q.
  - cbn [map flat_map quantity_tokens app concat join]. now rewrite app_nil_r.
  - change (join (lit ",") (q :: x :: l)) with (q ++ lit "," ++ join (lit ",") (x :: l)).
    change (flat_map quantity_tokens (map Some (q :: x :: l))) with ([tx ","; q] ++ flat_map quantity_tokens (map Some (x :: l))).
    rewrite concat_app, IH. cbn [concat]. now rewrite app_nil_r, <- app_assoc.
Qed.
Lemma reprint_qtext : forall r nR,
  concat (flat_map quantity_tokens (rc_quantities (reprint r nR))) = tx "," ++ join (lit ",") (quantities r).
Proof. intros r nR. cbn [reprint rc_quantities]. destruct (quantities r) as [|q l]; [reflexivity|]. apply quantity_text. Qed.

Lemma reprint_good : forall keys r nR, good_reaction keys r -> good_nuclide nR -> good_reaction keys (reprint r nR).
Proof.
  intros keys r nR (GT & GJ & (NE & GP & GE) & GR & GQ) GN. split; [now apply up_good|]. split.
  { cbn [reprint rc_projectile]. destruct (rc_projectile r); cbn [up good_projectile] in *; auto. now apply up_good. }
  split.
  { cbn [reprint rc_products]. split; [destruct (rc_products r); [contradiction|discriminate]|]. split.
    - apply Forall_forall. intros x I. apply in_map_iff in I. destruct I as (y & <- & I). apply up_product.
      rewrite Forall_forall in GP. auto.
    - intros a x b E NB n ->. apply map_eq_app in E. destruct E as (l1 & l2 & E1 & E2 & E3).
      apply map_eq_cons in E3. destruct E3 as (y & l3 & E3 & E4 & E5). subst l2.
      assert (NB' : l3 <> []) by (intros ->; now subst b).
      destruct y as [m|w|c w]; try discriminate. exact (GE l1 (CNuclide m) l3 E1 NB' m eq_refl). }
  split.
  { intros n E. injection E as <-. exact GN. }
  intros w I. apply GQ. cbn [reprint rc_quantities] in I.
  assert (IQ : In w (quantities r)).
  { destruct (quantities r) as [|q l]; [destruct I as [I|[]]; discriminate|].
    apply in_map_iff in I. destruct I as (x & E & I). injection E as ->. exact I. }
  unfold quantities in IQ. apply in_flat_map in IQ. destruct IQ as ([x|] & I1 & I2); [|destruct I2].
  destruct I2 as [<-|[]]. exact I1.
Qed.

Lemma map_res_ext : forall (A B : Type) (f : A -> res B) l l', Forall2 (fun x y => f x = f y) l l' ->
  map_res f l = map_res f l'.
Proof. intros A B f l l' F. induction F as [|x y l l' E F IH]; [reflexivity|]. cbn [map_res]. now rewrite E, IH. Qed.
Lemma map_res_snoc : forall (A B : Type) (f : A -> res B) l m x y, map_res f l = Ok m -> f x = Ok y ->
  map_res f (l ++ [x]) = Ok (m ++ [y]).
Proof.
  intros A B f l. induction l as [|z l IH]; intros m x y M X.
  - cbn in M. injection M as <-. cbn [app map_res]. rewrite X. reflexivity.
  - cbn [map_res] in M. apply bind_ok in M. destruct M as (z' & Z & M). apply bind_ok in M. destruct M as (m' & M' & M).
    injection M as <-. cbn [app map_res]. rewrite Z. cbn [bind]. rewrite (IH _ _ _ M' X). reflexivity.
Qed.
Lemma up_products_read : forall g ign keys l zs sa, Forall (good_product keys) l -> weigh_all l zs sa ->
  map_res (setProduct g ign) (map code_tree (map up l)) = map_res (setProduct g ign) (map code_tree l).
Proof.
  intros g ign keys l zs sa G W. apply map_res_ext. induction W as [|x l z a zs sa Wx Wl IH]; [constructor|].
  inversion G as [|? ? Gx Gl]; subst. cbn [map]. constructor; [|now apply IH].
  apply (up_read g ign x z a); auto. intros n ->. exact Gx.
Qed.

Lemma reprint_reads : forall c compounds ign keys r rx R nR z a, good_reaction keys r -> leaves r z a ->
  tells r rx R -> built (x4grammars c) compounds ign r rx R ->
  setParticleType (x4grammars c) ign (nuclide_tree nR) = Ok (RPart R) ->
  X4Reaction (x4grammars c) compounds ign (PGroup (reaction_tree (reprint r nR))) = Ok rx.
Proof.
  intros c compounds ign keys r rx R nR z a (GT & GJ & (_ & GP & _) & _) (tz & ta & pz & pa & zs & sa & WT & WJ & WP & _) TL [BT BJ BP BY BR BA _] SR.
  unfold X4Reaction, reaction_tree. cbn [bind idx nth_error of_option]. unfold process_of_results, process_tree.
  cbn [bind idx nth_error of_option reprint rc_target rc_projectile rc_products rc_residual skipn].
  rewrite (up_nuclide_read _ _ _ _ _ GT WT), BT. cbn [bind].
  assert (GJ' : forall n, rc_projectile r = CNuclide n -> good_nuclide n) by (intros n E; now rewrite E in GJ).
  rewrite (proj1 (up_read _ _ _ _ _ GJ' WJ)), BJ. cbn [bind].
  rewrite (map_res_snoc _ _ (setProduct (x4grammars c) ign) _ (p_products (r_process rx)) _ (RPart R)).
  2:{ rewrite (up_products_read _ _ keys _ zs sa GP WP). exact BP. }
  2:{ exact SR. }
  cbn [bind]. rewrite BA. cbn [bind]. rewrite BY. cbn [bind].
  fold (reprint r nR). change (quantities _) with (quantities (reprint r nR)). rewrite reprint_quantities.
  rewrite <- BR, <- (tells_quantities r rx R TL). destruct rx as [[? ? ? ? ?] ?]. reflexivity.
Qed.

Lemma reprint_text : forall keys r rx R nR, good_reaction keys r -> tells r rx R ->
  ~ neutron (CNuclide (rc_target r)) -> ~ neutron (rc_projectile r) -> Forall (fun x => ~ neutron x) (rc_products r) ->
  prints R (concat (nuclide_tokens nR)) -> reaction_repr rx = Ok (concat (reaction_tokens (reprint r nR))).
Proof.
  intros keys r rx R nR (GT & GJ & (_ & GP & _) & _) TL NT NJ NP (tr & ER & UR & QR).
  assert (GJ' : forall n, rc_projectile r = CNuclide n -> good_nuclide n) by (intros n E; now rewrite E in GJ).
  assert (GT' : forall n, CNuclide (rc_target r) = CNuclide n -> good_nuclide n) by (intros n E; injection E as <-; exact GT).
  destruct TL as [(T & tz & ta & PT & WT & OT) (J & jz & ja & PJ & WJ & OJ) (ps & PP & OP) PR PQ].
  destruct (object_prints _ _ _ _ GT' WT OT NT) as (tt & ET & UT & QT).
  destruct (object_prints _ _ _ _ GJ' WJ OJ NJ) as (tj & EJ & UJ & QJ).
  destruct (objects_print keys _ _ OP GP NP) as (ts & ES & US & QS).
  unfold reaction_repr, process_repr. rewrite PT, PJ, PP, PR. cbn [part_repr truthy]. rewrite ET, EJ. cbn [bind].
  rewrite ES. cbn [bind]. rewrite ER. cbn [bind].
  assert (JQ : join_toks (lit ",") (r_quant rx) = Ok (join (lit ",") (quantities r))).
  { rewrite PQ. unfold join_toks.
    assert (M : forall l, map_res (fun t => match t with PTok s => Ok s | PGroup _ => Raise TypeError end) (map PTok l) = Ok l).
    { induction l as [|x l IH]; [reflexivity|]. cbn [map map_res bind]. rewrite IH. reflexivity. }
    now rewrite M. }
  rewrite JQ. cbn [bind]. f_equal.
  rewrite replace_char_notin.
  2:{ rewrite !in_app_iff. intros [H|[[H|[]]|[H|[[H|[]]|[H|[[H|[]]|H]]]]]]; auto; discriminate. }
  rewrite !upper_app, UT, UJ, US, UR. unfold reaction_tokens, process_tokens. rewrite !concat_app, reprint_qtext.
  cbn [reprint rc_target rc_projectile rc_products rc_residual up code_tokens]. cbn [concat]. rewrite !app_nil_r.
  change (upper (lit "(")) with (tx "("). change (upper (lit ",")) with (tx ","). change (upper (lit ")")) with (tx ")").
  change (lit "(") with (tx "("). change (lit ",") with (tx ","). change (lit ")") with (tx ")").
  now rewrite <- !app_assoc.
Qed.

Lemma number_z_to_str : forall z, (0 <= z)%Z -> number_is (z_to_str z) z.
Proof.
  intros z H. destruct (n_to_str_spec (Z.to_N z)) as (ds & E & D & NE & V). exists ds. split.
  - rewrite <- E. destruct z; [reflexivity|reflexivity|lia].
  - repeat split; auto. rewrite V. lia.
Qed.
Definition lettb (c : ascii) : bool :=
  ((65 <=? N_of_ascii c) && (N_of_ascii c <=? 90) || (97 <=? N_of_ascii c) && (N_of_ascii c <=? 122))%N.
Definition symbolb (z : Z) : bool :=
  match endl_ZSymbol z with
  | Some [c] => lettb c
  | Some [c; d] => lettb c && lettb d && negb (str_eqb (upper [c; d]) (lit "NN"))
  | _ => false
  end.
Lemma lettb_letter : forall c, lettb c = true -> letter c.
Proof.
  intros c H. unfold lettb in H. apply orb_true_iff in H. unfold letter, capital.
  rewrite !andb_true_iff, !N.leb_le in H. tauto.
Qed.
Lemma symbols : forall z sym, (0 <= z < 113)%Z -> endl_ZSymbol z = Some sym ->
  Forall letter sym /\ (exists c t, upper sym = c :: t /\ capital c /\ (t = [] \/ exists d, t = [d] /\ letter d)) /\
  str_eqb (capitalize sym) (lit "Nn") = false.
Proof.
  intros z sym RG E.
  assert (F : forallb (fun n => symbolb (Z.of_nat n)) (seq 0 113) = true) by (vm_compute; reflexivity).
  rewrite forallb_forall in F. specialize (F (Z.to_nat z)). rewrite in_seq, Z2Nat.id in F by lia.
  assert (B : symbolb z = true) by (apply F; lia). clear F. unfold symbolb in B. rewrite E in B.
  destruct sym as [|x [|y [|]]]; try discriminate.
  - apply lettb_letter in B. split; [auto|]. split; [|].
    + exists (upper_c x), []. split; [reflexivity|]. split; [now apply letter_facts|now left].
    + destruct (str_eqb (capitalize [x]) (lit "Nn")) eqn:Q; [|reflexivity]. apply str_eqb_eq in Q. discriminate.
  - rewrite !andb_true_iff in B. destruct B as [[B1 B2] B3]. apply lettb_letter in B1, B2. split; [auto|]. split.
    + exists (upper_c x), [upper_c y]. split; [reflexivity|]. split; [now apply letter_facts|]. right.
      exists (upper_c y). split; [reflexivity|]. now apply letter_facts.
    + destruct (str_eqb (capitalize [x; y]) (lit "Nn")) eqn:Q; [|reflexivity]. exfalso. apply str_eqb_eq in Q.
      assert (U : upper (capitalize [x; y]) = upper [x; y]) by (apply upper_capitalize; auto). rewrite Q in U.
      rewrite <- U in B3. discriminate.
Qed.

(** The residual, written or computed, as a nuclide code. *)
Lemma residual_nuclide : forall c compounds ign keys r rx R z a,
  good_reaction keys r -> (0 < a)%Z -> built (x4grammars c) compounds ign r rx R ->
  match rc_residual r with
  | Some n => nuclide_is n z a /\ ~ neutron (CNuclide n) /\ object_of (CNuclide n) z a R
  | None => (0 <= z < 113)%Z /\ exists sym, endl_ZSymbol z = Some sym /\ R = PNucleus (z_to_str z) (capitalize sym) (z_to_str a)
  end ->
  exists nR, good_nuclide nR /\ nuclide_is nR z a /\
    setParticleType (x4grammars c) ign (nuclide_tree nR) = Ok (RPart R) /\ prints R (concat (nuclide_tokens nR)).
Proof.
  intros c compounds ign keys r rx R z a G PA B H. destruct (rc_residual r) as [n|] eqn:ER.
  - destruct H as (W & NN & O). destruct G as (_ & _ & _ & GR & _). specialize (GR n ER).
    exists (up_nuclide n). split; [now apply up_good|]. split; [exact W|]. split.
    + rewrite (up_nuclide_read _ _ _ _ _ GR W). destruct (nuclide_one c ign n z a GR W) as (p & -> & E & _).
      now rewrite (b_written _ _ _ _ _ _ B n ER).
    + apply (object_prints (CNuclide n) z a R); auto; [|now constructor]. intros m E. injection E as <-. exact GR.
  - destruct H as (RG & sym & SY & ->). destruct (symbols z sym RG SY) as (L & CAP & NN).
    exists (mkNuclide (z_to_str z) (upper sym) (z_to_str a) []).
    assert (NZ := number_z_to_str z ltac:(lia)). assert (NA := number_z_to_str a ltac:(lia)).
    assert (GN : good_nuclide (mkNuclide (z_to_str z) (upper sym) (z_to_str a) [])).
    { split; [split; [|exact (digit_is _ _ NZ)]|split; [split; [|exact (digit_is _ _ NA)]|split; [constructor|exact CAP]]].
      - cbn [n_Z]. destruct NZ as (ds & -> & _ & NE & _). destruct ds; [contradiction|discriminate].
      - cbn [n_A]. destruct NA as (ds & -> & _ & NE & _). destruct ds; [contradiction|discriminate]. }
    assert (W : nuclide_is (mkNuclide (z_to_str z) (upper sym) (z_to_str a) []) z a) by (repeat split; auto).
    split; [exact GN|]. split; [exact W|]. split.
    + destruct (nuclide_one c ign _ z a GN W) as (p & -> & E & _). rewrite E. cbn [n_Z n_sym n_A].
      now rewrite capitalize_upper.
    + exists (nucleus_exfor (z_to_str z) (capitalize sym) (z_to_str a)). split; [reflexivity|].
      unfold nucleus_exfor. rewrite NN. cbn [nuclide_tokens n_Z n_sym n_A n_iso flat_map app concat].
      rewrite app_nil_r. assert (U : upper (upper (capitalize sym)) = upper sym).
      { rewrite (upper_capitalize sym L). now apply upper_idem. }
      split.
      * rewrite !upper_app, U, (upper_number_is _ _ NZ), (upper_number_is _ _ NA). reflexivity.
      * apply no_quote_upper. rewrite !upper_app, U, (upper_number_is _ _ NZ), (upper_number_is _ _ NA).
        apply quote_not. rewrite !Forall_app.
        assert (DC : forall s n, number_is s n -> Forall code_char s).
        { intros s m M. eapply Forall_impl; [|exact (digit_is _ _ M)]. intros d D. right. now left. }
        assert (DD : Forall code_char (upper (lit "-"))) by (constructor; [right; right; now left|constructor]).
        repeat split; eauto. apply Forall_forall. intros d I. apply in_map_iff in I. destruct I as (x & <- & I).
        left. rewrite Forall_forall in L. apply letter_facts. auto.
Qed.

(** ** The text as a field *)
Lemma spaced_concat : forall ts, spaced ts (concat ts).
Proof. induction ts as [|t ts IH]; [constructor|]. cbn [concat]. apply (spaced_cons [] t ts _ (Forall_nil _) IH). Qed.

Lemma separated_in : forall sep ls (P : ascii -> Prop), Forall P sep -> Forall (fun l => Forall P (concat l)) ls ->
  Forall P (concat (separated sep ls)).
Proof.
  intros sep ls P S F. induction F as [|x l X F IH]; [constructor|]. destruct l as [|y l]; [exact X|].
  change (separated sep (x :: y :: l)) with (x ++ sep :: separated sep (y :: l)).
  rewrite concat_app. cbn [concat]. rewrite !Forall_app. auto.
Qed.
Lemma weigh_all_in : forall l zs sa x, weigh_all l zs sa -> In x l -> exists z a, weighs x z a.
Proof. intros l zs sa x W I. induction W as [|y l z a zs sa Wy Wl IH]; [destruct I|]. destruct I as [->|I]; eauto. Qed.
Lemma digit_not_tab : forall d, digit d -> d <> ascii_of_N 9.
Proof. intros d [A B] ->. vm_compute in A. now apply A. Qed.
Lemma letter_not_tab : forall d, letter d -> d <> ascii_of_N 9.
Proof. intros d [[A B]|[A B]] ->; vm_compute in A; now apply A. Qed.
Lemma reaction_no_tab : forall keys r z a nR, good_reaction keys r -> leaves r z a -> nuclide_is nR z a -> good_nuclide nR ->
  ~ In (ascii_of_N 9) (concat (reaction_tokens (reprint r nR))).
Proof.
  intros keys r z a nR G (tz & ta & pz & pa & zs & sa & WT & WJ & WP & _) WR GN.
  pose proof G as (GT & GJ & (_ & GP & _) & _ & GQ).
  set (P := fun d => d <> ascii_of_N 9).
  assert (CP : forall s, Forall code_char s -> Forall P s).
  { intros s F. eapply Forall_impl; [|exact F]. intros d [D|[D|[D|[]]]]; [now apply letter_not_tab|now apply digit_not_tab|subst d; discriminate]. }
  assert (GJ' : forall n, rc_projectile r = CNuclide n -> good_nuclide n) by (intros n E; now rewrite E in GJ).
  assert (F : Forall P (concat (reaction_tokens (reprint r nR)))).
  { unfold reaction_tokens, process_tokens. rewrite !concat_app, reprint_qtext.
    cbn [reprint rc_target rc_projectile rc_products rc_residual]. rewrite !Forall_app.
    assert (ONE : forall s, (s = tx "(" \/ s = tx ")" \/ s = tx "," \/ s = tx "+") -> Forall P s).
    { intros s [->|[->|[->| ->]]]; (constructor; [discriminate|constructor]). }
    assert (ONE' : forall s, (s = tx "(" \/ s = tx ")" \/ s = tx "," \/ s = tx "+") -> Forall P (concat [s])).
    { intros s H. cbn [concat]. rewrite app_nil_r. auto. }
    repeat split; auto.
    - apply CP. apply (code_chars (CNuclide (up_nuclide (rc_target r))) tz ta).
      + intros n E. injection E as <-. now apply up_good.
      + apply (up_weighs (CNuclide (rc_target r))). now constructor.
    - apply CP. apply (code_chars (up (rc_projectile r)) pz pa); [now apply up_nuclides|now apply up_weighs].
    - apply separated_in; [auto|]. apply Forall_forall. intros l I. apply in_map_iff in I. destruct I as (x & <- & I).
      apply in_map_iff in I. destruct I as (y & <- & I). destruct (weigh_all_in _ _ _ _ WP I) as (yz & ya & WY).
      apply CP. apply (code_chars (up y) yz ya); [|now apply up_weighs]. apply up_nuclides. intros n ->.
      rewrite Forall_forall in GP. exact (GP _ I).
    - apply CP. apply (code_chars (CNuclide nR) z a); [|now constructor]. intros n E. injection E as <-. exact GN.
    - assert (QW : forall w, In w (quantities r) -> Forall P w).
      { intros w I. unfold quantities in I. apply in_flat_map in I. destruct I as ([x|] & I1 & I2); [|destruct I2].
        destruct I2 as [<-|[]]. destruct (GQ x I1) as (d & t & -> & D & T). constructor; [now apply letter_not_tab|].
        eapply Forall_impl; [|exact T]. intros e [E|[E|E]]; [now apply letter_not_tab|now apply digit_not_tab|].
        cbn [tx list_ascii_of_string In] in E. destruct E as [<-|[<-|[<-|[<-|[]]]]]; discriminate. }
      induction (quantities r) as [|x l IH]; [constructor|]. destruct l as [|y l]; [apply QW; now left|].
      change (join (lit ",") (x :: y :: l)) with (x ++ lit "," ++ join (lit ",") (y :: l)). rewrite !Forall_app.
      split; [apply QW; now left|]. split; [apply ONE; auto|]. apply IH. intros w I. apply QW. now right. }
  intros I. rewrite Forall_forall in F. now apply (F _ I).
Qed.

Lemma roundtrip : forall c e r line text z a,
  Forall particle_key (c_particles c) -> Forall compound_key (c_compounds c) -> e_g e = x4grammars c ->
  good_reaction (c_particles c) r -> in_field (reaction_tokens r) line text ->
  leaves r z a -> (0 < a)%Z ->
  match rc_residual r with Some n => nuclide_is n z a /\ ~ neutron (CNuclide n) | None => (0 <= z < 113)%Z end ->
  ~ neutron (CNuclide (rc_target r)) -> ~ neutron (rc_projectile r) -> Forall (fun x => ~ neutron x) (rc_products r) ->
  exists rx t, reaction_of_text e text = Ok (MRxn rx, PTok line) /\
    reaction_repr rx = Ok t /\ reaction_of_text e t = Ok (MRxn rx, PTok []).
Proof.
  intros c e r line text z a KP KC EG G F L PA RES NT NJ NP.
  destruct (leaves_reaction c (e_compounds e) false _ r z a G L) as (rx & R & X & TL & B & _ & _ & O).
  { destruct (rc_residual r); [apply RES|]. split; [lia|]. right. lia. }
  destruct (residual_nuclide c (e_compounds e) false _ r rx R z a G PA B) as (nR & GN & WN & SN & PN).
  { destruct (rc_residual r); [|auto]. destruct RES. auto. }
  exists rx, (concat (reaction_tokens (reprint r nR))). split; [eapply field_reaction; eauto|]. split.
  - eapply reprint_text; eauto.
  - eapply (field_reaction c e (reprint r nR) [] _ rx KP KC EG).
    + now apply reprint_good.
    + exists (concat (reaction_tokens (reprint r nR))), [], []. rewrite !app_nil_r. split; [reflexivity|].
      split; [apply spaced_concat|]. split; [constructor|]. split; [discriminate|]. split.
      { intros w d t _ E. destruct w; discriminate. }
      split; [split; [constructor|now left]|]. eapply reaction_no_tab; eauto.
    + eapply reprint_reads; eauto.
Qed.
