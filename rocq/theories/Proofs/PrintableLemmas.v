(** Measurements that have been read can be printed. *)
From Coq Require Import String List Ascii NArith ZArith Bool Arith Lia.
From Verif.Model Require Import Py Dicts Particle Pyparsing Grammars Reaction Field Section Entry Columns Dataset Repr Print.
From Verif.Spec Require Import Tables WellWritten Printable Merging.
From Verif.Proofs Require Import StrLemmas ReactionLemmas DictLemmas ShapeLemmas KnownLemmas BibLemmas EntryDataLemmas UnitsGiven.
Import ListNotations.
Local Open Scope string_scope.
Local Open Scope list_scope.
Local Open Scope nat_scope.

(** ** Compounds come from the dictionary *)
Section Reading.
Context (c : codes).
Let g := x4grammars c.

Definition keyed (p : product) : Prop := forall code s z, p = RPart (PCompound code s z) -> In code (c_compounds c).

Lemma keyed_str : forall s, keyed (RStr s).
Proof. intros s x y z H. discriminate H. Qed.
Lemma keyed_none : keyed RNone.
Proof. intros x y z H. discriminate H. Qed.
Lemma keyed_other : forall p, (forall x y z, p <> PCompound x y z) -> keyed (RPart p).
Proof. intros p N x y z H. exfalso. apply (N x y z). congruence. Qed.

Lemma particle_not : forall l p, particle_of_list l = Ok p -> forall x y z, p <> PCompound x y z.
Proof.
  intros l p H x y z ->. unfold particle_of_list in H. apply bind_ok in H. destruct H as ([num sym] & _ & H).
  apply bind_ok in H. destruct H as (s & _ & H). apply bind_ok in H. destruct H as (zz & _ & H). apply bind_ok in H. destruct H as (a & _ & H). discriminate H.
Qed.
Lemma X4Particle_not : forall g i p, X4Particle g i = Ok p -> forall x y z, p <> PCompound x y z.
Proof.
  intros g0 [s|l] p H; unfold X4Particle in H.
  - destruct (str_eqb s (lit "0")).
    + assert (p = PParticle (NInt 0) (lit "0") 0 0) by congruence. subst. discriminate.
    + apply bind_ok in H. destruct H as (l & _ & H). exact (particle_not _ _ H).
  - apply bind_ok in H. destruct H as (u & _ & H). apply bind_ok in H. destruct H as (ss & _ & H). exact (particle_not _ _ H).
Qed.
Lemma X4Nucleus_not : forall g i p, X4Nucleus g i = Ok p -> forall x y z, p <> PCompound x y z.
Proof. intros g0 i p H x y z ->. unfold X4Nucleus in H. apply bind_ok in H. destruct H as ([l [[zz s] a]] & _ & H). discriminate H. Qed.
Lemma X4Element_not : forall g i p, X4Element g i = Ok p -> forall x y z, p <> PCompound x y z.
Proof. intros g0 i p H x y z ->. unfold X4Element in H. apply bind_ok in H. destruct H as ([l [[zz s] a]] & _ & H). discriminate H. Qed.
Lemma X4Isomer_not : forall g b i p, X4Isomer g b i = Ok p -> forall x y z, p <> PCompound x y z.
Proof.
  intros g0 b i p H x y z ->. unfold X4Isomer in H. apply bind_ok in H. destruct H as ([l [[zz s] a]] & _ & H).
  apply bind_ok in H. destruct H as (ms & _ & H). apply bind_ok in H. destruct H as (is & _ & H). discriminate H.
Qed.
Lemma compound_keyed : forall s p, X4ChemicalCompound g (PTok s) = Ok p -> keyed (RPart p).
Proof.
  intros s p H. unfold X4ChemicalCompound in H. apply bind_ok in H. destruct H as (l & L & H).
  unfold of_option, g in L. cbn [g_chemical x4grammars] in L. destruct (parseString (x4chemical_compound c) s) as [l'|] eqn:P; [|discriminate].
  assert (l' = l) by congruence. subst l'.
  assert (Y : yields (x4chemical_compound c) (fun t => exists k, t = PTok k /\ In k (c_compounds c))) by (apply one_of_tok; eauto).
  apply (yields_parse _ _ _ _ Y) in P. apply bind_ok in H. destruct H as (x0 & X & H). apply bind_ok in H. destruct H as (code & T & H).
  apply bind_ok in H. destruct H as (sym & _ & H). apply bind_ok in H. destruct H as (z & _ & H). apply bind_ok in H. destruct H as (z' & _ & H).
  intros a b d E. assert (code = a) by congruence. subst a.
  destruct l as [|t l]; [discriminate X|]. assert (t = x0) by (cbv in X; congruence). subst t. inversion P as [|? ? (k & -> & I) _]; subst.
  cbn [tok] in T. assert (k = code) by congruence. now subst.
Qed.

Lemma type_keyed : forall b i p, level1 i -> setParticleType g b i = Ok p -> keyed p.
Proof.
  intros b i p L H. destruct i as [s|il]; unfold setParticleType in H.
  - destruct (smem s _); [assert (p = RPart (X4VariableParticle s)) by congruence; subst; apply keyed_other; discriminate|].
    apply bind_ok in H. destruct H as (q & Q & H). assert (p = RPart q) by congruence. subst. apply keyed_other. exact (X4Particle_not _ _ _ Q).
  - destruct L as [(s & L)|(l & L & F)]; [discriminate L|]. assert (l = il) by congruence. subst l. clear L.
    destruct il as [|t0 [|t1 [|t2 [|t3 il]]]].
    + apply bind_ok in H. destruct H as (q & Q & H). assert (p = RPart q) by congruence. subst. apply keyed_other. exact (X4Particle_not _ _ _ Q).
    + destruct (4 <? _).
      * apply bind_ok in H. destruct H as (q & Q & H). assert (p = RPart q) by congruence. subst.
        inversion F as [|? ? (s & ->) _]; subst. now apply (compound_keyed s).
      * apply bind_ok in H. destruct H as (q & Q & H). assert (p = RPart q) by congruence. subst. apply keyed_other. exact (X4Particle_not _ _ _ Q).
    + apply bind_ok in H. destruct H as (q & Q & H). assert (p = RPart q) by congruence. subst. apply keyed_other. exact (X4Particle_not _ _ _ Q).
    + apply bind_ok in H. destruct H as (s & _ & H). destruct (str_isdigit s); [|assert (p = RNone) by congruence; subst; apply keyed_none].
      destruct (str_eqb s (lit "0")); apply bind_ok in H; destruct H as (q & Q & H); assert (p = RPart q) by congruence; subst; apply keyed_other.
      * exact (X4Element_not _ _ _ Q).
      * exact (X4Nucleus_not _ _ _ Q).
    + apply bind_ok in H. destruct H as (q & Q & H). assert (p = RPart q) by congruence. subst. apply keyed_other. exact (X4Isomer_not _ _ _ _ Q).
Qed.
Lemma product_keyed : forall b i p, level1 i -> setProduct g b i = Ok p -> keyed p.
Proof.
  intros b [s|l] p L H; unfold setProduct in H.
  - destruct (dhas str_eqb s x4ReactionMap); [assert (p = RStr s) by congruence; subst; apply keyed_str|]. now apply (type_keyed b (PTok s)).
  - now apply (type_keyed b (PGroup l)).
Qed.
Lemma products_keyed : forall b l ps, Forall level1 l -> map_res (setProduct g b) l = Ok ps -> Forall keyed ps.
Proof.
  intros b l ps F. revert ps. induction F as [|t l L F IH]; intros ps H; cbn [map_res] in H.
  - assert (ps = []) by congruence. subst. constructor.
  - apply bind_ok in H. destruct H as (p & P & H). apply bind_ok in H. destruct H as (ps' & PS & H). assert (ps = p :: ps') by congruence. subst.
    constructor; [now apply (product_keyed b t)|now apply IH].
Qed.
Lemma computed_keyed : forall dz da p, computed_residual g dz da = Ok p -> keyed p.
Proof.
  intros dz da p H. unfold computed_residual in H. unfold X4Nucleus_of_parts in H. destruct (endl_ZSymbol dz) as [s|].
  - assert (p = RPart (PNucleus (z_to_str dz) (capitalize s) (z_to_str da))) by congruence. subst. apply keyed_other. discriminate.
  - destruct ((dz =? -1) && (da =? 0))%Z; [apply bind_ok in H; destruct H as (q & Q & H); assert (p = RPart q) by congruence; subst; apply keyed_other; exact (X4Particle_not _ _ _ Q)|].
    destruct ((dz =? 1) && (da =? 0))%Z; [apply bind_ok in H; destruct H as (q & Q & H); assert (p = RPart q) by congruence; subst; apply keyed_other; exact (X4Particle_not _ _ _ Q)|].
    destruct ((1000 <? Z.abs dz) || (1000 <? Z.abs da))%Z; [|discriminate]. assert (p = RNone) by congruence. subst. apply keyed_none.
Qed.
Lemma remove_first_in : forall r l p, In p (remove_first r l) -> In p l.
Proof. induction l as [|q l IH]; intros p I; cbn [remove_first] in I; [exact I|]. destruct (same_value r q); [now right|]. destruct I as [->|I]; [now left|right; now apply IH]. Qed.
Lemma last_of_in : forall (A : Type) (l : list A) x, last_of l = Ok x -> In x l.
Proof.
  intros A l x H. unfold last_of, of_option in H. destruct (nth_error l (length l - 1)) as [y|] eqn:N; [|discriminate].
  assert (y = x) by congruence. subst. eapply nth_error_In, N.
Qed.
Lemma firstn_in : forall (A : Type) n (l : list A) x, In x (firstn n l) -> In x l.
Proof. induction n as [|n IH]; intros [|y l] x I; cbn [firstn] in I; try contradiction. destruct I as [->|I]; [now left|right; now apply IH]. Qed.
Lemma but_last_in : forall (A : Type) (l : list A) x, In x (but_last l) -> In x l.
Proof. intros A l x I. unfold but_last in I. now apply firstn_in in I. Qed.
Lemma residual_keyed : forall targ proj ps ps' r, keyed targ -> Forall keyed ps -> setResidual g targ proj ps = Ok (ps', r) ->
  Forall keyed ps' /\ keyed r.
Proof.
  intros targ proj ps ps' r T F H. unfold setResidual in H. apply bind_ok in H. destruct H as (ta & _ & H).
  destruct (find _ leave_target) as [ch|].
  - assert (ps' = [RStr ch] /\ r = targ) as [-> ->] by (split; congruence). split; [constructor; [apply keyed_str|constructor]|exact T].
  - do 4 (apply bind_ok in H; destruct H as (? & _ & H)). apply bind_ok in H. destruct H as ([[zo ao] can] & _ & H).
    apply bind_ok in H. destruct H as ([qs q] & Q & H). assert (ps' = remove_first q qs /\ r = q) as [-> ->] by (split; congruence).
    assert (K : Forall keyed qs /\ keyed q).
    { match type of Q with context [if ?b then _ else _] => destruct b end.
      - apply bind_ok in Q. destruct Q as (x' & L & Q). assert (qs = but_last ps /\ q = x') as [-> ->] by (split; congruence).
        apply last_of_in in L. rewrite Forall_forall in F. split; [|now apply F].
        apply Forall_forall. intros y I. apply F. now apply but_last_in.
      - destruct can.
        + apply bind_ok in Q. destruct Q as (x' & L & Q). assert (qs = ps /\ q = x') as [-> ->] by (split; congruence).
          split; [exact F|]. eapply computed_keyed, L.
        + assert (qs = ps /\ q = RNone) as [-> ->] by (split; congruence). split; [exact F|apply keyed_none]. }
    destruct K as [K1 K2]. split; [|exact K2]. rewrite Forall_forall in *. intros y I. apply K1. now apply (remove_first_in q).
Qed.

(** What is known of every reaction that has been read. *)
Record kept (r : reaction) : Prop := {
  kept_targ : keyed (p_targ (r_process r));
  kept_proj : keyed (p_proj (r_process r));
  kept_products : Forall keyed (p_products (r_process r));
  kept_residual : keyed (p_residual (r_process r));
  kept_type : exists cs t, setProcessType cs (p_products (r_process r)) = Ok t }.

Lemma nth_level : forall (Q : ptree -> Prop) l i t, Forall Q l -> idx l i = Ok t -> Q t.
Proof.
  intros Q l i t F H. unfold idx, of_option in H. destruct (nth_error l i) as [x|] eqn:N; [|discriminate]. assert (x = t) by congruence. subst.
  rewrite Forall_forall in F. apply F. eapply nth_error_In, N.
Qed.
Lemma skipn_Forall : forall (A : Type) (P : A -> Prop) n l, Forall P l -> Forall P (skipn n l).
Proof. induction n as [|n IH]; intros l F; [exact F|]. destruct F; [constructor|]. now apply IH. Qed.
Lemma results_kept : forall cs b xl p q, Forall level1 xl -> process_of_results g cs b xl = Ok p -> kept (mkReaction p q).
Proof.
  intros cs b xl p q F H. unfold process_of_results in H.
  apply bind_ok in H. destruct H as (x0 & X0 & H). apply bind_ok in H. destruct H as (targ & T & H).
  apply bind_ok in H. destruct H as (x1 & X1 & H). apply bind_ok in H. destruct H as (proj & J & H).
  apply bind_ok in H. destruct H as (ps & PS & H). apply bind_ok in H. destruct H as ([ps' r] & R & H). apply bind_ok in H. destruct H as (t & TY & H).
  assert (p = mkProcess targ proj ps' r t) by congruence. subst p. clear H.
  pose proof (type_keyed _ _ _ (nth_level _ _ _ _ F X0) T) as KT. pose proof (type_keyed _ _ _ (nth_level _ _ _ _ F X1) J) as KJ.
  pose proof (products_keyed _ _ _ (skipn_Forall _ _ 2 _ F) PS) as KP. destruct (residual_keyed _ _ _ _ _ KT KP R) as [K1 K2].
  constructor; cbn [r_process p_targ p_proj p_products p_residual]; auto. eauto.
Qed.
Lemma parse_level2 : forall s l, reaction_parse g s = Ok l -> Forall level2 l.
Proof.
  intros s l H. unfold reaction_parse, g in H. cbn [g_reaction x4grammars] in H. destruct (parseString (x4reaction c) s) as [l'|] eqn:P.
  - assert (l' = l) by congruence. subst. exact (yields_parse _ _ _ _ (reaction_level c) P).
  - destruct (cmem _ s || cmem _ s); discriminate.
Qed.
Lemma reaction_kept : forall cs b x r, level3 x -> X4Reaction g cs b x = Ok r -> kept r.
Proof.
  intros cs b x r L H. unfold X4Reaction in H. apply bind_ok in H. destruct H as (l & E & H).
  assert (F : Forall level2 l).
  { destruct x as [s|l0]; [now apply (parse_level2 s)|]. destruct L as [(s & L)|(l1 & L & F)]; [discriminate L|].
    assert (l1 = l) by congruence. now subst. }
  clear E L. apply bind_ok in H. destruct H as (x0 & X0 & H). apply bind_ok in H. destruct H as (xl & XL & H). apply bind_ok in H. destruct H as (p & P & H).
  assert (r = mkReaction p (skipn 1 l)) by congruence. subst r. clear H.
  apply (nth_level _ _ _ _ F) in X0. destruct X0 as [(s & -> & N)|(l0 & -> & F0)].
  - exfalso. apply N. unfold reaction_parse, g in XL. cbn [g_reaction x4grammars] in XL.
    destruct (parseString (x4reaction c) s) as [l'|] eqn:Q; [exact (reaction_opens c s l' Q)|].
    destruct (cmem _ s || cmem _ s); discriminate.
  - assert (l0 = xl) by congruence. subst. exact (results_kept cs b xl p _ F0 P).
Qed.

(** ** Combinations *)
Lemma caught_ok : forall (A : Type) x (r : res A) h a, caught x r h = Ok a -> r = Ok a \/ h = Ok a.
Proof. intros A x [a0|y] h a H; cbn [caught] in H; [now left|]. destruct (exn_eqb x y); [now right|discriminate]. Qed.
Lemma compound_parse : forall s l, of_option ReactionParsingError (g_compound g s) = Ok l -> Forall level3 l.
Proof.
  intros s l H. unfold g in H. cbn [g_compound x4grammars] in H.
  match type of H with of_option _ ?o = _ => destruct o as [l'|] eqn:P end; [|discriminate]. assert (l' = l) by (cbn in H; congruence). subst.
  exact (yields_parse _ _ _ _ (expression_level c _) P).
Qed.
Lemma pieces_kept : forall (f : ptree -> res element) l d, Forall level3 l ->
  (forall i x, level3 i -> f i = Ok x -> Forall kept (element_reactions x)) -> map_res f l = Ok d -> Forall kept (getReactionList d).
Proof.
  intros f l d F A. revert d. induction F as [|i l L F IH]; intros d H; cbn [map_res] in H.
  - assert (d = []) by congruence. subst. constructor.
  - apply bind_ok in H. destruct H as (x & X & H). apply bind_ok in H. destruct H as (d' & D & H). assert (d = x :: d') by congruence. subst.
    unfold getReactionList. cbn [flat_map]. apply Forall_app. split; [now apply (A i)|now apply IH].
Qed.
Lemma piece_kept : forall cs (iso : list ptree -> res (list element)) i x, level3 i ->
  (forall l d, iso l = Ok d -> Forall kept (getReactionList d)) ->
  match i with
  | PTok t => if smem t math_symbols then Ok (EOp t)
              else caught IsomerMathParsingError (r <- X4Reaction g cs false i ;; Ok (ERxn r))
                     (l' <- of_option ReactionParsingError (g_compound g t) ;; d <- iso l' ;; Ok (EIso d))
  | PGroup l => caught IsomerMathParsingError (r <- X4Reaction g cs false i ;; Ok (ERxn r)) (d <- iso l ;; Ok (EIso d))
  end = Ok x -> Forall kept (element_reactions x).
Proof.
  intros cs iso i x L I H.
  assert (R : forall y, (r <- X4Reaction g cs false i ;; Ok (ERxn r)) = Ok y -> Forall kept (element_reactions y)).
  { intros y Y. apply bind_ok in Y. destruct Y as (r & Y & E). assert (y = ERxn r) by congruence. subst. constructor; [|constructor]. exact (reaction_kept _ _ _ _ L Y). }
  destruct i as [t|l].
  - destruct (smem t math_symbols); [assert (x = EOp t) by congruence; subst; constructor|]. apply caught_ok in H. destruct H as [H|H]; [now apply R|].
    apply bind_ok in H. destruct H as (l' & _ & H). apply bind_ok in H. destruct H as (d & D & H). assert (x = EIso d) by congruence. subst. exact (I _ _ D).
  - apply caught_ok in H. destruct H as [H|H]; [now apply R|]. apply bind_ok in H. destruct H as (d & D & H). assert (x = EIso d) by congruence. subst. exact (I _ _ D).
Qed.
Lemma iso_kept : forall depth cs x d, iso_data depth g cs x = Ok d -> Forall kept (getReactionList d).
Proof.
  induction depth as [|n IH]; intros cs x d H; cbn [iso_data] in H; [discriminate|].
  apply bind_ok in H. destruct H as (s & _ & H). apply bind_ok in H. destruct H as (l & L & H). apply compound_parse in L.
  eapply pieces_kept; [exact L| |exact H]. intros i y Li E. cbv beta in E. eapply (piece_kept cs (iso_data n g cs)); [exact Li|intros; eapply IH; eauto|exact E].
Qed.
Lemma measurement_kept : forall depth cs l m, Forall level3 l -> getMeasurementType depth g cs l = Ok m -> Forall kept (reactions_in m).
Proof.
  intros depth cs l m F H. unfold getMeasurementType in H. apply caught_ok in H. destruct H as [H|H].
  - match type of H with context [if ?b then _ else _] => destruct b end.
    + apply bind_ok in H. destruct H as (d & D & H). assert (m = MComb d) by congruence. subst. cbn [reactions_in]. unfold X4ReactionCombination in D.
      eapply pieces_kept; [exact F| |exact D]. intros i y Li E. unfold getStrOrX4Reaction in E.
      eapply (piece_kept cs (iso_data depth g cs)); [exact Li|intros; eapply iso_kept; eauto|exact E].
    + apply bind_ok in H. destruct H as (x0 & X0 & H). apply bind_ok in H. destruct H as (r & R & H). assert (m = MRxn r) by congruence. subst.
      constructor; [|constructor]. eapply reaction_kept; [exact (nth_level _ _ _ _ F X0)|exact R].
  - apply bind_ok in H. destruct H as (d & D & H). assert (m = MIso d) by congruence. subst. exact (iso_kept _ _ _ _ D).
Qed.
Lemma text_kept : forall e text m line, e_g e = g -> reaction_of_text e text = Ok (m, line) -> Forall kept (reactions_in m).
Proof.
  intros e text m line EG H. unfold reaction_of_text in H. apply bind_ok in H. destruct H as (f & E & H). apply bind_ok in H. destruct H as (m' & M & H).
  apply bind_ok in H. destruct H as (rest & _ & H). assert (m' = m) by congruence. subst m'.
  rewrite EG in *. unfold g in E. cbn [g_reactionfield x4grammars] in E.
  match type of E with of_option _ ?o = _ => destruct o as [l'|] eqn:P end; [|discriminate]. assert (l' = f) by (cbn in E; congruence). subst.
  pose proof (yields_parse _ _ _ _ (field_level c _) P) as L.
  eapply measurement_kept; [|exact M]. rewrite Forall_forall in *. intros t I. apply L. now apply but_last_in.
Qed.
End Reading.

(** ** Printing *)
Section Printing.
Context (c : codes) (e : env) (nm : names) (N : naming c e nm).

Lemma multiple_int : forall k s, exists t, particle_pretty (NInt k) s = Ok t.
Proof. intros k s. unfold particle_pretty. cbn [several bind]. eexists. reflexivity. Qed.
Lemma exfor_int : forall k s, exists t, particle_exfor (NInt k) s = Ok t.
Proof. intros k s. unfold particle_exfor. cbn [several bind]. eexists. reflexivity. Qed.
Lemma pretty_ok : forall p, keyed c (RPart p) -> counted (RPart p) -> exists t, pretty (nm_compounds nm) p = Ok t.
Proof.
  intros p K C. destruct p as [[k|] s z a|s|z s a|z s a|z s a iso|code s z]; cbn [pretty]; try (eexists; reflexivity); try apply multiple_int.
  - exfalso. now apply (C s z a).
  - destruct (naming_compounds _ _ _ N code (K _ _ _ eq_refl)) as (row & -> & R). cbn [of_option bind]. now apply idx_first.
Qed.
Lemma exfor_ok : forall p, counted (RPart p) -> exists t, exfor p = Ok t.
Proof.
  intros p C. destruct p as [[k|] s z a|s|z s a|z s a|z s a iso|code s z]; cbn [exfor]; try (eexists; reflexivity); try apply exfor_int.
  exfalso. now apply (C s z a).
Qed.
Lemma part_str_ok : forall p, keyed c p -> counted p -> exists t, part_str (nm_compounds nm) p = Ok t.
Proof. intros [s|p|] K C; cbn [part_str]; eauto. now apply pretty_ok. Qed.
Lemma part_repr_ok : forall p, counted p -> exists t, part_repr p = Ok t.
Proof. intros [s|p|] C; cbn [part_repr]; eauto. now apply exfor_ok. Qed.
Lemma map_res_total : forall (A B : Type) (f : A -> res B) l, Forall (fun x => exists y, f x = Ok y) l -> exists ys, map_res f l = Ok ys.
Proof.
  intros A B f l F. induction F as [|x l (y & Y) F (ys & IH)]; [now exists []|]. exists (y :: ys). cbn [map_res]. rewrite Y. cbn [bind]. now rewrite IH.
Qed.
Lemma products_counted : forall cs ps t, setProcessType cs ps = Ok t -> Forall counted ps.
Proof.
  intros cs ps t H. unfold setProcessType in H. apply bind_ok in H. destruct H as (l & L & _). apply ReactionLemmas.map_res_Forall2 in L.
  induction L as [|p s ps l P L IH]; constructor; [|exact IH]. intros sym z a ->. discriminate P.
Qed.
Lemma words_quant : forall r, proper r -> exists l, r_quant r = map PTok l.
Proof.
  intros r P. pose proof (proper_words _ P) as W. induction (r_quant r) as [|q l IH]; [now exists []|].
  destruct (W q (or_introl eq_refl)) as (w & ->). destruct IH as (l' & ->); [intros x I; apply W; now right|]. now exists (w :: l').
Qed.
Lemma reaction_str_ok : forall r, kept c r -> proper r -> exists t, reaction_str (nm_compounds nm) (nm_quantities nm) (nm_modifiers nm) r = Ok t.
Proof.
  intros r K P. unfold reaction_str. destruct (words_quant r P) as (l & Q).
  destruct (quantity_type _ _ r l (naming_quantities _ _ _ N) (naming_modifiers _ _ _ N) Q) as (t & ->). cbn [bind]. unfold process_str.
  destruct (part_str_ok _ (kept_targ _ _ K) (proper_target _ P)) as (tt & ->). cbn [bind].
  destruct (part_str_ok _ (kept_proj _ _ K) (proper_projectile _ P)) as (tj & ->). cbn [bind].
  destruct (part_str_ok _ (kept_residual _ _ K) (proper_residual _ P)) as (tr & ->).
  destruct (truthy _); cbn [bind]; eexists; reflexivity.
Qed.
Lemma reaction_repr_ok : forall r, kept c r -> proper r -> exists t, reaction_repr r = Ok t.
Proof.
  intros r K P. unfold reaction_repr. destruct (words_quant r P) as (l & Q). rewrite Q, join_toks_ok. unfold process_repr.
  destruct (part_repr_ok _ (proper_target _ P)) as (tt & ->). cbn [bind].
  destruct (part_repr_ok _ (proper_projectile _ P)) as (tj & ->). cbn [bind].
  destruct (kept_type _ _ K) as (cs & t & T). apply products_counted in T.
  destruct (map_res_total _ _ part_repr (p_products (r_process r))) as (ps & ->).
  { eapply Forall_impl; [|exact T]. apply part_repr_ok. }
  cbn [bind]. destruct (part_repr_ok _ (proper_residual _ P)) as (tr & ->).
  destruct (truthy _); cbn [bind]; eexists; reflexivity.
Qed.

Fixpoint size (x : element) : nat := match x with EIso data => S (list_sum (map size data)) | _ => 1 end.
Definition fine (r : reaction) : Prop := kept c r /\ proper r.
Definition estr := element_str (nm_compounds nm) (nm_quantities nm) (nm_modifiers nm).
Definition erepr := element_repr (nm_compounds nm) (nm_quantities nm) (nm_modifiers nm).
Lemma list_str : forall data, Forall (fun x => exists t, estr x = Ok t) data -> exists t, estr (EIso data) = Ok t.
Proof.
  intros data F. unfold estr in *. induction F as [|x data (s & P) F (t & IH)]; [exists []; reflexivity|].
  cbn [element_str] in *. rewrite P. cbn [bind]. rewrite IH. eexists. reflexivity.
Qed.
Lemma list_repr : forall data, Forall (fun x => (exists t, estr x = Ok t) /\ exists t, erepr x = Ok t) data -> exists t, erepr (EIso data) = Ok t.
Proof.
  intros data F. unfold estr, erepr in *. induction F as [|x data [(s & P) (u & U)] F (t & IH)]; [exists []; reflexivity|].
  cbn [element_repr] in *. rewrite P. cbn [bind]. rewrite IH.
  destruct x; [|rewrite U|rewrite U]; cbn [bind]; eexists; reflexivity.
Qed.
Lemma element_ok : forall n x, size x < n -> Forall fine (element_reactions x) -> (exists t, estr x = Ok t) /\ exists t, erepr x = Ok t.
Proof.
  induction n as [|n IH]; intros x L F; [lia|]. destruct x as [s|r|data].
  - split; eexists; reflexivity.
  - cbn [element_reactions] in F. inversion F as [|? ? [K P] _]; subst. split; [now apply reaction_str_ok|now apply reaction_repr_ok].
  - assert (A : Forall (fun x => (exists t, estr x = Ok t) /\ exists t, erepr x = Ok t) data).
    { cbn [size] in L. cbn [element_reactions] in F. revert L F. induction data as [|x data I]; intros L F; constructor.
      - apply IH; [cbn [map list_sum] in L; unfold list_sum in L; cbn [fold_right] in L; lia|]. cbn [flat_map] in F. apply Forall_app in F. apply F.
      - apply I; [unfold list_sum in *; cbn [map fold_right] in L; lia|]. cbn [flat_map] in F. apply Forall_app in F. apply F. }
    split; [apply list_str; eapply Forall_impl; [|exact A]; intros y [Y _]; exact Y|now apply list_repr].
Qed.
Lemma measurement_ok : forall m, Forall (kept c) (reactions_in m) -> (forall r, In r (reactions_in m) -> proper r) ->
  (exists t, m_str nm m = Ok t) /\ exists t, m_repr nm m = Ok t.
Proof.
  intros m K P. assert (F : Forall fine (reactions_in m)).
  { rewrite Forall_forall in *. intros r I. split; auto. }
  unfold m_str, m_repr, measurement_str, measurement_repr.
  destruct m as [r|data|data]; cbn [reactions_in] in F.
  - inversion F as [|? ? [A B] _]; subst. split; [now apply reaction_str_ok|now apply reaction_repr_ok].
  - exact (element_ok (S (size (EIso data))) (EIso data) (Nat.lt_succ_diag_r _) F).
  - exact (element_ok (S (size (EIso data))) (EIso data) (Nat.lt_succ_diag_r _) F).
Qed.
Lemma read_measurement : forall text m line, reaction_of_text e text = Ok (m, line) -> (forall r, In r (reactions_in m) -> proper r) ->
  (exists t, m_str nm m = Ok t) /\ exists t, m_repr nm m = Ok t.
Proof. intros text m line H P. apply measurement_ok; [|exact P]. exact (text_kept c e text m line (naming_grammars _ _ _ N) H). Qed.
End Printing.

(** ** Entries *)
Section Entries.
Context (c : codes) (e : env) (G : e_g e = x4grammars c).

Definition kept_all (m : measurement) : Prop := Forall (kept c) (reactions_in m).
Definition kept_monitor (x : option measurement * ptree * option str) : Prop := forall m, fst (fst x) = Some m -> kept_all m.
Definition kept_field (f : field) : Prop :=
  match f with
  | FReaction _ rs => Forall (fun x => kept_all (fst (snd x))) rs
  | FMonitor _ ms => Forall (fun x => Forall kept_monitor (snd x)) ms
  | _ => True
  end.
Definition kept_bib (b : bib) : Prop := forall k f, In (k, Some f) (b_dict b) -> kept_field f.
Definition kept_sub (s : subentry) : Prop := forall k b, In (k, SBib b) (s_dict s) -> kept_bib b.

Lemma map_res_all : forall (A B : Type) (f : A -> res B) (Q : B -> Prop) l ys, map_res f l = Ok ys -> (forall x y, f x = Ok y -> Q y) -> Forall Q ys.
Proof.
  intros A B f Q. induction l as [|x l IH]; intros ys H W; cbn [map_res] in H; [assert (ys = []) by congruence; subst; constructor|].
  apply bind_ok in H. destruct H as (y & Y & H). apply bind_ok in H. destruct H as (ys' & YS & H). assert (ys = y :: ys') by congruence. subst.
  constructor; [exact (W _ _ Y)|exact (IH _ YS W)].
Qed.
Lemma reaction_field_kept : forall x f, X4ReactionField e x = Ok f -> kept_field (FReaction (fst f) (snd f)).
Proof.
  intros x f H. unfold X4ReactionField in H. apply bind_ok in H. destruct H as (p & _ & H). apply bind_ok in H. destruct H as (rs & R & H).
  assert (f = (p, rs)) by congruence. subst f. cbn [kept_field fst snd]. eapply map_res_all; [exact R|]. intros pl y Y.
  apply bind_ok in Y. destruct Y as ([m line] & M & Y). assert (y = (fst pl, (m, line))) by congruence. subst y. exact (text_kept c e _ _ _ G M).
Qed.
Lemma monitor_kept : forall d x, monitor_reaction e d = Ok x -> kept_monitor x.
Proof.
  intros d x H. unfold monitor_reaction in H. apply bind_ok in H. destruct H as ([d' h] & _ & H). destruct (startswith d' _).
  - apply bind_ok in H. destruct H as ([m line] & M & H). assert (x = (Some m, line, h)) by (cbn in H; congruence). subst x. intros m' E.
    assert (m = m') by (cbn in E; congruence). subst m'. apply caught_ok in M. destruct M as [M|M]; [|discriminate]. exact (text_kept c e _ _ _ G M).
  - assert (x = (None, PTok d', h)) by congruence. subst x. intros m E. discriminate E.
Qed.
Lemma monitor_field_kept : forall x f, X4MonitorField e x = Ok f -> kept_field (FMonitor (fst f) (snd f)).
Proof.
  intros x f H. unfold X4MonitorField in H. apply bind_ok in H. destruct H as (p & _ & H). apply bind_ok in H. destruct H as (ms & M & H).
  assert (f = (p, ms)) by congruence. subst f. cbn [kept_field fst snd]. eapply map_res_all; [exact M|]. intros pl y Y.
  apply bind_ok in Y. destruct Y as (ds & _ & Y). apply bind_ok in Y. destruct Y as (l & L & Y). assert (y = (fst pl, l)) by congruence. subst y.
  cbn [snd]. eapply map_res_all; [exact L|]. exact monitor_kept.
Qed.
Lemma make_field_kept : forall tag x f, make_field e tag x = Ok f -> kept_field f.
Proof.
  intros tag x f H. unfold make_field in H.
  destruct (tag_eqb tag (Some (lit "REACTION"))).
  { apply bind_ok in H. destruct H as (r & R & H). assert (f = FReaction (fst r) (snd r)) by congruence. subst. exact (reaction_field_kept _ _ R). }
  destruct (tag_eqb tag (Some (lit "MONITOR"))).
  { apply bind_ok in H. destruct H as (r & R & H). assert (f = FMonitor (fst r) (snd r)) by congruence. subst. exact (monitor_field_kept _ _ R). }
  destruct (tag_eqb tag (Some (lit "REFERENCE"))).
  { apply bind_ok in H. destruct H as (r & R & H). assert (f = FReference (fst r) (snd r)) by congruence. subst. exact I. }
  destruct (tag_eqb tag (Some (lit "AUTHOR"))).
  { apply bind_ok in H. destruct H as (r & R & H). assert (f = FAuthor r) by congruence. subst. exact I. }
  destruct (tag_eqb tag (Some (lit "TITLE"))).
  { apply bind_ok in H. destruct H as (r & R & H). assert (f = FTitle r) by congruence. subst. exact I. }
  destruct (tag_eqb tag (Some (lit "INSTITUTE"))).
  { apply bind_ok in H. destruct H as (r & R & H). assert (f = FInstitute (fst r) (snd r)) by congruence. subst. exact I. }
  apply bind_ok in H. destruct H as (r & R & H). assert (f = FPlain r) by congruence. subst. exact I.
Qed.
Lemma bib_kept : forall l b, X4BibSection e l = Ok b -> kept_bib b.
Proof.
  intros l b H. unfold X4BibSection in H. refine (fold_res_inv _ _ kept_bib _ _ _ _ _ _ H); [|intros k f []].
  clear H. intros s x s' K H. apply bind_ok in H. destruct H as (tag & _ & H). apply bind_ok in H. destruct H as (f & F & H).
  assert (s' = mkBib (dset tag_eqb tag (Some f) (b_dict s)) (b_keys s ++ [tag])) by congruence. subst s'. intros k f' I. cbn [b_dict] in I.
  apply (In_dset _ _ _ tag_eqb_eq) in I. destruct I as [[-> E]|I]; [|exact (K _ _ I)]. assert (f' = f) by congruence. subst. exact (make_field_kept _ _ _ F).
Qed.
Lemma sub_kept : forall text s, X4SubEntry e text = Ok s -> kept_sub s.
Proof.
  intros text s H. unfold X4SubEntry, X4SubEntry_lines in H. apply bind_ok in H. destruct H as (d & D & H).
  match type of H with Ok ?z = _ => assert (s = z) by congruence end. subst s. clear H. unfold kept_sub. cbn [s_dict].
  refine (fold_res_inv _ _ (fun d => forall k b, In (k, SBib b) d -> kept_bib b) _ _ _ _ _ _ D); [|intros k b []].
  clear D. intros t x t' K H. apply bind_ok in H. destruct H as ([tag sec] & S & H).
  assert (t' = dset str_eqb tag sec t) by (cbn in H; congruence). subst t'. intros k b I.
  apply (In_dset _ _ _ str_eqb_eq) in I. destruct I as [[-> E]|I]; [|exact (K _ _ I)]. subst sec.
  unfold make_section in S. destruct (extractX4SectionType x) as [tg|]; [|discriminate]. destruct (str_eqb tg (lit "BIB")).
  - apply bind_ok in S. destruct S as (b' & B & S). assert (b' = b) by congruence. subst. exact (bib_kept _ _ B).
  - apply bind_ok in S. destruct S as (d' & B & S). discriminate S.
Qed.
Lemma entry_kept : forall raw n, X4Entry e raw = Ok n -> forall k s, In (k, s) (n_subs n) -> kept_sub s.
Proof.
  intros raw n H. unfold X4Entry in H. destruct (extractX4EntryIndex raw) as [acc|]; [|discriminate]. destruct (negb _); [discriminate|].
  apply bind_ok in H. destruct H as (d & D & H). match type of H with Ok ?z = _ => assert (n = z) by congruence end. subst n. clear H. cbn [n_subs].
  refine (fold_res_inv _ _ (fun d => forall k s, In (k, s) d -> kept_sub s) _ _ _ _ _ _ D); [|intros k s []].
  clear D. intros t x t' K H. apply bind_ok in H. destruct H as (s & S & H). assert (t' = dset tag_eqb (s_accnum s) s t) by congruence. subst t'.
  intros k s' I. apply (In_dset _ _ _ tag_eqb_eq) in I. destruct I as [[-> ->]|I]; [exact (sub_kept _ _ S)|exact (K _ _ I)].
Qed.
Lemma dget_any : forall (K V : Type) (eqb : K -> K -> bool) k (d : list (K * V)) v, dget eqb k d = Some v -> exists k', In (k', v) d.
Proof.
  intros K V eqb k d v. induction d as [|[k' v'] d IH]; intro H; [discriminate|]. cbn [dget] in H. destruct (eqb k k').
  - assert (v' = v) by congruence. subst. exists k'. now left.
  - destruct (IH H) as (k2 & I). exists k2. now right.
Qed.
Lemma bib_of_kept : forall s b, kept_sub s -> bib_of s = Some b -> kept_bib b.
Proof.
  intros s b K H. unfold bib_of in H. destruct (dget str_eqb _ (s_dict s)) as [[b'|d]|] eqn:D; try discriminate. assert (b' = b) by congruence. subst.
  apply dget_any in D. destruct D as (k & I). exact (K _ _ I).
Qed.
Lemma bib_field_kept : forall b k f, kept_bib b -> bib_field b k = Some (Some f) -> kept_field f.
Proof. intros b k f K H. unfold bib_field in H. apply dget_any in H. destruct H as (k' & I). exact (K _ _ I). Qed.
Lemma reactions_kept : forall s p r, kept_sub s -> dget Ascii.eqb p (reactions_of s) = Some r -> kept_all (fst r).
Proof.
  intros s p r K H. unfold reactions_of in H. destruct (bib_of s) as [b|] eqn:B; [|discriminate]. apply (bib_of_kept _ _ K) in B.
  destruct (bib_field b "REACTION") as [[[]|]|] eqn:F; try discriminate. apply (bib_field_kept _ _ _ B) in F. cbn [kept_field] in F.
  apply dget_any in H. destruct H as (k & I). rewrite Forall_forall in F. exact (F _ I).
Qed.
Lemma monitors_kept : forall s p l, kept_sub s -> dget Ascii.eqb p (monitors_of s) = Some l -> Forall kept_monitor l.
Proof.
  intros s p r K H. unfold monitors_of in H. destruct (bib_of s) as [b|] eqn:B; [|discriminate]. apply (bib_of_kept _ _ K) in B.
  destruct (bib_field b "MONITOR") as [[[]|]|] eqn:F; try discriminate. apply (bib_field_kept _ _ _ B) in F. cbn [kept_field] in F.
  apply dget_any in H. destruct H as (k & I). rewrite Forall_forall in F. exact (F _ I).
Qed.

(** What is known of every data set of an entry. *)
Record sourced (d : dataset) : Prop := {
  sourced_reaction : exists m t, ds_reaction d = Some (m, t);
  sourced_kept : Forall kept_all (measurements d);
  sourced_frame : ds_class_of d = AngularDist \/ ds_class_of d = EnergyDist -> exists f, ds_frame d = Some f;
  sourced_units : units_given (ds_table d) }.
Lemma make_sourced : forall cls meta common m t mon data p d, kept_all m -> (forall l, mon = Some l -> Forall kept_monitor l) ->
  make_dataset cls meta common (Some (m, t)) mon data p = Ok d -> sourced d.
Proof.
  intros cls meta common m t mon data p d K M H. unfold make_dataset in H. apply bind_ok in H. destruct H as (tb & T & H).
  match type of H with Ok ?z = _ => assert (d = z) by congruence end. subst d. constructor; cbn [ds_reaction ds_class_of ds_frame ds_table].
  - eauto.
  - unfold measurements. cbn [ds_reaction ds_monitor]. apply Forall_app. split; [constructor; [exact K|constructor]|].
    destruct mon as [l|]; [|constructor]. specialize (M l eq_refl). clear - M. induction M as [|x l X M IH]; [constructor|]. cbn [flat_map].
    apply Forall_app. split; [|exact IH]. destruct (fst (fst x)) as [m|] eqn:E; [constructor; [exact (X _ E)|constructor]|constructor].
  - intros [-> | ->]; eauto.
  - unfold setData in T. apply bind_ok in T. destruct T as ([[[labels units] offsets] filter] & _ & T). apply bind_ok in T. destruct T as (? & _ & T).
    apply bind_ok in T. destruct T as (? & _ & T). apply bind_ok in T. destruct T as (rows & _ & T).
    assert (tb = mkTable labels (map Some units) rows) by congruence. subst tb. intros u I. cbn [t_units] in I. apply in_map_iff in I. destruct I as (s & <- & _). eauto.
Qed.
Lemma tried_sourced : forall nm n s1 s from p d, kept_sub from -> tried nm n s1 s from p = Some (Ok d) -> sourced d.
Proof.
  intros nm n s1 s from p d K H. unfold tried in H. destruct (sub_data s "DATA") as [data|]; [|discriminate].
  destruct (dget Ascii.eqb p (reactions_of from)) as [[m t]|] eqn:R; [|discriminate].
  assert (F : X4DataSetFactory nm (m_quantity (fst (m, t))) [metadata_of s1; metadata_of s] [common_of 0 s1; common_of (common_id n s) s] (Some (m, t))
                (dget Ascii.eqb p (monitors_of from)) data (Some p) = Ok d) by congruence. clear H.
  unfold X4DataSetFactory in F. apply bind_ok in F. destruct F as (q & _ & F). eapply make_sourced; [| |exact F].
  - exact (reactions_kept _ _ _ K R).
  - intros l L. exact (monitors_kept _ _ _ K L).
Qed.
Lemma last_some_in : forall (A : Type) (l : list (option A)) x, last_some l = Some x -> In (Some x) l.
Proof.
  intros A. induction l as [|y l IH]; intros x H; [discriminate|]. cbn [last_some] in H. destruct (last_some l) as [z|].
  - right. now apply IH.
  - left. exact H.
Qed.
Lemma entry_tried : forall raw n nm errs ds errs' n', X4Entry e raw = Ok n -> getDataSets nm n errs = Ok (ds, errs', n') ->
  forall k d, dget key_eqb k ds = Some d -> exists s1 s from p key, In (key, from) (n_subs n) /\ tried nm n s1 s from p = Some (Ok d).
Proof.
  intros raw n nm errs ds errs' n' X H [[acc sub] p] d D. destruct (dataSets_values e raw nm n errs ds errs' n' X H) as (s1 & S1 & V & W).
  destruct (str_eqb acc (n_accnum n)) eqn:A.
  - apply str_eqb_eq in A. subst acc.
    destruct (existsb (tag_eqb sub) (dkeys (n_subs n))) eqn:B.
    + apply existsb_exists in B. destruct B as (sub' & I & B). apply tag_eqb_eq in B. subst sub'. unfold dkeys in I. apply in_map_iff in I.
      destruct I as ([sub' s] & E & I). cbn [fst] in E. subst sub'. destruct (V sub s p I) as [V' _]. rewrite V' in D. apply last_some_in in D.
      assert (O : forall x, ok_of x = Some d -> x = Some (Ok d)) by (intros [[y|y]|] Y; try discriminate; cbn in Y; congruence).
      destruct D as [D|[D|[]]]; apply O in D; eexists _, _, _, _, _; split; try exact D; eassumption.
    + destruct (W (n_accnum n) sub p) as [W' _]; [|congruence]. right. intro I. assert (existsb (tag_eqb sub) (dkeys (n_subs n)) = true); [|congruence].
      apply existsb_exists. exists sub. split; [exact I|]. now apply tag_eqb_eq.
  - destruct (W acc sub p) as [W' _]; [|congruence]. left. intro E. subst. assert (str_eqb (n_accnum n) (n_accnum n) = true) by now apply str_eqb_eq. congruence.
Qed.
Lemma entry_sourced : forall raw n nm errs ds errs' n', X4Entry e raw = Ok n -> getDataSets nm n errs = Ok (ds, errs', n') ->
  forall k d, dget key_eqb k ds = Some d -> sourced d.
Proof.
  intros raw n nm errs ds errs' n' X H k d D. destruct (entry_tried raw n nm errs ds errs' n' X H k d D) as (s1 & s & from & p & key & I & T).
  eapply tried_sourced; [exact (entry_kept raw n X _ _ I)|exact T].
Qed.
Lemma simplified_same : forall acos mk fl d s d', fst (Columns.run (getSimplified acos mk fl d) s) = Ok d' ->
  d' = d \/ ds_class_of d' = ds_class_of d /\ ds_reaction d' = ds_reaction d /\ ds_monitor d' = ds_monitor d /\ ds_frame d' = ds_frame d.
Proof.
  intros acos mk fl d s d' H. rewrite SimplifyLemmas.run_getSimplified in H. unfold SimplifyLemmas.simplified in H.
  assert (Q : forall pm names, SimplifyLemmas.simplified_with acos pm names mk fl d = Ok d' ->
    d' = d \/ ds_class_of d' = ds_class_of d /\ ds_reaction d' = ds_reaction d /\ ds_monitor d' = ds_monitor d /\ ds_frame d' = ds_frame d).
  { clear H. intros pm names E. unfold SimplifyLemmas.simplified_with in E. destruct (ds_simplified d); [left; congruence|].
    destruct pm as [pm|]; [|left; congruence]. destruct (existsb _ _); [discriminate|].
    apply bind_ok in E. destruct E as (cols & C & E). apply bind_ok in E. destruct E as (t & T & E). assert (d' = set_table d t true) by congruence. subst d'.
    right. auto. }
  destruct (ds_class_of d) eqn:CL; try discriminate H; try (rewrite <- CL in *; eapply Q; exact H). left. congruence.
Qed.
Lemma simplified_sourced : forall acos mk fl d s d', sourced d -> fst (Columns.run (getSimplified acos mk fl d) s) = Ok d' -> sourced d'.
Proof.
  intros acos mk fl d s d' S H. pose proof (simplified_units _ _ _ _ _ _ (sourced_units _ S) H) as U.
  destruct (simplified_same _ _ _ _ _ _ H) as [->|(C & R & M & F)]; [exact S|]. constructor.
  - rewrite R. apply S.
  - unfold measurements. rewrite R, M. apply S.
  - rewrite C, F. apply S.
  - exact U.
Qed.
Lemma simplified_from : forall raw n nm acos mk errs s ds errs' n' s', X4Entry e raw = Ok n ->
  getSimplifiedDataSets nm acos mk n errs s = Ok (ds, errs', n', s') -> exists ds0 errs0, getDataSets nm n errs = Ok (ds0, errs0, n') /\
    forall k d, dget key_eqb k ds = Some d -> exists d0, dget key_eqb k ds0 = Some d0 /\
      (d = d0 \/ exists fl s0, fst (Columns.run (getSimplified acos mk fl d0) s0) = Ok d).
Proof.
  intros raw n nm acos mk errs s ds errs' n' s' X H.
  destruct (simplifiedDataSets_spec e raw nm acos mk n errs s ds errs' n' s' X H) as (ds0 & errs0 & H0 & KEYS & A & _).
  exists ds0, errs0. split; [exact H0|]. intros k d D. destruct (dget key_eqb k ds0) as [d0|] eqn:D0.
  - exists d0. split; [reflexivity|]. destruct (A k d0 D0) as [(d' & R & D' & _)|(x & _ & _ & D' & _)]; [right|left; congruence].
    assert (d' = d) by congruence. subst. eauto.
  - exfalso. assert (N : forall (l : list (ds_key * dataset)), dget key_eqb k l = None <-> ~ In k (dkeys l)).
    { intro l. unfold dkeys. induction l as [|[k' v] l IH]; cbn [dget map fst In]; [tauto|]. destruct (key_eqb k k') eqn:E.
      - apply key_eqb_eq in E. subst. split; [discriminate|]. intro N. exfalso. apply N. now left.
      - rewrite IH. assert (k' <> k) by (intros ->; assert (key_eqb k k = true) by (now apply key_eqb_eq); congruence). tauto. }
    apply N in D0. rewrite <- KEYS in D0. apply N in D0. congruence.
Qed.
Lemma simplified_sets_sourced : forall raw n nm acos mk errs s ds errs' n' s', X4Entry e raw = Ok n ->
  getSimplifiedDataSets nm acos mk n errs s = Ok (ds, errs', n', s') -> forall k d, dget key_eqb k ds = Some d -> sourced d.
Proof.
  intros raw n nm acos mk errs s ds errs' n' s' X H k d D.
  destruct (simplified_from raw n nm acos mk errs s ds errs' n' s' X H) as (ds0 & errs0 & H0 & A). destruct (A k d D) as (d0 & D0 & B).
  pose proof (entry_sourced raw n nm errs ds0 errs0 n' X H0 k d0 D0) as S. destruct B as [->|(fl & s0 & R)]; [exact S|].
  eapply simplified_sourced; [exact S|exact R].
Qed.

(** ** Printing data sets *)
Context (nm : names) (NM : naming c e nm).
Lemma dataset_printed : forall d, sourced d -> (forall m r, In m (measurements d) -> In r (reactions_in m) -> proper r) ->
  (exists t, dataset_str nm d = Ok t) /\ exists t, dataset_repr nm d = Ok t.
Proof.
  intros d S P. destruct (sourced_reaction _ S) as (m & line & R). pose proof (sourced_kept _ S) as K. rewrite Forall_forall in K.
  assert (OK : forall m, In m (measurements d) -> (exists t, m_str nm m = Ok t) /\ exists t, m_repr nm m = Ok t).
  { intros m' I. apply (measurement_ok c e nm NM); [exact (K _ I)|]. intros r. now apply P. }
  assert (Im : In m (measurements d)) by (unfold measurements; rewrite R; now left).
  assert (Mon : forall l x m', ds_monitor d = Some l -> In x l -> fst (fst x) = Some m' -> In m' (measurements d)).
  { intros l x m' L I E. unfold measurements. rewrite L. apply in_or_app. right. apply in_flat_map. exists x. split; [exact I|]. rewrite E. now left. }
  destruct (OK m Im) as [(ms & MS) (mr & MR)]. split.
  - unfold dataset_str, strHeader, X4DataSet_strHeader. rewrite R, MS. cbn [bind].
    assert (X : exists ms', match ds_monitor d with None => Ok [] | Some l => ls <- map_res (monitor_str nm) l ;; Ok ([nl] ++ lit "#  Monitor(s): " ++ join [sp] ls) end = Ok ms').
    { destruct (ds_monitor d) as [l|] eqn:L; [|eauto]. destruct (map_res_total _ _ (monitor_str nm) l) as (ls & ->).
      - apply Forall_forall. intros [[[m'|] t] h] I; cbn [monitor_str]; [|cbn [bind]; eauto].
        destruct (OK m') as [_ (r & ->)]; [eapply Mon; [reflexivity|exact I|reflexivity]|]. cbn [bind]. eauto.
      - cbn [bind]. eauto. }
    destruct X as (ms' & ->). cbn [bind].
    assert (F : exists h, (match ds_class_of d with AngularDist | EnergyDist => f <- of_option AttributeError (ds_frame d) ;;
        Ok ((xmgraceHeader (ds_meta d) ++ [nl] ++ lit "#  Reaction:  " ++ (ms ++ [sp] ++ tree_str line) ++ ms') ++ [nl] ++ lit "#  Frame:     " ++ f)
      | _ => Ok (xmgraceHeader (ds_meta d) ++ [nl] ++ lit "#  Reaction:  " ++ (ms ++ [sp] ++ tree_str line) ++ ms') end) = Ok h).
    { pose proof (sourced_frame _ S) as FR. destruct (ds_class_of d); eauto.
      - destruct FR as (f & ->); [now left|]. cbn [of_option bind]. eauto.
      - destruct FR as (f & ->); [now right|]. cbn [of_option bind]. eauto. }
    destruct F as (h & ->). cbn [bind]. eauto.
  - unfold dataset_repr, reprHeader. rewrite R, MR. cbn [bind].
    assert (X : exists ms', match ds_monitor d with None | Some [] => Ok [] | Some l =>
       ls <- map_res (fun x : option measurement * ptree * option str => match fst (fst x) with Some m => m_repr nm m | None => Ok (lit "None") end) l ;;
       Ok ([sp; nl] ++ lit "Monitor(s):[" ++ join (lit ", ") ls ++ lit "]") end = Ok ms').
    { destruct (ds_monitor d) as [[|x l]|] eqn:L; eauto. match goal with |- context [map_res ?f _] => destruct (map_res_total _ _ f (x :: l)) as (ls & ->) end.
      - apply Forall_forall. intros y I. destruct (fst (fst y)) as [m'|] eqn:E; [|eauto]. apply OK. eapply Mon; [reflexivity|exact I|exact E].
      - cbn [bind]. eauto. }
    destruct X as (ms' & ->). cbn [bind].
    destruct (map_res_total _ _ (of_option TypeError) (t_units (ds_table d))) as (us & ->).
    { apply Forall_forall. intros u I. destruct (sourced_units _ S u I) as (s & ->). now exists s. }
    cbn [bind]. eauto.
Qed.
End Entries.
