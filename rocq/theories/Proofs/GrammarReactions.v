(** Processes, reactions and reaction fields as the grammars read them. *)
From Coq Require Import String List Ascii NArith ZArith Bool Arith Lia.
From Verif.Model Require Import Py Particle Pyparsing Grammars.
From Verif.Spec Require Import Text Codes.
From Verif.Proofs Require Import StrLemmas ParseLemmas GrammarLemmas GrammarCodes.
Import ListNotations.
Local Open Scope list_scope.
Local Open Scope nat_scope.

Section Keys.
Variable c : codes.
Hypothesis KP : Forall particle_key (c_particles c).
Hypothesis KC : Forall compound_key (c_compounds c).

(** * Products *)

Definition pfol (p : pcode) : str -> Prop := match p with CNuclide _ => nxt nuc_stop | _ => nxt prod_stop end.

Lemma product_parses : forall p, good_product (c_particles c) p ->
  parses (x4product c) (code_tokens p) [code_tree p] (pfol p).
Proof.
  intros [n|w|n w] G.
  - exact (product_nuclide c n KP G).
  - exact (product_word c w KP G).
  - destruct G as [D W]. exact (product_many c n w KP D W).
Qed.

Definition plus_item (p : pcode) : list str * list ptree := (tx "+" :: code_tokens p, [code_tree p]).
Lemma separated_cons : forall p ps, separated (tx "+") (map code_tokens (p :: ps)) =
  code_tokens p ++ concat (map fst (map plus_item ps)).
Proof.
  intros p ps. revert p. induction ps as [|q ps IH]; intros p; [cbn; now rewrite app_nil_r|].
  change (separated (tx "+") (map code_tokens (p :: q :: ps))) with
    (code_tokens p ++ tx "+" :: separated (tx "+") (map code_tokens (q :: ps))).
  rewrite IH. reflexivity.
Qed.

Lemma pfol_ok : forall p ps s k, (ps <> [] -> forall n, p <> CNuclide n) ->
  spaced (concat (map fst (map plus_item ps))) s -> nxt (fun d => Ascii.eqb d ")"%char) k -> pfol p (s ++ k).
Proof.
  intros p [|q ps] s k H S K.
  - inversion S; subst. cbn [app]. destruct p; cbn [pfol]; (eapply nxt_weaken; [|exact K]); intros d D; chars D.
  - assert (X : nxt (fun d => Ascii.eqb d "+"%char) (s ++ k)).
    { eapply nxt_spaced; [exact S|reflexivity|reflexivity]. }
    destruct p as [n| |]; cbn [pfol]; [exfalso; apply (H ltac:(discriminate) n eq_refl)| |];
      (eapply nxt_weaken; [|exact X]); intros d D; chars D.
Qed.

Lemma plus_parses : forall p, good_product (c_particles c) p ->
  parses (And (Suppress (Literal (lit "+"))) [x4product c]) (tx "+" :: code_tokens p) [code_tree p] (pfol p).
Proof.
  intros p G. apply (parses_And (Suppress (Literal (lit "+"))) [x4product c] [tx "+"] [] any (code_tokens p) [code_tree p]).
  - reflexivity.
  - eapply Suppress_parses. apply (Literal_parses "+"%char []). reflexivity.
  - apply rest_one, product_parses, G.
  - exact (fun _ _ _ _ => I).
Qed.

Lemma products_chain : forall ps, Forall (good_product (c_particles c)) ps ->
  (forall a x b, ps = a ++ x :: b -> b <> [] -> forall n, x <> CNuclide n) ->
  chain (And (Suppress (Literal (lit "+"))) [x4product c]) (fol (fun d => Ascii.eqb d ")"%char)) (map plus_item ps).
Proof.
  induction ps as [|p ps IH]; intros G O; [constructor|]. inversion G as [|? ? Gp Gps]; subst.
  cbn [map]. apply chain_cons with (F := pfol p).
  - exists "+"%char, [], (code_tokens p). split; reflexivity.
  - apply plus_parses, Gp.
  - intros s k S K. eapply pfol_ok; [|exact S|exact K]. intros NE n. exact (O [] p ps eq_refl NE n).
  - apply IH; [exact Gps|]. intros a x b E. apply (O (p :: a) x b). cbn [app]. now rewrite E.
Qed.

Lemma products_parse : forall l, good_products (c_particles c) l ->
  forall rest ts r F, parses_rest rest ts r F ->
  (forall s k, spaced ts s -> F k -> nxt (fun d => Ascii.eqb d ")"%char) (s ++ k)) ->
  parses_rest (delimited (x4product c) (lit "+") ++ rest) (separated (tx "+") (map code_tokens l) ++ ts)
              (map code_tree l ++ r) F.
Proof.
  intros l (NE & G & O) rest ts r F H C. destruct l as [|p ps]; [congruence|].
  inversion G as [|? ? Gp Gps]; subst. rewrite separated_cons, <- app_assoc. unfold delimited. cbn [app map].
  apply (rest_cons (x4product c) _ (code_tokens p) [code_tree p] (pfol p)
           (concat (map fst (map plus_item ps)) ++ ts) (map code_tree ps ++ r)).
  - apply product_parses, Gp.
  - assert (E : map code_tree ps = concat (map snd (map plus_item ps))).
    { clear. induction ps as [|q ps IH]; [reflexivity|]. cbn [map concat plus_item snd app]. now rewrite IH. }
    rewrite E.
    apply (rest_cons (ZeroOrMore (And (Suppress (Literal (lit "+"))) [x4product c])) rest _ _
             (fun k => fol (fun d => Ascii.eqb d ")"%char) (skip_white k))).
    + apply ZeroOrMore_parses.
      * apply And_refuses; [reflexivity|]. apply Suppress_refuses.
        eapply refuses_weaken; [apply (Literal_head "+"%char [])|]. intros k. apply fol_weaken. intros d D. chars D.
      * apply products_chain; [exact Gps|]. intros a x b E'. apply (O (p :: a) x b). cbn [app]. now rewrite E'.
    + exact H.
    + exact C.
  - intros s k S K. destruct (spaced_app _ _ _ S) as (s1 & s2 & -> & S1 & S2). rewrite <- app_assoc.
    eapply pfol_ok; [|exact S1|exact (C _ _ S2 K)]. intros NEp n. exact (O [] p ps eq_refl NEp n).
Qed.

(** * Processes *)

Definition part_stop (d : ascii) : bool := cmem d (lit ",)").

Lemma target_parses : forall n, good_nuclide n -> parses (x4target c) (nuclide_tokens n) [nuclide_tree n] (nxt nuc_stop).
Proof.
  intros n G. apply (place_parses c n ["ELEM/MASS"; "MASS"; "ELEM"]%string KC G).
  repeat apply Forall_cons; try apply Forall_nil; (eexists _, _; split; [reflexivity|reflexivity]).
Qed.
Lemma residual_parses : forall n, good_nuclide n -> parses (x4residual c) (nuclide_tokens n) [nuclide_tree n] (nxt nuc_stop).
Proof.
  intros n G. apply (place_parses c n ["ELEM/MASS"; "MASS"; "ELEM"; "NPART"]%string KC G).
  repeat apply Forall_cons; try apply Forall_nil; (eexists _, _; split; [reflexivity|reflexivity]).
Qed.
Lemma residual_refuses : refuses (x4residual c) (fol (fun d => negb (is_alphanum d))).
Proof.
  apply (place_refuses c ["ELEM/MASS"; "MASS"; "ELEM"; "NPART"]%string KC).
  repeat apply Forall_cons; try apply Forall_nil; (eexists _, _; split; [reflexivity|reflexivity]).
Qed.
Lemma target_refuses : refuses (x4target c) (fol (fun d => negb (is_alphanum d))).
Proof.
  apply (place_refuses c ["ELEM/MASS"; "MASS"; "ELEM"]%string KC).
  repeat apply Forall_cons; try apply Forall_nil; (eexists _, _; split; [reflexivity|reflexivity]).
Qed.

Lemma lpar_parses : parses lpar [tx "("] [] any.
Proof. eapply Suppress_parses. apply (Literal_parses "("%char []). reflexivity. Qed.
Lemma rpar_parses : parses rpar [tx ")"] [] any.
Proof. eapply Suppress_parses. apply (Literal_parses ")"%char []). reflexivity. Qed.
Lemma comma_parses : parses comma [tx ","] [] any.
Proof. eapply Suppress_parses. apply (Literal_parses ","%char []). reflexivity. Qed.

Lemma process_parses : forall r, good_reaction (c_particles c) r ->
  parses (x4process c) (process_tokens r) (process_tree r) (nxt part_stop).
Proof.
  intros r (GT & GP & GO & GR & _). unfold process_tokens, x4process, process_tree.
  apply (parses_And (x4target c) _ (nuclide_tokens (rc_target r)) [nuclide_tree (rc_target r)] (nxt nuc_stop)).
  - reflexivity.
  - apply target_parses, GT.
  - apply (rest_cons lpar _ [tx "("] [] any); [apply lpar_parses| |exact (fun _ _ _ _ => I)].
    apply (rest_cons x4projectile _ (code_tokens (rc_projectile r)) [code_tree (rc_projectile r)]
             (nxt (fun d => Ascii.eqb d ","%char))).
    + apply projectile_parses, GP.
    + apply (rest_cons comma _ [tx ","] [] any); [apply comma_parses| |exact (fun _ _ _ _ => I)].
      apply products_parse; [exact GO| |].
      * apply (rest_cons rpar _ [tx ")"] [] any); [apply rpar_parses| |exact (fun _ _ _ _ => I)].
        apply rest_one. destruct (rc_residual r) as [n|].
        -- apply Optional_parses. eapply parses_weaken; [apply residual_parses, GR; reflexivity|].
           intros k. apply nxt_weaken. intros d D. chars D.
        -- eapply parses_weaken; [apply Optional_none, residual_refuses|].
           intros k. apply fol_weaken. intros d D. chars D.
      * intros s k S _. eapply nxt_spaced; [exact S|reflexivity|reflexivity].
    + intros s k S _. eapply nxt_spaced; [exact S|reflexivity|reflexivity].
  - intros s k S _. eapply nxt_spaced; [exact S|reflexivity|reflexivity].
Qed.

(** * The parts of a reaction *)

Lemma descriptor_keeps : keeps ","%char x4reaction_descriptor.
Proof.
  assert (W : keeps ","%char descr_word) by (apply keeps_Word2; reflexivity).
  apply keeps_Or; [reflexivity|]. apply Forall_cons; [exact W|apply Forall_cons; [|apply Forall_nil]].
  apply keeps_And; [reflexivity| |].
  - apply keeps_Suppress; [reflexivity|]. apply keeps_Literal; reflexivity.
  - apply Forall_cons; [exact W|apply Forall_cons; [|apply Forall_nil]].
    apply keeps_Suppress; [reflexivity|]. apply keeps_Literal; reflexivity.
Qed.

Lemma process_comma : forall r s, spaced (process_tokens r) s -> exists u v, s = u ++ ","%char :: v.
Proof.
  intros r s S. unfold process_tokens in S.
  apply spaced_app in S as (s1 & s2 & -> & _ & S). apply spaced_app in S as (s3 & s4 & -> & _ & S).
  apply spaced_app in S as (s5 & s6 & -> & _ & S). apply spaced_app in S as (s7 & s8 & -> & S & _).
  inversion S as [|w t ts s G S' E1 E2]; subst. inversion S'; subst.
  exists (s1 ++ s3 ++ s5 ++ w), (s8). rewrite <- !app_assoc. reflexivity.
Qed.

Lemma part_process : forall r, good_reaction (c_particles c) r ->
  parses (reaction_part c) (process_tokens r) [PGroup (process_tree r)] (nxt part_stop).
Proof.
  intros r G s k x S F N.
  destruct (Group_parses _ _ _ _ (process_parses r G) s k x S F N) as (k' & E & N').
  exists k'. split; [|exact N']. unfold reaction_part. rewrite run_Or. cbn [map fold_left]. rewrite E, none_longer.
  apply fold_longer_keep with (rs := [_]). apply Forall_cons; [|apply Forall_nil].
  destruct (process_comma r s S) as (u & v & ->).
  destruct (run (ZeroOrMore x4reaction_descriptor) true true x) as [[t q]|] eqn:Q; [|exact I]. cbn [shorter].
  assert (X : exists u', q = u' ++ ","%char :: v ++ k).
  { pose proof (keeps_ZeroOrMore ","%char x4reaction_descriptor eq_refl descriptor_keeps) as KK.
    rewrite <- app_assoc in N. cbn [app] in N. destruct N as [->| ->].
    - exact (KK _ _ _ _ _ _ Q).
    - rewrite run_skip in Q.
      assert (E' : exists u1, skip_white (u ++ ","%char :: v ++ k) = u1 ++ ","%char :: v ++ k).
      { clear. induction u as [|d u IH]; cbn [app skip_white]; [exists []; reflexivity|].
        destruct (is_white d); [exact IH|]. exists (d :: u). reflexivity. }
      destruct E' as [u1 E']. rewrite E' in Q. exact (keeps_use _ _ _ _ _ _ _ KK Q). }
  destruct X as [u' ->]. pose proof (near_len _ _ N'). rewrite app_length. cbn [length]. rewrite app_length. lia.
Qed.

Definition qchar (d : ascii) : bool := is_alphanum d || cmem d (lit "/*+-").
Lemma quantity_qchar : forall d, quantity_char d -> qchar d = true.
Proof.
  intros d [L|[D|I]].
  - apply letter_alpha in L. chars L.
  - apply digit_dig in D. chars D.
  - apply cmem_In in I. change (cmem d (lit "/*+-") = true) in I. chars I.
Qed.

(** A quantity is not a process: after what could be a target there is no parenthesis. *)
Lemma process_not : forall w k x, quantity_word w -> skip_white x = w ++ k -> nxt part_stop k ->
  run (x4process c) true true x = None.
Proof.
  intros w k x (a & t & -> & A & T) X K. apply letter_alpha in A.
  assert (Q : forallb qchar (a :: t) = true).
  { cbn [forallb]. rewrite andb_true_iff. split; [chars A|]. apply forallb_forall. intros d I.
    rewrite Forall_forall in T. apply quantity_qchar, T, I. }
  assert (Kq : fol (fun d => negb (qchar d)) k).
  { apply nxt_fol; [intros d D; chars D|]. eapply nxt_weaken; [|exact K]. intros d D. chars D. }
  rewrite run_pre by reflexivity. unfold x4process. cbn [And impl].
  assert (R : run (x4target c) true false (skip_white x) = None \/
     exists r q u, run (x4target c) true false (skip_white x) = Some (r, q) /\ q = u ++ k /\ forallb qchar u = true).
  { change (run (x4target c) true false (skip_white x)) with (run (x4target c) true true (skip_white x)).
    unfold x4target. rewrite run_Or. cbn [map fold_left]. rewrite none_longer.
    assert (H1 : run (Group (MatchFirst [x4chemical_compound c; x4nucleus])) true true (skip_white x) = None).
    { rewrite run_Group, run_MatchFirst. cbn [first_of].
      rewrite (compound_refuses c KC) by (rewrite skip_idem, X; cbn [app fol]; chars A).
      rewrite nucleus_refuses by (rewrite skip_idem, X; cbn [app fol]; chars A). reflexivity. }
    rewrite H1, none_longer.
    assert (H2 : forall m, forallb qchar m = true ->
       run (Literal m) true true (skip_white x) = None \/
       exists r q u, run (Literal m) true true (skip_white x) = Some (r, q) /\ q = u ++ k /\ forallb qchar u = true).
    { intros m M. destruct (Literal_result m (skip_white x)) as [|(q & NE & E & R)]; [now left|right].
      rewrite skip_idem, X in E. exists [PTok m], q.
      destruct (Nat.le_gt_cases (length m) (length (a :: t))) as [L|L].
      - symmetry in E. destruct (app_longer _ _ _ _ E L) as (u & Eu & Eq). exists u. split; [exact R|].
        split; [exact Eq|]. rewrite Eu, forallb_app in Q. now apply andb_prop in Q as [_ Q].
      - destruct (app_longer _ _ _ _ E) as (u & Eu & Eq); [lia|].
        destruct u as [|d u]; [rewrite app_nil_r in Eu; subst m; lia|].
        rewrite Eq in Kq. cbn [app fol] in Kq. rewrite Eu, forallb_app in M. apply andb_prop in M as [_ M].
        cbn [forallb] in M. apply andb_prop in M as [M _]. now rewrite M in Kq. }
    assert (H3 : forall r1 r2 : presult,
       (r1 = None \/ exists r q u, r1 = Some (r, q) /\ q = u ++ k /\ forallb qchar u = true) ->
       (r2 = None \/ exists r q u, r2 = Some (r, q) /\ q = u ++ k /\ forallb qchar u = true) ->
       (longer r1 r2 = None \/ exists r q u, longer r1 r2 = Some (r, q) /\ q = u ++ k /\ forallb qchar u = true)).
    { intros r1 r2 [->|(r & q & u & -> & P1)] H; [exact H|].
      destruct H as [->|(r' & q' & u' & -> & P2)]; cbn [longer]; [right; exists r, q, u; auto|].
      right. destruct (length q' <? length q); [exists r', q', u'|exists r, q, u]; auto. }
    repeat apply H3; apply H2; reflexivity. }
  destruct R as [->|(r & q & u & -> & -> & U)]; [reflexivity|]. cbn [app and_rest].
  assert (P : run lpar true true (u ++ k) = None); [|now rewrite P].
  apply (Suppress_refuses _ _ (Literal_head "("%char [])).
  destruct u as [|d u]; cbn [app].
  - eapply fol_weaken; [|exact K]. intros d D. chars D.
  - cbn [forallb] in U. apply andb_prop in U as [U _].
    assert (W : is_white d = false) by (apply negb_true_iff; chars U).
    rewrite (skip_non _ _ W). cbn [fol]. chars U.
Qed.

Lemma descriptor_refuses : refuses x4reaction_descriptor (fol part_stop).
Proof.
  apply Or_refuses. apply Forall_cons; [|apply Forall_cons; [|apply Forall_nil]].
  - eapply refuses_weaken; [apply Word2_refuses|]. intros k. apply fol_weaken. intros d D. chars D.
  - apply And_refuses; [reflexivity|]. apply Suppress_refuses.
    eapply refuses_weaken; [apply (Literal_head "("%char [])|]. intros k. apply fol_weaken. intros d D. chars D.
Qed.
Lemma descriptor_parses : forall w, quantity_word w -> parses x4reaction_descriptor [w] [PTok w] (nxt part_stop).
Proof.
  intros w (a & t & -> & A & T) s k x S F N. apply letter_alpha in A.
  assert (Q : forallb (alphanum_or "/*+-") t = true).
  { apply forallb_forall. intros d I. rewrite Forall_forall in T. exact (quantity_qchar _ (T d I)). }
  destruct (Word2_parses (alphanum_or "/*+-") (alphanum_or "/*+-") a t (alpha_dark _ A)) with (s := s) (k := k) (x := x)
    as (k' & E & N'); auto.
  { chars A. }
  { apply nxt_fol; [intros d D; chars D|]. eapply nxt_weaken; [|exact F]. intros d D. chars D. }
  exists k'. split; [|exact N']. unfold x4reaction_descriptor. rewrite run_Or. cbn [map fold_left]. rewrite none_longer.
  change (run descr_word true true x) with (run (Word2 (alphanum_or "/*+-") (alphanum_or "/*+-")) true true x).
  rewrite E. assert (R : run (And lpar [descr_word; rpar]) true true x = None); [|now rewrite R].
  apply (And_refuses lpar _ (fol (fun d => negb (Ascii.eqb "("%char d)))); [reflexivity| |].
  - apply Suppress_refuses, (Literal_head "("%char []).
  - destruct (first_token (a :: t) [] s k x a t eq_refl (alpha_dark _ A) S N) as (s' & -> & _). cbn [app fol]. chars A.
Qed.

Definition quantity_of (q : option str) : list str := match q with Some w => [w] | None => [] end.
Lemma part_quantity : forall q, (forall w, q = Some w -> quantity_word w) ->
  parses (reaction_part c) (quantity_of q) (map PTok (quantity_of q)) (nxt part_stop).
Proof.
  intros q Hq s k x S F N.
  assert (A1 : run (Group (x4process c)) true true x = None).
  { rewrite run_Group. destruct q as [w|]; cbn [quantity_of] in S.
    - destruct (Hq w eq_refl) as (a & t & Ew & A & T).
      destruct (first_token w [] s k x a t Ew) as (s' & X & S'); auto.
      { apply alpha_dark, letter_alpha, A. }
      inversion S'; subst s'. rewrite (process_not w k x); auto.
    - inversion S; subst. cbn [app] in N.
      assert (R : run (x4process c) true true x = None); [|now rewrite R].
      apply (And_refuses (x4target c) _ _ eq_refl target_refuses x). rewrite (near_skip _ _ N).
      eapply fol_weaken; [|exact F]. intros d D. chars D. }
  unfold reaction_part. rewrite run_Or. cbn [map fold_left]. rewrite A1, !none_longer.
  destruct q as [w|]; cbn [quantity_of map] in *.
  - apply (ZeroOrMore_parses x4reaction_descriptor (fol part_stop) [([w], [PTok w])] descriptor_refuses) with (s := s); auto.
    destruct (Hq w eq_refl) as (a & t & Ew & A & T).
    apply chain_cons with (F := nxt part_stop).
    + exists a, t, []. split; [now rewrite Ew|]. apply alpha_dark, letter_alpha, A.
    + apply descriptor_parses. now apply Hq.
    + intros s0 k0 S0 K0. inversion S0; subst. exact K0.
    + constructor.
  - exact (ZeroOrMore_none _ _ descriptor_refuses s k x S F N).
Qed.

(** * Reactions *)

Definition comma_item (q : option str) : list str * list ptree := (tx "," :: quantity_of q, map PTok (quantity_of q)).

Lemma reaction_parses : forall r, good_reaction (c_particles c) r ->
  parses (x4reaction c) (reaction_tokens r) (reaction_tree r) any.
Proof.
  intros r G. unfold reaction_tokens, x4reaction, reaction_tree.
  apply (parses_And lpar _ [tx "("] [] any); [reflexivity|apply lpar_parses| |exact (fun _ _ _ _ => I)].
  unfold delimited. cbn [app].
  assert (NX : forall s k, spaced (flat_map quantity_tokens (rc_quantities r) ++ [tx ")"]) s -> nxt part_stop (s ++ k)).
  { intros s k S. destruct (rc_quantities r) as [|q l]; cbn [flat_map app] in S.
    - eapply nxt_spaced; [exact S|reflexivity|reflexivity].
    - unfold quantity_tokens in S at 1. cbn [app] in S. eapply nxt_spaced; [exact S|reflexivity|reflexivity]. }
  apply (rest_cons (reaction_part c) _ (process_tokens r) [PGroup (process_tree r)] (nxt part_stop)
           (flat_map quantity_tokens (rc_quantities r) ++ [tx ")"]) (map PTok (quantities r))).
  - apply part_process, G.
  - set (items := map comma_item (rc_quantities r)).
    assert (E1 : flat_map quantity_tokens (rc_quantities r) = concat (map fst items)).
    { unfold items. rewrite map_map, flat_map_concat_map. f_equal. }
    assert (E2 : map PTok (quantities r) = concat (map snd items)).
    { unfold items, quantities. rewrite map_map, flat_map_concat_map, concat_map, map_map. f_equal. }
    rewrite E1, E2. rewrite <- (app_nil_r (concat (map snd items))).
    apply (rest_cons (ZeroOrMore (And (Suppress (Literal (lit ","))) [reaction_part c])) [rpar] _ _
             (fun k => fol (fun d => Ascii.eqb d ")"%char) (skip_white k)) [tx ")"] [] any).
    + apply ZeroOrMore_parses.
      * apply And_refuses; [reflexivity|]. apply Suppress_refuses.
        eapply refuses_weaken; [apply (Literal_head ","%char [])|]. intros k. apply fol_weaken. intros d D. chars D.
      * apply (chain_uniform _ (nxt part_stop)).
        -- unfold items. rewrite Forall_map, Forall_forall. intros q Iq. cbn [comma_item fst snd]. split.
           ++ exists ","%char, [], (quantity_of q). split; reflexivity.
           ++ apply (parses_And (Suppress (Literal (lit ","))) [reaction_part c] [tx ","] [] any (quantity_of q)
                       (map PTok (quantity_of q))); [reflexivity|apply comma_parses| |exact (fun _ _ _ _ => I)].
              apply rest_one, part_quantity. intros w ->. destruct G as (_ & _ & _ & _ & Gq). exact (Gq w Iq).
        -- intros k. apply fol_weaken. intros d D. chars D.
        -- intros i s k Ii S. unfold items in Ii. apply in_map_iff in Ii as (q & <- & _). cbn [comma_item fst] in S.
           eapply nxt_spaced; [exact S|reflexivity|reflexivity].
    + apply rest_one, rpar_parses.
    + intros s k S _. eapply nxt_spaced; [exact S|reflexivity|reflexivity].
  - intros s k S _. now apply NX.
Qed.

End Keys.
