(** Reactions to several states of the residual nucleus are taken apart. *)
From Coq Require Import String List Ascii NArith ZArith Bool Arith Lia.
From Verif.Model Require Import Py Dicts Particle Reaction Field Pyparsing Grammars.
From Verif.Spec Require Import Text Codes General Nuclear Balance Known GeneralKnown IsomerMath.
From Verif.Proofs Require Import StrLemmas NumLemmas IntLemmas DictLemmas ReactionLemmas ParseLemmas GrammarLemmas GrammarCodes GrammarReactions GrammarGeneral GrammarFields BalanceLemmas RoundtripLemmas KnownLemmas GeneralLemmas.
Import ListNotations.
Local Open Scope string_scope.
Local Open Scope list_scope.
Local Open Scope nat_scope.

(** ** The isomer part is recognised *)
Definition is_M (i : isomer) : bool := Ascii.eqb (i_letter i) "M".
Lemma count_M : forall l, length (filter is_M l) <= length (filter (str_eqb (lit "M")) (flat_map isomer_tokens l)).
Proof.
  induction l as [|i l IH]; [cbn; lia|].
  change (flat_map isomer_tokens (i :: l)) with ([i_op i] :: [i_letter i] :: (number_tokens (i_number i) ++ flat_map isomer_tokens l)).
  assert (K : length (filter is_M l) <= length (filter (str_eqb (lit "M")) (number_tokens (i_number i) ++ flat_map isomer_tokens l))).
  { rewrite filter_app, app_length. lia. }
  assert (L : str_eqb (lit "M") [i_letter i] = Ascii.eqb (i_letter i) "M").
  { destruct (Ascii.eqb (i_letter i) "M") eqn:E; [apply Ascii.eqb_eq in E; rewrite E; reflexivity|].
    apply not_true_iff_false. intros H. apply str_eqb_eq in H. assert (i_letter i = "M"%char) by (change (lit "M") with ["M"%char] in H; congruence).
    rewrite H0 in E. discriminate. }
  cbn [filter]. rewrite L. unfold is_M at 1. destruct (str_eqb (lit "M") [i_op i]), (Ascii.eqb (i_letter i) "M"); cbn [length]; lia.
Qed.
Lemma filter_two : forall (A : Type) (f : A -> bool) l a b x y, a <> b -> nth_error l a = Some x -> nth_error l b = Some y -> f x = true -> f y = true ->
  2 <= length (filter f l).
Proof.
  intros A f l. assert (ONE : forall l b y, nth_error l b = Some y -> f y = true -> 1 <= length (filter f l)).
  { induction l0 as [|z l0 IH]; intros b y H F; [destruct b; discriminate|]. destruct b as [|b]; cbn [nth_error] in H; cbn [filter].
    - assert (z = y) by congruence. subst. rewrite F. cbn [length]. lia.
    - specialize (IH b y H F). destruct (f z); cbn [length]; lia. }
  induction l as [|z l IH]; intros a b x y N Ha Hb Fx Fy; [destruct a; discriminate|].
  destruct a as [|a], b as [|b]; cbn [nth_error] in Ha, Hb; cbn [filter]; [now contradiction N| | |].
  - assert (z = x) by congruence. subst. rewrite Fx. cbn [length]. specialize (ONE l b y Hb Fy). lia.
  - assert (z = y) by congruence. subst. rewrite Fy. cbn [length]. specialize (ONE l a x Ha Fx). lia.
  - assert (NE : a <> b) by congruence. specialize (IH a b x y NE Ha Hb Fx Fy). destruct (f z); cbn [length]; lia.
Qed.
Lemma letter_token : forall l a i, nth_error l a = Some i -> In [i_letter i] (flat_map isomer_tokens l).
Proof. intros l a i H. apply in_flat_map. exists i. split; [eapply nth_error_In; eauto|]. right. now left. Qed.

Lemma states_math : forall i l, good_isomer i -> several_states (i :: l) ->
  isomer_math ([i_letter i] :: number_tokens (i_number i) ++ flat_map isomer_tokens l) = true.
Proof.
  intros i l (GO & _) (a & b & x & y & N & Ha & Hb & Lx & Ly).
  set (mods := [i_letter i] :: number_tokens (i_number i) ++ flat_map isomer_tokens l).
  assert (M : flat_map isomer_tokens (i :: l) = [i_op i] :: mods) by reflexivity.
  assert (OP : forall s : string, In s ["M"; "G"; "T"] -> [i_op i] <> lit s).
  { intros s Is Q. cbn [In] in Is. cbn [tx list_ascii_of_string In] in GO.
    destruct GO as [E|[E|[E|[E|[]]]]]; rewrite <- E in Q; destruct Is as [<-|[<-|[<-|[]]]]; discriminate Q. }
  assert (T : forall s : string, In s ["M"; "G"; "T"] -> In (lit s) (flat_map isomer_tokens (i :: l)) -> smem (lit s) mods = true).
  { intros s Is I. apply smem_In. rewrite M in I. destruct I as [I|I]; [exfalso; exact (OP s Is I)|exact I]. }
  pose proof (letter_token _ _ _ Ha) as Ix. pose proof (letter_token _ _ _ Hb) as Iy. rewrite Lx in Ix.
  assert (TM : smem (lit "M") mods = true) by (apply T; [now left|exact Ix]).
  unfold isomer_math. rewrite TM. cbn [tx list_ascii_of_string In] in Ly. destruct Ly as [E|[E|[E|[]]]].
  - apply orb_true_iff. right. apply Nat.ltb_lt.
    assert (C : 2 <= length (filter is_M (i :: l))).
    { eapply filter_two; eauto; unfold is_M; [rewrite Lx|rewrite <- E]; reflexivity. }
    pose proof (Nat.le_trans _ _ _ C (count_M (i :: l))) as K. rewrite M in K. cbn [filter] in K.
    replace (str_eqb (lit "M") [i_op i]) with false in K; [lia|]. symmetry. apply not_true_iff_false. intros Q. apply str_eqb_eq in Q.
    apply (OP "M"); [now left|now symmetry].
  - rewrite <- E in Iy. rewrite (T "G") by (auto; right; now left). reflexivity.
  - rewrite <- E in Iy. rewrite (T "T") by (auto; right; right; now left). now rewrite orb_true_r.
Qed.

(** ** Taking the states apart *)
Section Apart.
Context (r : gcode) (n : nuclide) (q : list ascii).

Definition apart_tokens : list (list ascii) :=
  match n_iso n with
  | [] => []
  | i :: l => general_tokens (single r n q i) ++ flat_map (fun j => [i_op j] :: general_tokens (single r n q j)) l
  end.
Definition prefix : list str := [n_Z n; n_sym n; n_A n].
Definition parts (i : isomer) : list str := prefix ++ [[i_letter i] ++ i_number i].

Definition few (i : isomer) : Prop := i_number i = [] \/ exists d, i_number i = [d] /\ In d (tx "012345").
Lemma letter_not_op : forall i, good_isomer i ->
  smem [i_letter i] (map lit ["-"; "+"; "="; "/"; "//"]) = false /\ smem [i_letter i] (map lit ["0"; "1"; "2"; "3"; "4"; "5"]) = false.
Proof.
  intros i (_ & GL & _). cbn [tx list_ascii_of_string In] in GL.
  repeat (destruct GL as [<-|GL]; [split; reflexivity|]). destruct GL.
Qed.
Lemma number_step : forall i things acc, few i ->
  resid_loop prefix (number_tokens (i_number i) ++ things) (acc ++ [inl (prefix ++ [[i_letter i]])]) =
  resid_loop prefix things (acc ++ [inl (parts i)]).
Proof.
  intros i things acc [E|(d & E & I)]; unfold parts; rewrite E; [cbn [number_tokens app]; reflexivity|].
  cbn [number_tokens app]. cbn [resid_loop].
  assert (O : smem [d] (map lit ["-"; "+"; "="; "/"; "//"]) = false /\ smem [d] (map lit ["0"; "1"; "2"; "3"; "4"; "5"]) = true).
  { cbn [tx list_ascii_of_string In] in I. repeat (destruct I as [<-|I]; [split; reflexivity|]). destruct I. }
  destruct O as [-> ->]. rewrite rev_app_distr. cbn [rev app]. rewrite rev_involutive. reflexivity.
Qed.
Lemma loop_apart : forall l acc, Forall good_isomer l -> Forall few l -> Forall (fun i => In (i_op i) (tx "+-/")) l ->
  resid_loop prefix (flat_map isomer_tokens l) acc = Ok (acc ++ flat_map (fun i => [inr [i_op i]; inl (parts i)]) l).
Proof.
  induction l as [|i l IH]; intros acc G F O; [cbn; now rewrite app_nil_r|].
  inversion G; inversion F; inversion O as [|? ? Oi Ol]; subst. cbn [flat_map]. unfold isomer_tokens at 1. cbn [app resid_loop].
  assert (E : smem [i_op i] (map lit ["-"; "+"; "="; "/"; "//"]) = true).
  { cbn [tx list_ascii_of_string In] in Oi. repeat (destruct Oi as [<-|Oi]; [reflexivity|]). destruct Oi. }
  rewrite E. destruct (letter_not_op i) as [-> ->]; [assumption|]. rewrite number_step by assumption. rewrite IH by assumption.
  now rewrite <- !app_assoc.
Qed.

Lemma concat_number : forall s, concat (number_tokens s) = s.
Proof. intros [|d s]; cbn [number_tokens concat]; [reflexivity|]. now rewrite app_nil_r. Qed.
Lemma parts_text : forall i, join (lit "-") (parts i) = concat (nuclide_tokens (alone n i)).
Proof.
  intros i. unfold parts, prefix, nuclide_tokens, alone. cbn [n_Z n_sym n_A n_iso app flat_map join isomer_tokens i_op i_letter i_number].
  cbn [concat]. rewrite app_nil_r, concat_number. reflexivity.
Qed.

(** The text of the target, the projectile and the products. *)
Definition reaction_text_of (targ proj proc quant : str) (p : list str + str) : str :=
  match p with
  | inl parts => lit "(" ++ targ ++ lit "(" ++ proj ++ lit "," ++ proc ++ lit ")" ++ join (lit "-") parts ++ lit "," ++ quant ++ lit ")"
  | inr s => s
  end.
Lemma concat_single : forall proc i, concat (separated (tx "+") (map outgoing_tokens (gc_products r))) = proc ->
  concat (general_tokens (single r n q i)) =
  reaction_text_of (concat (spot_tokens (gc_target r))) (concat (code_tokens (gc_projectile r))) proc (tx "," ++ q) (inl (parts i)).
Proof.
  intros proc i P. unfold reaction_text_of. rewrite parts_text. unfold general_tokens, gprocess_tokens, single. 
  cbn [gc_target gc_projectile gc_products gc_residual gc_quantities spot_tokens flat_map].
  rewrite !concat_app, P. cbn [concat part_tokens flat_map remark_tokens app]. rewrite !app_nil_r.
  change (lit "(") with (tx "("). change (lit ")") with (tx ")"). change (lit ",") with (tx ","). rewrite <- !app_assoc. reflexivity.
Qed.

Lemma target_text :
  match gc_target r with Nucleus t => n_iso t = [] \/ exists i, n_iso t = [i] /\ i_op i = "-"%char | Compound _ => True | Sum _ => False end ->
  (let t := spot_tree (gc_target r) in
   if 3 <? tree_len t then
     match t with
     | PGroup l => a <- join_toks (lit "-") (firstn 3 l) ;; b <- join_toks [] (skipn 4 l) ;; Ok (a ++ lit "-" ++ b)
     | PTok s => a <- join_tree (lit "-") (PTok (firstn 3 s)) ;; Ok (a ++ lit "-" ++ skipn 4 s)
     end
   else join_tree (lit "-") t) = Ok (concat (spot_tokens (gc_target r))).
Proof.
  intros H. destruct (gc_target r) as [t|k|w]; [|cbn; now rewrite app_nil_r|destruct H]. cbv zeta. cbn [spot_tree spot_tokens].
  unfold nuclide_tree, nuclide_tokens. destruct H as [E|(i & E & O)]; rewrite E; cbn [flat_map app].
  - cbn. now rewrite app_nil_r.
  - rewrite app_nil_r. unfold isomer_tokens. rewrite O. cbn [map app tree_len length].
    change (3 <? S (S (S (S (S (length (map PTok (number_tokens (i_number i))))))))) with true. cbv iota. cbn [firstn skipn].
    change [PTok (n_Z t); PTok (n_sym t); PTok (n_A t)] with (map PTok [n_Z t; n_sym t; n_A t]).
    rewrite join_toks_ok. cbn [bind]. change (PTok [i_letter i] :: map PTok (number_tokens (i_number i))) with (map PTok ([i_letter i] :: number_tokens (i_number i))).
    rewrite join_toks_ok. cbn [bind]. f_equal.
    assert (J : join [] ([i_letter i] :: number_tokens (i_number i)) = [i_letter i] ++ i_number i) by (destruct (i_number i); reflexivity).
    rewrite J. cbn [join concat]. rewrite concat_number. rewrite <- !app_assoc. reflexivity.
Qed.
Lemma projectile_text : good_projectile (gc_projectile r) ->
  match gc_projectile r with CNuclide p => n_iso p = [] | _ => True end ->
  (let j := code_tree (gc_projectile r) in match j with PTok s => Ok s | PGroup _ => join_tree (lit "-") j end) = Ok (concat (code_tokens (gc_projectile r))).
Proof.
  intros G H. destruct (gc_projectile r) as [p|w|k w]; [| |destruct G]; cbv zeta; cbn [code_tree code_tokens].
  - unfold nuclide_tree, nuclide_tokens. rewrite H. cbn. now rewrite app_nil_r.
  - cbn. now rewrite app_nil_r.
Qed.
Definition easy (o : outgoing) : Prop := match o with Out (CWord _) | Out (CMany _ _) => True | _ => False end.
Lemma products_text : forall l, Forall easy l ->
  exists ps, map_res (fun p => match p with PTok s => Ok s | PGroup _ => join_tree [] p end) (flat_map outgoing_trees l) = Ok ps /\
    join (lit "+") ps = concat (separated (tx "+") (map outgoing_tokens l)) /\ length ps = length l.
Proof.
  induction l as [|o l IH]; intros F; [exists []; auto|]. inversion F as [|? ? Fo Fl]; subst. destruct (IH Fl) as (ps & E & J & L).
  exists (concat (outgoing_tokens o) :: ps). split; [|split; [|cbn; now rewrite L]].
  - destruct o as [[m|w|k w]|w]; try destruct Fo; cbn [flat_map outgoing_trees code_tree app map_res outgoing_tokens code_tokens].
    + rewrite E. cbn. now rewrite app_nil_r.
    + cbn [join_tree]. change [PTok k; PTok w] with (map PTok [k; w]). rewrite join_toks_ok. cbn [bind]. rewrite E. cbn [bind join concat app]. now rewrite app_nil_r.
  - cbn [map]. destruct ps as [|p ps], l as [|o' l]; try discriminate L; [reflexivity|]. cbn [join]. cbn [join] in J. rewrite J.
    cbn [separated map]. rewrite concat_app. reflexivity.
Qed.
End Apart.

Lemma repack_apart : forall particles compounds r n q x, good_general particles compounds r -> state_math r n q ->
  x = [PGroup (general_tree r)] \/ x = general_tree r ->
  repack x = Ok (concat (tx "(" :: apart_tokens r n q ++ [tx ")"])).
Proof.
  intros particles compounds r n q x (GT & GJ & _ & GR & GQ) [R S O N T J P (more & Q) _] X.
  assert (X' : match x with [PGroup l] => Ok l | [PTok s] => Ok (map (fun c => PTok [c]) s) | _ => Ok x end = Ok (general_tree r)).
  { unfold general_tree in *. rewrite Q in *. cbn [map] in *. destruct X as [->| ->]; reflexivity. }
  unfold repack. rewrite X'. cbn [bind]. unfold general_tree. rewrite Q. cbn [map idx nth_error of_option bind].
  assert (NC : cmem ","%char q = false).
  { apply not_true_iff_false. intros H. apply existsb_exists in H. destruct H as (d & I & E). apply Ascii.eqb_eq in E. subst d.
    assert (IQ : In q (general_quantities r)) by (rewrite Q; now left). unfold general_quantities in IQ. apply in_flat_map in IQ.
    destruct IQ as (g & Ig & Im). apply in_map_iff in Im. destruct Im as (m & <- & Im). rewrite Forall_forall in GQ.
    destruct (GQ g Ig) as (GW & _). destruct (GW m Im) as [_ F]. rewrite Forall_forall in F. specialize (F _ I).
    destruct F as [F|[F|F]]; [apply letter_alpha in F; discriminate| |cbn in F; intuition discriminate]. unfold digit in F. vm_compute in F. now destruct F. }
  rewrite NC.
  unfold gprocess_tree. rewrite R.
  set (prods := flat_map outgoing_trees (gc_products r)).
  cbn [idx nth_error of_option bind]. 
  pose proof (target_text r T) as TT. cbv zeta in TT. rewrite TT. cbn [bind].
  pose proof (projectile_text r GJ J) as TJ. cbv zeta in TJ. rewrite TJ. cbn [bind].
  destruct (products_text (gc_products r) P) as (ps & TP & JP & _).
  change (skipn 2 (spot_tree (gc_target r) :: code_tree (gc_projectile r) :: prods ++ [spot_tree (Nucleus n)])) with (prods ++ [spot_tree (Nucleus n)]).
  destruct (last_of_snoc _ prods (spot_tree (Nucleus n))) as [L B]. rewrite B. fold prods in TP. rewrite TP. cbn [bind].
  destruct (last_of_snoc _ (spot_tree (gc_target r) :: code_tree (gc_projectile r) :: prods) (spot_tree (Nucleus n))) as [L' _]. cbn [app] in L'. rewrite L'. cbn [bind].
  cbn [spot_tree]. unfold nuclide_tree.
  match goal with |- context [map_res ?f (map PTok ?l)] => assert (M : map_res f (map PTok l) = Ok l) end.
  { generalize ([n_Z n; n_sym n; n_A n] ++ flat_map isomer_tokens (n_iso n)). induction l as [|t l IH]; [reflexivity|]. cbn [map map_res]. rewrite IH. reflexivity. }
  rewrite M. cbn [bind].
  assert (GN : Forall good_isomer (n_iso n)) by (destruct (GR _ R) as (_ & _ & GN & _); exact GN).
  unfold apart_tokens. destruct (n_iso n) as [|i l] eqn:EI; [destruct S as ([|a] & b & x' & y & _ & H & _); discriminate H|].
  inversion GN as [|? ? Gi Gl]; subst. inversion N as [|? ? Ni Nl]; subst. cbn [tl] in O.
  cbn [flat_map isomer_tokens app idx nth_error of_option bind firstn skipn].
  change [n_Z n; n_sym n; n_A n] with (prefix n). change (n_Z n :: n_sym n :: n_A n :: [[i_letter i]]) with (prefix n ++ [[i_letter i]]).
  pose proof (number_step n i (flat_map isomer_tokens l) [] Ni) as NS. cbn [app] in NS. 
  change [n_Z n; n_sym n; n_A n; [i_letter i]] with (prefix n ++ [[i_letter i]]) in *.
  rewrite NS. rewrite (loop_apart n l [inl (parts n i)] Gl Nl O). cbn [bind].
  f_equal. cbn [concat]. rewrite concat_app. cbn [concat]. rewrite app_nil_r.
  match goal with |- context [map ?f _] => change f with (reaction_text_of (concat (spot_tokens (gc_target r))) (concat (code_tokens (gc_projectile r))) (join (lit "+") ps) (tx "," ++ q)) end.
  symmetry in JP. rewrite concat_app, (concat_single r n q _ i JP). cbn [app map concat]. change (lit "(") with (tx "("). change (lit ")") with (tx ")").
  f_equal. f_equal. f_equal. clear - JP. induction l as [|j l IH]; [reflexivity|]. cbn [flat_map app map concat]. rewrite concat_app, IH, (concat_single r n q _ j JP). reflexivity.
Qed.

(** ** The rebuilt text is a combination *)
Lemma quantity_good : forall r q, Forall good_part (gc_quantities r) -> In q (general_quantities r) -> nonempty quantity_char q.
Proof.
  intros r q GQ IQ. unfold general_quantities in IQ. apply in_flat_map in IQ. destruct IQ as (g & Ig & Im). apply in_map_iff in Im. destruct Im as (m & <- & Im).
  rewrite Forall_forall in GQ. destruct (GQ g Ig) as (GW & _). now apply GW.
Qed.
Lemma good_single : forall particles compounds r n q i, good_general particles compounds r -> state_math r n q -> In i (n_iso n) ->
  good_general particles compounds (single r n q i).
Proof.
  intros particles compounds r n q i (GT & GJ & GP & GR & GQ) SM I. destruct (GR _ (sm_residual _ _ _ SM)) as (GZ & GA & GI & GS).
  unfold good_general, single. cbn [gc_target gc_projectile gc_products gc_residual gc_quantities].
  split; [exact GT|]. split; [exact GJ|]. split; [exact GP|]. split.
  - intros x Q. assert (x = Nucleus (alone n i)) by congruence. subst x. cbn [good_spot]. unfold good_nuclide, alone. cbn [n_Z n_sym n_A n_iso].
    split; [exact GZ|]. split; [exact GA|]. split; [|exact GS]. constructor; [|constructor]. rewrite Forall_forall in GI. destruct (GI i I) as (_ & L & D).
    split; [cbn; tauto|]. split; assumption.
  - destruct (sm_quantity _ _ _ SM) as (more & Q). constructor; [|constructor; [|constructor]].
    + split; [intros m []|]. intros a u v b E. destruct a; discriminate.
    + split.
      * intros m [<-|[]]. cbn [remark_word]. apply (quantity_good r); [exact GQ|]. rewrite Q. now left.
      * intros a u v b E. destruct a as [|? [|? a]]; discriminate.
Qed.

Section Flat.
Variable reaction : list (list ascii) -> list ptree -> Prop.
(** An expression that ends in a term. *)
Definition ending (ts : list (list ascii)) (l : list ptree) : Prop :=
  cterm reaction ts l \/
  exists op ts1 l1 ts2 l2, In op [tx "+"; tx "-"] /\ cexpr reaction ts1 l1 /\ cterm reaction ts2 l2 /\ ts = ts1 ++ op :: ts2 /\ l = l1 ++ PTok op :: l2.
Lemma ending_expr : forall ts l, ending ts l -> cexpr reaction ts l.
Proof. intros ts l [H|(op & ts1 & l1 & ts2 & l2 & I & E & T & -> & ->)]; [now apply ce_term|now apply ce_plus]. Qed.
Lemma ending_step : forall ts l op ts' l', ending ts l -> In op (tx "+-/") -> reaction ts' l' -> ending (ts ++ [op] :: ts') (l ++ [PTok [op]; PGroup l']).
Proof.
  intros ts l op ts' l' E I R.
  assert (F : cfactor reaction ts' [PGroup l']) by now constructor.
  assert (C : In [op] [tx "+"; tx "-"] \/ [op] = tx "/").
  { cbn [tx list_ascii_of_string In] in I. destruct I as [<-|[<-|[<-|[]]]]; [left; now left|left; right; now left|right; reflexivity]. }
  destruct C as [C|C].
  - right. exists [op], ts, l, ts', [PGroup l']. split; [exact C|]. split; [now apply ending_expr|]. split; [now apply ct_factor|]. auto.
  - assert (M : In [op] [tx "*"; tx "//"; tx "/"; tx "="]) by (rewrite C; right; right; now left).
    destruct E as [T|(op1 & ts1 & l1 & ts2 & l2 & I1 & E & T & -> & ->)].
    + left. exact (ct_times _ [op] ts l ts' [PGroup l'] M T F).
    + right. exists op1, ts1, l1, (ts2 ++ [op] :: ts'), (l2 ++ [PTok [op]; PGroup l']). split; [exact I1|]. split; [exact E|].
      split; [exact (ct_times _ [op] ts2 l2 ts' [PGroup l'] M T F)|]. rewrite <- !app_assoc. auto.
Qed.
Lemma flat_expr : forall (A : Type) (op : A -> ascii) (tokens : A -> list (list ascii)) (tree : A -> list ptree) js ts l,
  ending ts l -> Forall (fun j => In (op j) (tx "+-/")) js -> Forall (fun j => reaction (tokens j) (tree j)) js ->
  ending (ts ++ flat_map (fun j => [op j] :: tokens j) js) (l ++ flat_map (fun j => [PTok [op j]; PGroup (tree j)]) js).
Proof.
  intros A op tokens tree js. induction js as [|j js IH]; intros ts l E O R; [cbn; now rewrite !app_nil_r|].
  inversion O as [|? ? Oj Ojs]; inversion R as [|? ? Rj Rjs]; subst.
  pose proof (IH _ _ (ending_step _ _ _ _ _ E Oj Rj) Ojs Rjs) as H. rewrite <- !app_assoc in H. exact H.
Qed.
End Flat.

Lemma apart_expr : forall particles compounds r n q, good_general particles compounds r -> state_math r n q ->
  cexpr (written particles compounds) (apart_tokens r n q) (states_apart r n q).
Proof.
  intros particles compounds r n q G SM. assert (W : forall i, In i (n_iso n) -> written particles compounds (general_tokens (single r n q i)) (general_tree (single r n q i))).
  { intros i I. exists (single r n q i). split; [now apply good_single|auto]. }
  pose proof (sm_operators _ _ _ SM) as O. pose proof (sm_states _ _ _ SM) as (a & b & x & y & _ & HA & _).
  unfold apart_tokens, states_apart. destruct (n_iso n) as [|i l]; [destruct a; discriminate HA|]. cbn [tl] in O.
  apply ending_expr. change (PGroup (general_tree (single r n q i)) :: ?u) with ([PGroup (general_tree (single r n q i))] ++ u).
  apply (flat_expr _ _ i_op (fun j => general_tokens (single r n q j)) (fun j => general_tree (single r n q j))); [|exact O|].
  - left. apply ct_factor. apply cf_reaction. apply W. now left.
  - apply Forall_forall. intros j I. apply W. now right.
Qed.

Definition tabless (s : list ascii) : Prop := Forall (fun d => d <> ascii_of_N 9) s.
Lemma spaced_concat : forall ts, spaced ts (concat ts).
Proof. induction ts as [|t ts IH]; [constructor|]. cbn [concat]. apply (spaced_cons [] t ts (concat ts)); [constructor|exact IH]. Qed.
Lemma digits_tabless : forall s, Forall digit s -> tabless s.
Proof. intros s F. eapply Forall_impl; [|exact F]. exact digit_not_tab. Qed.
Lemma word_tabless : forall s, word s -> tabless s.
Proof. intros s (a & b & -> & [_ A] & B). apply Forall_app. split; [eapply Forall_impl; [|exact A]; exact letter_not_tab|now apply digits_tabless]. Qed.
Lemma nuclide_tabless : forall n, good_nuclide n -> Forall tabless (nuclide_tokens n).
Proof.
  intros n ((_ & Z) & (_ & A) & I & (a & t & S & CA & CT)). unfold nuclide_tokens. apply Forall_app. split.
  - constructor; [now apply digits_tabless|]. constructor; [repeat constructor; discriminate|]. constructor.
    + rewrite S. constructor; [apply letter_not_tab; now left|]. destruct CT as [->|(d & -> & D)]; [constructor|]. constructor; [now apply letter_not_tab|constructor].
    + constructor; [repeat constructor; discriminate|]. constructor; [now apply digits_tabless|constructor].
  - apply Forall_forall. intros t' It. apply in_flat_map in It. destruct It as (i & Ii & It). rewrite Forall_forall in I. destruct (I i Ii) as (O & L & D).
    unfold isomer_tokens in It. destruct It as [<-|[<-|It]].
    + constructor; [|constructor]. intros Q. rewrite Q in O. cbn in O. intuition discriminate.
    + constructor; [|constructor]. intros Q. rewrite Q in L. cbn in L. intuition discriminate.
    + destruct (i_number i); [destruct It|]. destruct It as [<-|[]]. now apply digits_tabless.
Qed.
Section Reading.
Context (c : codes) (KP : Forall particle_key (c_particles c)) (KC : Forall compound_key (c_compounds c)).

Lemma spot_tabless : forall x, good_spot residual_sums (c_compounds c) x -> Forall tabless (spot_tokens x).
Proof.
  intros [n|k|w] G; cbn [good_spot spot_tokens] in *; [now apply nuclide_tabless| |].
  - constructor; [|constructor]. assert (Q := compound_chars c KC k G). rewrite forallb_forall in Q. apply Forall_forall. intros d I E. subst d. specialize (Q _ I). discriminate Q.
  - constructor; [|constructor]. unfold residual_sums, target_sums in G. cbn [app In] in G. destruct G as [<-|[<-|[<-|[<-|[]]]]]; repeat constructor; discriminate.
Qed.
Lemma product_tabless : forall x, good_product (c_particles c) x -> Forall tabless (code_tokens x).
Proof.
  intros [n|w|k w] G; cbn [good_product code_tokens] in *; [now apply nuclide_tabless| |].
  - constructor; [now apply word_tabless|constructor].
  - destruct G as ((_ & D) & W). constructor; [now apply digits_tabless|]. constructor; [now apply word_tabless|constructor].
Qed.
Lemma separated_tabless : forall l, Forall (Forall tabless) l -> Forall tabless (separated (tx "+") l).
Proof.
  induction l as [|x l IH]; intros F; [constructor|]. inversion F; subst. destruct l as [|y l]; [assumption|].
  change (separated (tx "+") (x :: y :: l)) with (x ++ tx "+" :: separated (tx "+") (y :: l)). apply Forall_app. split; [assumption|].
  constructor; [repeat constructor; discriminate|]. now apply IH.
Qed.
Lemma general_tabless : forall r, good_general (c_particles c) (c_compounds c) r -> Forall tabless (general_tokens r).
Proof.
  intros r (GT & GJ & (_ & GP & _) & GR & GQ).
  assert (ONE : forall s : string, In s ["("; ")"; ","; "X"] -> Forall tabless [tx s]).
  { intros s I. cbn [In] in I. destruct I as [<-|[<-|[<-|[<-|[]]]]]; repeat constructor; discriminate. }
  unfold general_tokens, gprocess_tokens. repeat (apply Forall_app; split); try (apply ONE; cbn; tauto).
  - apply spot_tabless. now apply target_residual.
  - destruct (gc_projectile r) as [m|w|k w]; [now apply nuclide_tabless| |destruct GJ]. constructor; [|constructor].
    destruct GJ as [W| ->]; [now apply word_tabless|repeat constructor; discriminate].
  - apply separated_tabless. apply Forall_forall. intros t I. apply in_map_iff in I. destruct I as (o & <- & I). rewrite Forall_forall in GP. specialize (GP o I).
    destruct o as [x|w]; cbn [outgoing_tokens good_outgoing] in *; [destruct GP as [GP| ->]; [now apply product_tabless|repeat constructor; discriminate]|]. destruct GP as (_ & W & _).
    constructor; [repeat constructor; discriminate|]. constructor; [now apply word_tabless|constructor].
  - destruct (gc_residual r) as [x|]; [|constructor]. apply spot_tabless. now apply GR.
  - apply Forall_forall. intros t I. apply in_flat_map in I. destruct I as (g & Ig & It). rewrite Forall_forall in GQ. destruct (GQ g Ig) as (GW & _).
    destruct It as [<-|It]; [repeat constructor; discriminate|]. apply in_flat_map in It. destruct It as (m & Im & It).
    assert (W : tabless (remark_word m)).
    { destruct (GW m Im) as (_ & F). eapply Forall_impl; [|exact F]. intros d [L|[L|L]]; [now apply letter_not_tab|now apply digit_not_tab|].
      intros ->. cbn in L. intuition discriminate. }
    destruct m as [w|w]; cbn [remark_tokens remark_word] in *; [destruct It as [<-|[]]; exact W|].
    destruct It as [<-|[<-|[<-|[]]]]; [|exact W|]; repeat constructor; discriminate.
Qed.
Lemma apart_tabless : forall r n q, good_general (c_particles c) (c_compounds c) r -> state_math r n q -> ~ In (ascii_of_N 9) (concat (tx "(" :: apart_tokens r n q ++ [tx ")"])).
Proof.
  intros r n q G SM.
  assert (A : Forall tabless (tx "(" :: apart_tokens r n q ++ [tx ")"])).
  { constructor; [repeat constructor; discriminate|]. apply Forall_app. split; [|repeat constructor; discriminate].
    assert (W : forall i, In i (n_iso n) -> Forall tabless (general_tokens (single r n q i))) by (intros i I; apply general_tabless; now apply good_single).
    pose proof (sm_operators _ _ _ SM) as O. unfold apart_tokens. destruct (n_iso n) as [|i l]; [constructor|]. cbn [tl] in O. apply Forall_app. split; [apply W; now left|].
    apply Forall_forall. intros t I. apply in_flat_map in I. destruct I as (j & Ij & I). destruct I as [<-|I].
    - rewrite Forall_forall in O. specialize (O j Ij). constructor; [|constructor]. intros Q. rewrite Q in O. cbn in O. intuition discriminate.
    - assert (F : Forall tabless (general_tokens (single r n q j))) by (apply W; now right). rewrite Forall_forall in F. now apply F. }
  intros I. apply in_concat in I. destruct I as (t & It & I). rewrite Forall_forall in A. specialize (A t It). unfold tabless in A. rewrite Forall_forall in A. now apply (A _ I).
Qed.

(** ** What is read *)
Lemma apart_parsed : forall r n q, good_general (c_particles c) (c_compounds c) r -> state_math r n q ->
  g_compound (x4grammars c) (concat (tx "(" :: apart_tokens r n q ++ [tx ")"])) = Some (PTok (tx "(") :: states_apart r n q ++ [PTok (tx ")")]).
Proof.
  intros r n q G SM. set (s := concat (tx "(" :: apart_tokens r n q ++ [tx ")"])).
  pose proof (compound_text c KP KC (tx "(" :: apart_tokens r n q ++ [tx ")"]) (PTok (tx "(") :: states_apart r n q ++ [PTok (tx ")")]) s []) as H.
  rewrite app_nil_r in H. apply H.
  - apply ce_term, ct_factor, cf_paren. now apply apart_expr.
  - apply spaced_concat.
  - intros w d t _ E. destruct w; discriminate.
  - now apply apart_tabless.
Qed.

Lemma states_raise : forall compounds r n q, good_general (c_particles c) (c_compounds c) r -> state_math r n q ->
  X4Reaction (x4grammars c) compounds false (PGroup (general_tree r)) = Raise IsomerMathParsingError.
Proof.
  intros compounds r n q (GT & GJ & (NE & GP & _) & GR & _) SM. destruct (GR _ (sm_residual _ _ _ SM)) as (GZ & GA & GI & GS).
  pose proof (sm_known _ _ _ SM) as K. pose proof (sm_states _ _ _ SM) as S. pose proof S as (a & b & x & y & _ & HA & _).
  destruct (n_iso n) as [|i l] eqn:EI; [destruct a; discriminate HA|]. inversion K as [|? ? [KT KJ KPr _ _] _]; subst.
  cbn [single gc_target gc_projectile gc_products] in KT, KJ, KPr.
  destruct (spot_known c KC _ (target_residual c _ GT) KT) as (T & ET & _).
  destruct (projectile_known c _ GJ KJ) as (J & EJ & _).
  destruct (outgoings_known c _ GP KPr) as (pss & EP & _).
  unfold X4Reaction, general_tree. cbn [bind idx nth_error of_option]. unfold process_of_results.
  unfold gprocess_tree at 1 2. cbn [bind idx nth_error of_option]. rewrite ET. cbn [bind]. rewrite EJ. cbn [bind].
  unfold gprocess_tree. cbn [skipn]. rewrite (sm_residual _ _ _ SM).
  assert (R : setProduct (x4grammars c) false (spot_tree (Nucleus n)) = Raise IsomerMathParsingError).
  { cbn [spot_tree]. unfold nuclide_tree. rewrite EI. cbn [flat_map isomer_tokens app map setProduct setParticleType].
    unfold X4Isomer, nucleus_parts. cbn [bind idx nth_error of_option tok skipn].
    inversion GI as [|? ? Gi _]; subst. pose proof (states_math i l Gi S) as M.
    match goal with |- context [map_res tok ?t] => assert (MT : map_res tok t = Ok ([i_letter i] :: number_tokens (i_number i) ++ flat_map isomer_tokens l)) end.
    { change (PTok [i_letter i] :: map PTok ?u) with (map PTok ([i_letter i] :: u)). generalize ([i_letter i] :: number_tokens (i_number i) ++ flat_map isomer_tokens l).
      induction l0 as [|t l0 IH]; [reflexivity|]. cbn [map map_res tok bind]. rewrite IH. reflexivity. }
    rewrite MT. cbn [bind]. cbn [isomer_loop]. unfold isomer_step at 1. rewrite M. reflexivity. }
  assert (A : forall (A B : Type) (f : A -> res B) u v ys e, map_res f u = Ok ys -> f v = Raise e -> map_res f (u ++ [v]) = Raise e).
  { clear. intros A B f u v. induction u as [|x u IH]; intros ys e E R.
    - cbn [app map_res]. rewrite R. reflexivity.
    - cbn [app map_res] in *. destruct (f x); [|discriminate]. cbn [bind] in *. destruct (map_res f u) as [zs|]; [|discriminate]. rewrite (IH zs e eq_refl R). reflexivity. }
  rewrite (A _ _ _ _ _ _ _ EP R). reflexivity.
Qed.

Lemma states_data : forall depth compounds r n q x, has_names (c_compounds c) compounds -> 0 < depth ->
  good_general (c_particles c) (c_compounds c) r -> state_math r n q -> x = [PGroup (general_tree r)] \/ x = general_tree r ->
  exists data, iso_data depth (x4grammars c) compounds x = Ok (EOp (tx "(") :: data ++ [EOp (tx ")")]) /\
    Forall2 gsaying (states_apart r n q) data /\ Forall (shown c) data.
Proof.
  intros depth compounds r n q x D DP G SM X. destruct depth as [|depth]; [lia|]. cbn [iso_data].
  rewrite (repack_apart _ _ _ _ _ _ G SM X). cbn [bind]. rewrite (apart_parsed r n q G SM). cbn [of_option bind].
  set (f := fun i : ptree => match i with PTok t => _ | PGroup l => _ end).
  assert (EACH : forall p, In p (states_apart r n q) -> exists y, f p = Ok y /\ gsaying p y /\ shown c y).
  { intros p I. assert (ONE : forall i, In i (n_iso n) -> exists y, f (PGroup (general_tree (single r n q i))) = Ok y /\ gsaying (PGroup (general_tree (single r n q i))) y /\ shown c y).
    { intros i Ii. pose proof (sm_known _ _ _ SM) as K. rewrite Forall_forall in K.
      destruct (general_said c KC compounds (single r n q i) (good_single _ _ _ _ _ _ G SM Ii) (K i Ii) D) as (rx & RX & Sx & Hx).
      exists (ERxn rx). split; [|auto]. unfold f. rewrite RX. reflexivity. }
    pose proof (sm_operators _ _ _ SM) as O. unfold states_apart in I. destruct (n_iso n) as [|i l]; [destruct I|]. cbn [tl] in O.
    destruct I as [<-|I]; [apply ONE; now left|]. apply in_flat_map in I. destruct I as (j & Ij & [<-|[<-|[]]]); [|apply ONE; now right].
    exists (EOp [i_op j]). split; [|split; [reflexivity|apply shown_op]]. rewrite Forall_forall in O. specialize (O j Ij).
    cbn [tx list_ascii_of_string In] in O. unfold f. destruct O as [<-|[<-|[<-|[]]]]; reflexivity. }
  assert (ALL : exists data, map_res f (states_apart r n q) = Ok data /\ Forall2 gsaying (states_apart r n q) data /\ Forall (shown c) data).
  { clear - EACH. induction (states_apart r n q) as [|p l IH]; [exists []; auto|].
    destruct (EACH p (or_introl eq_refl)) as (y & E & S & H). destruct IH as (data & E' & S' & H'); [intros p' I; apply EACH; now right|].
    exists (y :: data). split; [cbn [map_res]; rewrite E; cbn [bind]; rewrite E'; reflexivity|]. split; constructor; auto. }
  destruct ALL as (data & E & S & H). exists data. split; [|auto].
  cbn [map_res]. change (f (PTok (tx "("))) with (@Ok element (EOp (tx "("))). cbn [bind].
  rewrite (map_res_app _ _ _ (states_apart r n q) [PTok (tx ")")] data [EOp (tx ")")] E) by reflexivity. reflexivity.
Qed.

Lemma states_text : forall e r n q line text, e_g e = x4grammars c -> has_names (c_compounds c) (e_compounds e) -> 0 < e_depth e ->
  good_general (c_particles c) (c_compounds c) r -> state_math r n q -> in_field (general_tokens r) line text ->
  exists data, reaction_of_text e text = Ok (MIso (EOp (tx "(") :: data ++ [EOp (tx ")")]), PTok line) /\
    Forall2 gsaying (states_apart r n q) data /\ Forall (shown c) data.
Proof.
  intros e r n q line text EG D DP G SM F. unfold reaction_of_text. rewrite EG.
  assert (W : written (c_particles c) (c_compounds c) (general_tokens r) (general_tree r)) by (exists r; auto).
  rewrite (field_read c _ _ line text KP KC (cf_reaction _ _ _ W) F). cbn [of_option bind app].
  destruct (last_of_snoc _ [PGroup (general_tree r)] (PTok line)) as [L B]. cbn [app] in L, B. rewrite L, B.
  destruct (states_data (e_depth e) (e_compounds e) r n q [PGroup (general_tree r)] D DP G SM (or_introl eq_refl)) as (data & E & S & H).
  exists data. split; [|auto].
  unfold getMeasurementType. match goal with |- context [existsb ?f math_symbols] => change (existsb f math_symbols) with false end.
  cbn [idx nth_error of_option bind]. rewrite (states_raise _ r n q G SM). cbn [bind caught]. 
  change (exn_eqb IsomerMathParsingError IsomerMathParsingError) with true. cbv iota. rewrite E. reflexivity.
Qed.

Lemma states_combination : forall e ts l line text, e_g e = x4grammars c -> has_names (c_compounds c) (e_compounds e) -> 0 < e_depth e ->
  cexpr (written (c_particles c) (c_compounds c)) ts l -> in_field (tx "(" :: ts ++ [tx ")"]) line text ->
  (forall q, In (PGroup q) l -> piece_of (c_particles c) (c_compounds c) q) ->
  exists data, reaction_of_text e text = Ok (MComb (EOp (tx "(") :: data ++ [EOp (tx ")")]), PTok line) /\
    Forall2 saying_states l data /\ Forall (shown c) data.
Proof.
  intros e ts l line text EG D DP C F B. unfold reaction_of_text. rewrite EG.
  rewrite (field_read c _ _ line text KP KC (cf_paren _ _ _ C) F). cbn [of_option bind].
  destruct (last_of_snoc _ (PTok (tx "(") :: l ++ [PTok (tx ")")]) (PTok line)) as [-> ->].
  assert (ALL : exists data, map_res (getStrOrX4Reaction (e_depth e) (x4grammars c) (e_compounds e)) l = Ok data /\ Forall2 saying_states l data /\ Forall (shown c) data).
  { pose proof (pieces_symbols _ _ _ C) as S. clear C F. induction l as [|p l IH]; [exists []; auto|].
    destruct IH as (data & E & F2 & PR); [intros q I; apply B; now right|intros op I; apply S; now right|].
    assert (H : exists x, getStrOrX4Reaction (e_depth e) (x4grammars c) (e_compounds e) p = Ok x /\ saying_states p x /\ shown c x).
    { destruct p as [op|q].
      - exists (EOp op). split; [|split; [left; reflexivity|apply shown_op]]. cbn [getStrOrX4Reaction].
        replace (smem op math_symbols) with true; [reflexivity|]. symmetry. apply smem_In, S. now left.
      - destruct (B q (or_introl eq_refl)) as [r G K|r n q G SM].
        + destruct (general_said c KC (e_compounds e) r G K D) as (rx & X & Sx & Hx).
          exists (ERxn rx). split; [|split; [now left|exact Hx]]. cbn [getStrOrX4Reaction]. rewrite X. reflexivity.
        + destruct (states_data (e_depth e) (e_compounds e) r n q (general_tree r) D DP G SM (or_intror eq_refl)) as (data' & E' & S' & H').
          exists (EIso (EOp (tx "(") :: data' ++ [EOp (tx ")")])). split; [|split].
          * cbn [getStrOrX4Reaction]. rewrite (states_raise _ r n q G SM). cbn [bind caught]. 
            change (exn_eqb IsomerMathParsingError IsomerMathParsingError) with true. cbv iota. rewrite E'. reflexivity.
          * right. exists r, n, q, data'. auto.
          * apply shown_iso. constructor; [apply shown_op|]. apply Forall_app. split; [exact H'|]. constructor; [apply shown_op|constructor]. }
    destruct H as (x & Ex & Tx & Px). exists (x :: data). split; [|split; constructor; auto].
    cbn [map_res]. rewrite Ex. cbn [bind]. rewrite E. reflexivity. }
  destruct ALL as (data & E & F2 & PR). exists data. split; [|auto].
  unfold getMeasurementType.
  assert (M : existsb (fun i => existsb (is_tok i) (PTok (tx "(") :: l ++ [PTok (tx ")")])) math_symbols = true) by reflexivity.
  rewrite M. unfold X4ReactionCombination in *. cbn [map_res].
  rewrite (map_res_app _ _ _ l [PTok (tx ")")] data [EOp (tx ")")] E) by reflexivity. reflexivity.
Qed.
End Reading.
