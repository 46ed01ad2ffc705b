(** From a search to printed data sets. *)
From Coq Require Import String List Ascii NArith ZArith Bool Arith Lia Sorted.
From Verif.Model Require Import Py Dicts Storage Sql Manager Particle Pyparsing Grammars Reaction Field Section Entry Columns Dataset Print.
From Verif.Spec Require Import Text Exfor Codes Tables Query Files Merging Document WellWritten Printable Stored.
From Verif.Proofs Require Import StrLemmas BibLemmas EntryLemmas ManagerLemmas StorageLemmas DocumentLemmas EntryDataLemmas WellLemmas WellSimple PrintableLemmas PrintableWell.
Import ListNotations.
Local Open Scope string_scope.
Local Open Scope list_scope.
Local Open Scope nat_scope.

Lemma block_numbered : forall c b, well_block c b -> numbered (block_number b) (concat b).
Proof.
  intros c b [_ (l & rest & L & S & N & _)]. exists (l :: rest), [], l, rest. repeat (split; [first [exact L|reflexivity|constructor|exact S]|]). exact N.
Qed.
Lemma numbered_one : forall text a b, numbered a text -> numbered b text -> a = b.
Proof.
  intros text a b (l1 & pre1 & x1 & post1 & L1 & -> & F1 & S1 & ->) (l2 & pre2 & x2 & post2 & L2 & E2 & F2 & S2 & ->).
  apply lines_split in L1, L2. assert (E : pre1 ++ x1 :: post1 = pre2 ++ x2 :: post2) by congruence. clear - E F1 F2 S1 S2.
  revert pre2 E F2. induction pre1 as [|y pre1 IH]; intros [|z pre2] E F2; cbn in E.
  - congruence.
  - injection E as -> _. apply Forall_inv in F2. contradiction.
  - injection E as <- _. apply Forall_inv in F1. contradiction.
  - injection E as <- E. apply (IH (Forall_inv_tail F1) pre2 E). exact (Forall_inv_tail F2).
Qed.

(** The last element with a property, in the blocks and in their texts. *)
Lemma last_such_split : forall (A B : Type) (f : A -> B) (sel : A -> bool) (P : A -> Prop) (R : B -> Prop) bs,
  (forall b, In b bs -> (R (f b) <-> P b)) ->
  (forall b, In b bs -> P b -> sel b = true) ->
  forall b, last_such P bs b -> last_such R (map f (filter sel bs)) (f b).
Proof.
  intros A B f sel P R bs Q S b (x & y & -> & Pb & F). exists (map f (filter sel x)), (map f (filter sel y)).
  assert (Ib : In b (x ++ b :: y)) by (apply in_or_app; right; now left).
  split; [|split].
  - rewrite filter_app, map_app. cbn [filter]. rewrite (S b Ib Pb). reflexivity.
  - now apply Q.
  - apply Forall_map. apply Forall_forall. intros z I Rz. apply filter_In in I. destruct I as [I _].
    rewrite Forall_forall in F. apply (F z I). apply Q; [|exact Rz]. apply in_or_app. right. now right.
Qed.
Lemma last_such_back : forall (A B : Type) (f : A -> B) (sel : A -> bool) (P : A -> Prop) (R : B -> Prop) bs,
  (forall b, In b bs -> (R (f b) <-> P b)) ->
  (forall b, In b bs -> P b -> sel b = true) ->
  forall t, last_such R (map f (filter sel bs)) t -> exists b, t = f b /\ sel b = true /\ last_such P bs b.
Proof.
  intros A B f sel P R bs Q S. induction bs as [|b bs IH]; intros t (x & y & E & Rt & F); [destruct x; discriminate|].
  assert (Q' : forall b, In b bs -> (R (f b) <-> P b)) by (intros z I; apply Q; now right).
  assert (S' : forall b, In b bs -> P b -> sel b = true) by (intros z I; apply S; now right).
  cbn [filter] in E. destruct (sel b) eqn:Sb.
  - cbn [map] in E. destruct x as [|z x]; cbn [app] in E; injection E as E1 E2.
    + exists b. split; [congruence|]. split; [exact Sb|]. exists [], bs. split; [reflexivity|]. split; [apply Q; [now left|congruence]|].
      apply Forall_forall. intros z I Pz. rewrite <- E2 in F. rewrite Forall_forall in F. apply (F (f z)).
      * apply in_map. apply filter_In. auto.
      * now apply Q'.
    + destruct (IH Q' S' t) as (b0 & T & Sb0 & (u & v & -> & Pb & G)); [exists x, y; auto|].
      exists b0. split; [exact T|]. split; [exact Sb0|]. exists (b :: u), v. auto.
  - destruct (IH Q' S' t) as (b0 & T & Sb0 & (u & v & -> & Pb & G)); [exists x, y; auto|].
    exists b0. split; [exact T|]. split; [exact Sb0|]. exists (b :: u), v. auto.
Qed.

Section Stored.
Context (c : codes) (e : env) (nm : names) (D : well_dictionaries c e) (N : naming c e nm).

(** Blocks of one entry chosen by their numbers. *)
Section Chosen.
Context (acc : str) (bs : list (list str)) (sel : str -> bool).
Context (LA : length acc = 5) (W : Forall (well_block c) bs).
Context (main : exists b bib, last_such (fun x => block_number x = acc ++ tx "001") bs b /\ has_section "BIB" (concat b) bib).
Context (sel_main : sel (acc ++ tx "001") = true) (sel_acc : forall b, In b bs -> sel (block_number b) = true -> firstn 5 (block_number b) = acc).

Local Notation keep := (fun b => sel (block_number b)).
Local Notation raw := (map (@concat ascii) (filter keep bs)).

Lemma chosen_blocks : forall b, In b (filter keep bs) -> well_block c b /\ sel (block_number b) = true /\ In b bs.
Proof.
  intros b I. apply filter_In in I. destruct I as [I S]. split; [|auto]. exact (proj1 (Forall_forall _ _) W b I).
Qed.
Lemma numbers_agree : forall num b, In b bs -> (numbered num (concat b) <-> block_number b = num).
Proof.
  intros num b I. pose proof (block_numbered _ _ (proj1 (Forall_forall _ _) W b I)) as B. split; [|intros <-; exact B].
  intros X. eapply numbered_one; eauto.
Qed.

Lemma chosen_well : well_entry c acc raw.
Proof.
  constructor.
  - destruct main as (b0 & _ & (x & y & E & Nb & _) & _).
    assert (I0 : In b0 (filter keep bs)) by (apply filter_In; split; [rewrite E; apply in_or_app; right; now left|now rewrite Nb]).
    destruct (filter keep bs) as [|b rest] eqn:F; [destruct I0|].
    assert (I : In b (filter keep bs)) by (rewrite F; now left). apply chosen_blocks in I. destruct I as ([_ (l & ls & L & S & Q & L8)] & Sb & Ib).
    exists (concat b), (map (@concat ascii) rest), l, ls. split; [reflexivity|]. split; [exact L|]. split; [exact S|]. split; [|exact LA].
    rewrite <- (sel_acc b Ib Sb), Q. unfold columns. rewrite firstn_firstn. reflexivity.
  - apply Forall_map. apply Forall_forall. intros b I. apply chosen_blocks in I. destruct I as ([H _] & _). exact H.
  - destruct main as (b0 & bib & Lb & HB). exists (concat b0), bib. split; [|exact HB].
    apply (last_such_split _ _ (@concat ascii) keep (fun x => block_number x = acc ++ tx "001") _ bs); [|intros b I E; now rewrite E|exact Lb].
    intros b I. now apply numbers_agree.
Qed.

Lemma chosen_numbers : forall n k s, X4Entry e raw = Ok n -> In (k, s) (n_subs n) -> exists num, k = Some num /\ sel num = true /\ exists b, In b bs /\ block_number b = num.
Proof.
  intros n k s X I. pose proof (entry_good _ _ _ X) as [ND _ _]. pose proof (In_dget _ tag_eqb_eq _ _ _ ND I) as G.
  pose proof (EntryLemmas.entry_ok _ _ _ X) as (_ & _ & F). apply (fold_entry_spec _ _ _ _ F) in G.
  destruct G as [(x & (u & v & E & (s' & X' & A) & _) & _)|[_ G]]; [|discriminate].
  assert (Ix : In x raw) by (rewrite E; apply in_or_app; right; now left). apply in_map_iff in Ix. destruct Ix as (b & <- & Ib).
  apply chosen_blocks in Ib. destruct Ib as (Wb & Sb & Ib). apply block_numbered in Wb. apply (numbered_accnum _ _ _ _ X') in Wb.
  exists (block_number b). split; [congruence|]. eauto.
Qed.

Lemma chosen_entry : exists n, X4Entry e raw = Ok n /\ entry_holding e acc bs (fun num => sel num = true) n /\ entry_usable nm acc (fun num => sel num = true) n.
Proof.
  destruct (well_printed c e D nm N acc raw [] chosen_well) as (n & ds0 & errs0 & n0 & X & A & _). exists n. split; [exact X|]. split.
  - split; [exact A|]. intros num s L8. rewrite (entry_lookup _ _ _ _ _ X L8).
    assert (Q : sel num = true -> forall b, In b bs -> ((fun x => exists s', X4SubEntry e x = Ok s' /\ s_accnum s' = Some num) (concat b) <-> block_number b = num)).
    { intros Sn b I. split.
      - intros (s' & X' & E). apply (numbers_agree num b I). now apply (numbered_accnum _ _ _ _ X').
      - intros E. destruct (entry_all_parsed _ _ _ (concat b) X) as (s' & X').
        + apply in_map. apply filter_In. split; [exact I|now rewrite E].
        + exists s'. split; [exact X'|]. apply (numbered_accnum _ _ _ _ X'). now apply numbers_agree. }
    split.
    + intros (x & L & Xs).
      assert (Sn : sel num = true).
      { destruct L as (u & v & E & (s' & X' & An) & _). assert (Ix : In x raw) by (rewrite E; apply in_or_app; right; now left).
        apply in_map_iff in Ix. destruct Ix as (b & <- & Ib). apply chosen_blocks in Ib. destruct Ib as (_ & Sb & Ib).
        apply (numbered_accnum _ _ _ _ X') in An. apply (numbers_agree num b Ib) in An. congruence. }
      split; [exact Sn|].
      destruct (last_such_back _ _ (@concat ascii) keep (fun b => block_number b = num) _ bs (Q Sn) (fun b _ E => eq_trans (f_equal sel E) Sn) x L) as (b & -> & _ & LB).
      exists b. auto.
    + intros (Sn & b & LB & Xs). exists (concat b). split; [|exact Xs].
      exact (last_such_split _ _ (@concat ascii) keep (fun b => block_number b = num) _ bs (Q Sn) (fun b _ E => eq_trans (f_equal sel E) Sn) b LB).
  - intros errs. destruct (well_printed c e D nm N acc raw errs chosen_well) as (n1 & ds & errs' & n' & X1 & _ & H & P).
    assert (n1 = n) by congruence. subst n1. exists ds, errs', n'. split; [exact H|]. intros k d G. split; [|exact (P k d G)].
    destruct (dataSets_keys _ _ _ _ _ _ _ _ X H) as (s1 & _ & K & _). destruct k as [[a sub] p].
    destruct (K a sub p) as (-> & s & I & _); [apply in_map_iff; exists (a, sub, p, d); split; [reflexivity|]; exact (StrLemmas.dget_In _ key_eqb_eq _ _ _ G)|].
    destruct (chosen_numbers n sub s X I) as (num & -> & Sn & _). exists num, p. rewrite A. auto.
Qed.
End Chosen.

Lemma smem_is : forall x l, smem x l = true <-> In x l.
Proof. intros. apply smem_In. Qed.

Lemma holding_ext : forall acc bs (P Q : str -> Prop) n, (forall x, P x <-> Q x) -> entry_holding e acc bs P n -> entry_holding e acc bs Q n.
Proof. intros acc bs P Q n E [A H]. split; [exact A|]. intros num s L. rewrite (H num s L), (E num). reflexivity. Qed.
Lemma usable_ext : forall acc (P Q : str -> Prop) n, (forall x, P x -> Q x) -> entry_usable nm acc P n -> entry_usable nm acc Q n.
Proof.
  intros acc P Q n E H errs. destruct (H errs) as (ds & errs' & n' & G & K). exists ds, errs', n'. split; [exact G|].
  intros k d I. destruct (K k d I) as ((num & p & -> & Pn) & R). split; [eauto|exact R].
Qed.

(** The whole file. *)
Lemma file_entry : forall fs acc bs, well_file c fs acc bs -> Forall (fun b => firstn 5 (block_number b) = acc) bs ->
  exists n, x4EntryFactory (X4Entry e) fs acc None = Ok n /\ entry_holding e acc bs (fun _ => True) n /\ entry_usable nm acc (fun _ => True) n.
Proof.
  intros fs acc bs [LA (content & ls & F & S & B) W M] P. rewrite (factory_spec _ _ _ _ _ _ _ _ LA F S B).
  destruct (chosen_entry acc bs (fun _ => true) LA W M eq_refl (fun b I _ => proj1 (Forall_forall _ _) P b I)) as (n & X & H & U).
  exists n. split; [exact X|]. split.
  - eapply holding_ext; [|exact H]. intros; tauto.
  - eapply usable_ext; [|exact U]. auto.
Qed.

(** The entry is read from the chosen blocks, which are a well-written entry. *)
Definition entry_from (acc : str) (bs : list (list str)) (Q : str -> Prop) (n : entry) : Prop :=
  exists sel, (forall num, sel num = true <-> Q num) /\
    well_entry c acc (map (@concat ascii) (filter (fun b => sel (block_number b)) bs)) /\
    X4Entry e (map (@concat ascii) (filter (fun b => sel (block_number b)) bs)) = Ok n.
Lemma from_ext : forall acc bs (P Q : str -> Prop) n, (forall x, P x <-> Q x) -> entry_from acc bs P n -> entry_from acc bs Q n.
Proof. intros acc bs P Q n E (sel & S & W & X). exists sel. split; [intros num; now rewrite S|]. auto. Qed.

(** A selection that has subentry 001 and no number of another entry. *)
Lemma selected_entry : forall fs acc bs l, well_file c fs acc bs -> In (acc ++ tx "001") l -> (forall num, In num l -> firstn 5 num = acc) ->
  exists n, x4EntryFactory (X4Entry e) fs acc (Some l) = Ok n /\ entry_holding e acc bs (fun num => In num l) n /\ entry_usable nm acc (fun num => In num l) n /\
    entry_from acc bs (fun num => In num l) n.
Proof.
  intros fs acc bs l [LA (content & ls & F & S & B) W M] I P. rewrite (factory_spec _ _ _ _ _ _ _ _ LA F S B).
  destruct (chosen_entry acc bs (fun num => smem num l) LA W M) as (n & X & H & U).
  - now apply smem_is.
  - intros b _ Sb. apply P. now apply smem_is.
  - exists n. split; [exact X|]. split.
    + eapply holding_ext; [|exact H]. intros; apply smem_is.
    + split; [eapply usable_ext; [|exact U]; intros x; apply smem_is|].
      exists (fun num => smem num l). split; [intros num; apply smem_is|]. split; [|exact X].
      apply (chosen_well acc bs (fun num => smem num l) LA W M); [now apply smem_is|]. intros b _ Sb. apply P. now apply smem_is.
Qed.

(** A search. *)
Lemma retrieve_entries : forall table fs crit m, query table crit = Ok m ->
  (forall acc, In acc (map fst m) -> exists bs, well_file c fs acc bs) ->
  exists r, retrieve (X4Entry e) table fs crit = Ok r /\ map fst r = map fst m /\
    forall acc l n bs, In (acc, l) m -> In (acc, n) r -> well_file c fs acc bs ->
      entry_holding e acc bs (fun num => In num l) n /\ entry_usable nm acc (fun num => In num l) n /\ entry_from acc bs (fun num => In num l) n.
Proof.
  intros table fs crit m Q H. rewrite (retrieve_eq _ _ _ _ _ _ Q).
  pose proof (query_NoDup _ _ _ Q) as ND. destruct (query_any _ _ _ Q) as (P & _ & (_ & GP & GM)). clear Q.
  assert (Sel : forall acc l, In (acc, l) m -> length acc = 5 -> In (acc ++ tx "001") l /\ forall num, In num l -> firstn 5 num = acc).
  { intros acc l I LA. destruct (GM acc l I) as (rest & -> & _ & G). split; [now left|]. intros num [<-|In'].
    - change 5 with (0 + 5). rewrite <- LA. rewrite Nat.add_0_l, firstn_app, Nat.sub_diag, firstn_all. apply app_nil_r.
    - apply G in In'. tauto. }
  assert (One : forall kv, In kv m -> exists n, x4EntryFactory (X4Entry e) fs (fst kv) (Some (snd kv)) = Ok n).
  { intros [acc l] I. destruct (H acc (in_map fst _ _ I)) as (bs & WF). destruct (Sel acc l I (file_length _ _ _ _ WF)) as [S1 S2].
    destruct (selected_entry fs acc bs l WF S1 S2) as (n & X & _). exists n. exact X. }
  assert (exists ys, map_res (fun kv => x4EntryFactory (X4Entry e) fs (fst kv) (Some (snd kv))) m = Ok ys) as (ys & Y).
  { clear - One. induction m as [|kv m IH]; [eexists; reflexivity|]. destruct IH as (ys & Y); [intros; apply One; now right|].
    destruct (One kv (or_introl eq_refl)) as (n & X). cbn [map_res]. rewrite X. cbn [bind]. rewrite Y. cbn. eauto. }
  rewrite Y. cbn [bind]. eexists. split; [reflexivity|]. apply StorageLemmas.map_res_Forall2 in Y. split.
  { clear - Y. induction Y; cbn; auto. now f_equal. }
  intros acc l n bs I1 I2 WF. destruct (Sel acc l I1 (file_length _ _ _ _ WF)) as [S1 S2].
  destruct (selected_entry fs acc bs l WF S1 S2) as (n0 & X & R). assert (n = n0); [|subst; exact R].
  clear - ND Y I1 I2 X. revert ND I1 I2. induction Y as [|[acc' l'] y m ys Hy Y IH]; intros ND I1 I2; [contradiction|].
  cbn [fst snd map combine] in *. inversion ND as [|? ? NI ND']; subst.
  destruct I1 as [I1|I1]; destruct I2 as [I2|I2].
  - congruence.
  - exfalso. apply NI. apply in_combine_l in I2. congruence.
  - exfalso. apply NI. apply in_map_iff. exists (acc, l). split; [cbn; congruence|exact I1].
  - now apply IH.
Qed.

(** A search by criteria, told by the rows of the index. *)
Lemma search_entries : forall table fs crit, clean_criteria crit -> used_values crit <> [] ->
  let hit num := exists r, In r table /\ row_matches crit r /\ r_subent r = num in
  (forall num, hit num -> exists bs, well_file c fs (firstn 5 num) bs) ->
  exists r, retrieve (X4Entry e) table fs crit = Ok r /\ StronglySorted str_lt (map fst r) /\
    (forall acc, In acc (map fst r) <-> exists num, hit num /\ firstn 5 num = acc) /\
    forall acc n bs, In (acc, n) r -> well_file c fs acc bs ->
      let wanted num := num = acc ++ tx "001" \/ hit num /\ firstn 5 num = acc in
      entry_holding e acc bs wanted n /\ entry_usable nm acc wanted n /\ entry_from acc bs wanted n.
Proof.
  intros table fs crit C U hit H. destruct (query_spec table crit C U) as (m & Q & G).
  pose proof G as (GS & GP & GM).
  destruct (retrieve_entries table fs crit m Q) as (r & R & K & V).
  { intros acc I. apply GP in I. destruct I as (num & Hn & <-). exact (H num Hn). }
  exists r. split; [exact R|]. split; [rewrite K; exact GS|]. split; [intros acc; rewrite K; apply GP|].
  intros acc n bs I WF wanted. assert (I' : In acc (map fst m)) by (rewrite <- K; exact (in_map fst _ _ I)).
  apply in_map_iff in I'. destruct I' as ([acc' l] & E & Im). cbn [fst] in E. subst acc'.
  destruct (V acc l n bs Im I WF) as (A & B & F). destruct (GM acc l Im) as (rest & -> & _ & GR).
  assert (X : forall x, In x ((acc ++ lit "001") :: rest) <-> wanted x).
  { intros x. unfold wanted. split.
    - intros [<-|Ix]; [now left|]. apply GR in Ix. right. destruct Ix as (h & f & _). split; [exact h|exact f].
    - intros [->|[h f]]; [now left|]. destruct (list_eq_dec ascii_dec x (acc ++ lit "001")) as [->|Ne]; [now left|right]. apply GR. split; [exact h|auto]. }
  split; [eapply holding_ext; [exact X|exact A]|]. split; [eapply usable_ext; [|exact B]; intros x; apply X|exact (from_ext _ _ _ _ _ X F)].
Qed.
End Stored.
