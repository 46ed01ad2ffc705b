(** What examples/get-entry.py prints. *)
From Coq Require Import String List Ascii NArith ZArith Bool Arith Lia Sorted.
From Coq Require Import Floats.SpecFloat.
From Verif.Model Require Import Py PyFloat Repr Dicts Storage Sql Manager Particle Reaction Field Section Entry Columns Dataset Print Show Pyparsing Grammars Client.
From Verif.Spec Require Import Text Exfor Tables DataSets Merging Codes General Known GeneralKnown Query Files Document WellWritten Printable Stored Pointed Found Shown Headers Script.
From Verif.Proofs Require Import StrLemmas StorageLemmas NumLemmas IntLemmas ReactionLemmas DictLemmas ManagerLemmas FieldLemmas BibLemmas DataLemmas EntryLemmas EntryDataLemmas GrammarLemmas BalanceLemmas KnownLemmas GeneralLemmas IsomerLemmas MonitorLemmas AuthorLemmas InstituteLemmas ReferenceLemmas NamesExamples TextTableLemmas DocumentLemmas RetrieveLemmas ReadBackLemmas TableBackLemmas WellLemmas PrintableLemmas PrintableWell DatasetLemmas FoundLemmas ShowLemmas HeaderLemmas.
Import ListNotations.
Local Open Scope string_scope.
Local Open Scope list_scope.
Local Open Scope nat_scope.

(** ** repr() of a data set *)

Lemma header_lines_is : forall m, meta_repr m = header_lines (header_of m) (bm_subent m).
Proof. intro m. unfold meta_repr, header_lines, meta_lines. rewrite !between_join. reflexivity. Qed.

Lemma units_some : forall (l : list (option str)) us, map_res (of_option TypeError) l = Ok us -> l = map Some us.
Proof.
  induction l as [|u l IH]; intros us H; cbn [map_res] in H; [assert (us = []) as -> by congruence; reflexivity|].
  destruct u as [u|]; [|discriminate H]. cbn [of_option bind] in H. apply bind_ok in H. destruct H as (vs & V & H). assert (us = u :: vs) as -> by congruence.
  cbn [map]. now rewrite (IH _ V).
Qed.

Lemma listing_is : forall labels units rows,
  listing labels units rows = lit "[" ++ lit "['" ++ join (lit "','") labels ++ lit "']," ++ [nl] ++ lit "['" ++ join (lit "','") units ++ lit "']"
      ++ concat (map (fun row => lit "," ++ [nl] ++ lit "[" ++ join (lit ",") (map cell_repr row) ++ lit "]") rows) ++ lit "]".
Proof.
  intros labels units rows. unfold listing.
  assert (R : forall a rest, Names.between (tx "," ++ [ascii_of_N 10]) (a :: rest) = a ++ concat (map (fun x => tx "," ++ [ascii_of_N 10] ++ x) rest)).
  { intros a rest. revert a. induction rest as [|b rest IH]; intro a; [cbn [Names.between map concat]; now rewrite app_nil_r|].
    change (Names.between (tx "," ++ [ascii_of_N 10]) (a :: b :: rest)) with (a ++ (tx "," ++ [ascii_of_N 10]) ++ Names.between (tx "," ++ [ascii_of_N 10]) (b :: rest)).
    rewrite IH. cbn [map concat]. rewrite <- ?app_assoc. reflexivity. }
  rewrite R. cbn [map concat]. rewrite map_map. rewrite <- !between_join.
  replace (map (fun row : list dcell => tx "," ++ [ascii_of_N 10] ++ tx "[" ++ Names.between (tx ",") (map cell_listed row) ++ tx "]") rows)
    with (map (fun row : list dcell => lit "," ++ [nl] ++ lit "[" ++ join (lit ",") (map cell_repr row) ++ lit "]") rows).
  - rewrite <- ?app_assoc. reflexivity.
  - apply map_ext. intro row. rewrite between_join. reflexivity.
Qed.

Lemma repr_listed : forall nm d text, dataset_repr nm d = Ok text -> set_listed nm d (header_of (ds_meta d)) (bm_subent (ds_meta d)) text.
Proof.
  intros nm d text H. unfold dataset_repr in H. apply bind_ok in H. destruct H as (hd & HD & H). apply bind_ok in H. destruct H as (us & US & H).
  unfold reprHeader in HD. destruct (ds_reaction d) as [[m remark]|] eqn:R; [|discriminate HD]. apply bind_ok in HD. destruct HD as (s & S & HD).
  apply bind_ok in HD. destruct HD as (ms & M & HD).
  assert (E : hd = meta_repr (ds_meta d) ++ [sp; nl] ++ lit "Reaction:  " ++ s ++ ms ++ [nl]) by congruence. clear HD.
  exists m, remark, s, ms, us. split; [exact R|]. split; [exact S|]. split; [|split; [|split]].
  - intros [Q|Q]; rewrite Q in M; congruence.
  - intros x l Q. rewrite Q in M. apply bind_ok in M. destruct M as (ls & L & M). exists ls. split.
    + clear - L. revert ls L. generalize (x :: l). clear. induction l as [|x l IH]; intros ls L; cbn [map_res] in L; [assert (ls = []) as -> by congruence; constructor|].
      apply bind_ok in L. destruct L as (t & T & L). apply bind_ok in L. destruct L as (ts & TS & L). assert (ls = t :: ts) as -> by congruence.
      constructor; [|exact (IH _ TS)]. unfold monitor_listed. destruct (fst (fst x)); [exact T|]. assert (t = lit "None") by congruence. assumption.
    + rewrite <- between_join. assert (ms = [sp; nl] ++ lit "Monitor(s):[" ++ join (lit ", ") ls ++ lit "]") as -> by congruence. reflexivity.
  - exact (units_some _ _ US).
  - assert (text = hd ++ lit "[" ++ lit "['" ++ join (lit "','") (t_labels (ds_table d)) ++ lit "']," ++ [nl]
      ++ lit "['" ++ join (lit "','") us ++ lit "']"
      ++ concat (map (fun row => lit "," ++ [nl] ++ lit "[" ++ join (lit ",") (map cell_repr row) ++ lit "]") (t_data (ds_table d))) ++ lit "]") as -> by congruence.
    rewrite listing_is, E, header_lines_is. rewrite <- ?app_assoc. reflexivity.
Qed.

Lemma sets_listed : forall c e, well_dictionaries c e -> forall nm, naming c e nm -> forall acc raw n errs ds errs' n' k d, well_entry c acc raw ->
  (forall num text, In text raw -> numbered num text -> length num = 8) -> X4Entry e raw = Ok n ->
  getDataSets nm n errs = Ok (ds, errs', n') -> dget key_eqb k ds = Some d ->
  exists num p text text1 h who t, k = (acc, Some num, p) /\ last_such (numbered num) raw text /\ last_such (numbered (acc ++ tx "001")) raw text1 /\
    told_by e acc num text1 text h who /\ dataset_repr nm d = Ok t /\ set_listed nm d h who t.
Proof.
  intros c e D nm NM acc raw n errs ds errs' n' k d W L8 E G DG.
  destruct (well_printed c e D nm NM acc raw errs W) as (n0 & ds0 & errs0 & n0' & E0 & _ & G0 & P). assert (n0 = n) by congruence. subst n0.
  assert (ds0 = ds) by congruence. subst ds0. destruct (P k d DG) as (_ & t & T). clear P.
  destruct (meta_told c e D nm NM acc raw n errs ds errs' n' k d W L8 E G DG) as (num & p & text & text1 & b1 & h & K & L & L1 & B1 & C).
  exists num, p, text, text1, h, (bm_subent (ds_meta d)), t. split; [exact K|]. split; [exact L|]. split; [exact L1|]. split.
  - exists b1. split; [exact B1|]. destruct C as [(b & HB & TO & _ & SU)|(NO & TO & _ & SU)]; [left; exists b; auto|right; auto].
  - split; [exact T|]. apply repr_listed in T. destruct C as [(b & _ & _ & -> & _)|(_ & _ & -> & _)]; exact T.
Qed.

(** ** Finding an entry *)

Section Client.
Context (c : codes) (e : env) (nm : names) (D : well_dictionaries c e) (N : naming c e nm).

(** A search with hits in one entry only. *)
Lemma one_entry : forall table fs crit acc bs, clean_criteria crit -> used_values crit <> [] ->
  let hit num := exists r, In r table /\ row_matches crit r /\ r_subent r = num in
  (exists num, hit num) -> (forall num, hit num -> firstn 5 num = acc) -> well_file c fs acc bs ->
  exists n, retrieve (X4Entry e) table fs crit = Ok [(acc, n)] /\
    let wanted x := x = acc ++ tx "001" \/ hit x in entry_usable nm acc wanted n /\ entry_from c e acc bs wanted n.
Proof.
  intros table fs crit acc bs C U hit (num & HN) A WF. destruct (search_entries c e nm D N table fs crit C U) as (r & R & SO & K & V).
  { intros x H. rewrite (A x H). eauto. }
  assert (KA : forall a, In a (map fst r) <-> a = acc).
  { intros a. rewrite K. split; [intros (x & H & <-); exact (A x H)|]. intros ->. exists num. split; [exact HN|exact (A num HN)]. }
  assert (exists n, r = [(acc, n)]) as (n & ->).
  { destruct r as [|[a n] r]; [exfalso; exact (proj2 (KA acc) eq_refl)|]. exists n.
    assert (a = acc) as -> by (apply KA; now left). destruct r as [|[a n'] r]; [reflexivity|].
    assert (a = acc) as -> by (apply KA; right; now left). exfalso. inversion SO as [|? ? _ FA]; subst. apply Forall_inv in FA. apply str_lt_iff in FA. now destruct FA. }
  exists n. split; [exact R|]. intros wanted. destruct (V acc n bs (or_introl eq_refl) WF) as (_ & UU & F).
  assert (E : forall x, (x = acc ++ tx "001" \/ (exists r, In r table /\ row_matches crit r /\ r_subent r = x) /\ firstn 5 x = acc) <-> wanted x).
  { intros x. unfold wanted. split; [intros [H|[H _]]; [now left|now right]|]. intros [H|H]; [now left|right; split; [exact H|exact (A x H)]]. }
  split; [exact (usable_ext nm acc _ _ n (fun x => proj1 (E x)) UU)|exact (from_ext c e acc bs _ _ n E F)].
Qed.

Lemma subentry_found : forall table fs num bs, length num = 8 -> plain_text num -> In num (map r_subent table) -> well_file c fs (firstn 5 num) bs ->
  exists n, retrieve (X4Entry e) table fs (by_subent num) = Ok [(firstn 5 num, n)] /\
    let wanted x := x = firstn 5 num ++ tx "001" \/ x = num in entry_usable nm (firstn 5 num) wanted n /\ entry_from c e (firstn 5 num) bs wanted n.
Proof.
  intros table fs num bs L P I WF.
  assert (HT : forall x, (exists r, In r table /\ row_matches (by_subent num) r /\ r_subent r = x) <-> x = num).
  { intros x. split.
    - intros (r & _ & (_ & _ & _ & _ & _ & M & _) & <-). exact (M num eq_refl).
    - intros ->. apply in_map_iff in I. destruct I as (r & E & I). exists r. split; [exact I|]. split; [|exact E].
      repeat split; cbn; try discriminate. intros v H. injection H as <-. exact E. }
  destruct (one_entry table fs (by_subent num) (firstn 5 num) bs) as (n & R & U & F).
  - split; [|discriminate]. cbn. constructor; [exact P|constructor].
  - discriminate.
  - exists num. now apply HT.
  - intros x H. apply HT in H. now subst x.
  - exact WF.
  - exists n. split; [exact R|]. assert (E : forall x, (x = firstn 5 num ++ tx "001" \/ (exists r, In r table /\ row_matches (by_subent num) r /\ r_subent r = x)) <-> (x = firstn 5 num ++ tx "001" \/ x = num)).
    { intro x. now rewrite HT. }
    split; [exact (usable_ext nm _ _ _ n (fun x => proj1 (E x)) U)|exact (from_ext c e _ bs _ _ n E F)].
Qed.

(** Taking subentries away afterwards. *)
Lemma filter_dset : forall (P : option str -> bool) k (s : subentry) d,
  filter (fun kv => P (fst kv)) (dset tag_eqb k s d) = if P k then dset tag_eqb k s (filter (fun kv => P (fst kv)) d) else filter (fun kv => P (fst kv)) d.
Proof.
  intros P k s. induction d as [|[k' s'] d IH].
  - cbn [dset filter fst]. destruct (P k); reflexivity.
  - cbn [dset]. destruct (tag_eqb k k') eqn:Q.
    + apply tag_eqb_eq in Q. subst k'. cbn [filter fst]. destruct (P k); [|reflexivity]. cbn [dset]. now rewrite (proj2 (tag_eqb_eq k k) eq_refl).
    + cbn [filter fst]. rewrite IH. destruct (P k) eqn:PK, (P k') eqn:PK'; try reflexivity. cbn [dset]. now rewrite Q.
Qed.
Lemma filter_fold : forall (P : option str -> bool) bs (sel : str -> bool) d0 d,
  (forall b s, In b bs -> X4SubEntry e (concat b) = Ok s -> P (s_accnum s) = sel (block_number b)) ->
  fold_res (fun d x => s <- X4SubEntry e x ;; Ok (dset tag_eqb (s_accnum s) s d)) (map (@concat ascii) bs) d0 = Ok d ->
  fold_res (fun d x => s <- X4SubEntry e x ;; Ok (dset tag_eqb (s_accnum s) s d)) (map (@concat ascii) (filter (fun b => sel (block_number b)) bs))
    (filter (fun kv => P (fst kv)) d0) = Ok (filter (fun kv => P (fst kv)) d).
Proof.
  intros P. induction bs as [|b bs IH]; intros sel d0 d H F.
  - cbn [map filter fold_res] in *. congruence.
  - cbn [map fold_res] in F. destruct (X4SubEntry e (concat b)) as [s|] eqn:X; [|discriminate F]. cbn [bind] in F.
    apply (IH sel) in F; [|intros b' s' I; apply H; now right]. rewrite filter_dset in F. rewrite (H b s (or_introl eq_refl) X) in F.
    cbn [filter]. destruct (sel (block_number b)); [|exact F]. cbn [map fold_res]. rewrite X. cbn [bind]. exact F.
Qed.

Lemma map_filter_some : forall (num : str) (subs : list (option str * subentry)), Forall (fun ks => exists k, fst ks = Some k) subs ->
  (x <- map_res (fun ks => match fst ks with Some k => Ok (if endswith k (lit "001") || str_eqb k num then [ks] else []) | None => Raise AttributeError end) subs ;; Ok (concat x)) =
  Ok (filter (fun ks => match fst ks with Some k => endswith k (lit "001") || str_eqb k num | None => false end) subs).
Proof.
  intros num. induction subs as [|[k s] subs IH]; intro F; [reflexivity|]. destruct (Forall_inv F) as (k' & Q). cbn [fst] in Q. subst k.
  specialize (IH (Forall_inv_tail F)). cbn [map_res fst]. cbn [bind].
  destruct (map_res _ subs) as [x|]; [|discriminate IH]. cbn [bind] in *. cbn [concat filter fst].
  assert (concat x = filter (fun ks => match fst ks with Some k => endswith k (lit "001") || str_eqb k num | None => false end) subs) as <- by congruence.
  destruct (endswith k' (lit "001") || str_eqb k' num); reflexivity.
Qed.

Lemma endswith_main : forall num, length num = 8 -> endswith num (lit "001") = true <-> num = firstn 5 num ++ tx "001".
Proof.
  intros num L. destruct num as [|a [|b [|c0 [|d [|f [|g [|h [|i [|]]]]]]]]]; try discriminate L.
  unfold endswith, startswith. cbn [rev app lit list_ascii_of_string firstn is_prefix tx].
  rewrite !andb_true_iff, !Ascii.eqb_eq. split; [intros (<- & <- & <- & _); reflexivity|]. intro H. injection H as -> -> ->. auto.
Qed.

(** Reading the whole file and taking away: as if only these had been read. *)
Lemma filtered_file : forall fs num bs, length num = 8 -> well_file c fs (firstn 5 num) bs -> In num (map block_number bs) ->
  Forall (fun b => firstn 5 (block_number b) = firstn 5 num) bs ->
  exists n0 n, x4EntryFactory (X4Entry e) fs (firstn 5 num) None = Ok n0 /\ filter_entry num n0 = Ok n /\
    let wanted x := x = firstn 5 num ++ tx "001" \/ x = num in entry_usable nm (firstn 5 num) wanted n /\ entry_from c e (firstn 5 num) bs wanted n.
Proof.
  intros fs num bs L WF I F. set (acc := firstn 5 num) in *. pose proof WF as [LA (content & ls & FS & S & B) W M].
  destruct (file_entry c e nm D N fs acc bs WF F) as (n0 & X0 & H0 & _). exists n0.
  assert (EX : X4Entry e (map (@concat ascii) bs) = Ok n0).
  { rewrite (factory_spec _ _ _ _ _ _ _ _ LA FS S B) in X0.
    match type of X0 with X4Entry e (map _ (filter ?f bs)) = _ => replace (filter f bs) with bs in X0; [exact X0|] end.
    clear. induction bs as [|b bs IH]; [reflexivity|]. cbn [filter]. now rewrite <- IH. }
  set (sel := fun x => str_eqb x (acc ++ tx "001") || str_eqb x num).
  assert (SEL : forall x, sel x = true <-> x = acc ++ tx "001" \/ x = num) by (intro x; unfold sel; rewrite orb_true_iff, !str_eqb_eq; tauto).
  assert (FA : firstn 5 (acc ++ tx "001") = acc) by (rewrite firstn_app, LA, Nat.sub_diag, firstn_O, app_nil_r; apply firstn_all2; lia).
  destruct (chosen_entry c e nm D N acc bs sel LA W M) as (n & X & H & U).
  - apply SEL. now left.
  - intros b IB SB. apply SEL in SB. destruct SB as [->| ->]; [exact FA|reflexivity].
  - exists n. split; [exact X0|].
    assert (L8 : forall b, In b bs -> length (block_number b) = 8) by (intros b IB; destruct (proj1 (Forall_forall _ _) W b IB) as [_ (l & rest & _ & _ & _ & Q)]; exact Q).
    assert (FI : filter_entry num n0 = Ok n).
    { unfold filter_entry. assert (HN : dhas tag_eqb (Some num) (n_subs n0) = true).
      { apply in_map_iff in I. destruct I as (b & BN & IB).
        destruct (last_or_none _ (fun x => block_number x = num) bs) as [NO|(b' & LB)]; [intro x; destruct (list_eq_dec ascii_dec (block_number x) num); tauto|rewrite Forall_forall in NO; elim (NO b IB BN)|].
        destruct (entry_all_parsed _ _ _ (concat b') EX) as (s & XS); [apply in_map; apply last_in in LB; tauto|].
        destruct H0 as (_ & H0). assert (G : entry_getitem n0 (EStr num) = Ok s) by (apply H0; [exact L|eauto]).
        unfold entry_getitem in G. cbn [key_text] in G. cbv zeta in G. rewrite L in G. change (8 =? 8) with true in G. cbv iota in G. unfold dhas.
        destruct (dget tag_eqb (Some num) (n_subs n0)); [reflexivity|discriminate G]. }
      rewrite HN. cbn [negb].
      assert (KS : Forall (fun ks : option str * subentry => exists k, fst ks = Some k) (n_subs n0)).
      { apply Forall_forall. intros [k s] IK. destruct (chosen_numbers c e bs (fun _ => true) W n0 k s) as (num' & -> & _); [|exact IK|cbn [fst]; eauto].
        match goal with |- X4Entry e (map _ (filter ?f bs)) = _ => replace (filter f bs) with bs; [exact EX|] end.
        clear. induction bs as [|b bs IH]; [reflexivity|]. cbn [filter]. now rewrite <- IH. }
      pose proof (map_filter_some num (n_subs n0) KS) as MF. destruct (map_res _ (n_subs n0)) as [x|]; [|discriminate MF]. cbn [bind] in MF |- *.
      assert (XE : concat x = filter (fun ks => match fst ks with Some k => endswith k (lit "001") || str_eqb k num | None => false end) (n_subs n0)) by congruence.
      rewrite XE. clear MF XE x.
      pose proof (EntryLemmas.entry_ok _ _ _ EX) as (A0 & _ & F0). pose proof (EntryLemmas.entry_ok _ _ _ X) as (A1 & _ & F1).
      pose proof (filter_fold (fun k => match k with Some k => endswith k (lit "001") || str_eqb k num | None => false end) bs sel [] (n_subs n0)) as FF.
      cbn [filter] in FF. rewrite FF in F1; [|intros b s IB XS|exact F0].
      - assert (n_accnum n0 = acc) by (exact (proj1 H0)). assert (n_accnum n = acc) by (exact (proj1 H)). destruct n as [a d]. cbn [n_accnum n_subs] in *. congruence.
      - pose proof (block_numbered _ _ (proj1 (Forall_forall _ _) W b IB)) as BN. apply (numbered_accnum _ _ _ _ XS) in BN. rewrite BN. unfold sel. f_equal.
        apply eq_true_iff_eq. rewrite (endswith_main _ (L8 b IB)), str_eqb_eq. rewrite (proj1 (Forall_forall _ _) F b IB). tauto. }
    split; [exact FI|]. cbv zeta. split; [eapply usable_ext; [|exact U]; intro x; apply SEL|].
    exists sel. split; [exact SEL|]. split; [|exact X]. apply (chosen_well c acc bs sel LA W M); [apply SEL; now left|].
    intros b IB SB. apply SEL in SB. destruct SB as [->| ->]; [exact FA|reflexivity].
Qed.

(** Both ways. *)
Lemma found : forall table fs file num bs flags, available c table fs file num bs ->
  a_subent flags = Some num -> a_ent flags = None -> a_getFile flags = file -> (file = true -> a_raw flags = false) ->
  exists n, check_arguments flags = Ok tt /\ search_result e (retrieve (X4Entry e) table fs) fs flags = Ok [(firstn 5 num, CEntry n)] /\
    let wanted x := x = firstn 5 num ++ tx "001" \/ x = num in entry_usable nm (firstn 5 num) wanted n /\ entry_from c e (firstn 5 num) bs wanted n.
Proof.
  intros table fs file num bs a [L P I WF F] S E G R.
  assert (CK : check_arguments a = Ok tt) by (unfold check_arguments; rewrite S, E, L; reflexivity).
  unfold search_result. rewrite S, E, G. destruct file; cbn [negb].
  - destruct (F eq_refl) as (IN & FF). destruct (filtered_file fs num bs L WF IN FF) as (n0 & n & X & Y & Z). exists n. rewrite (R eq_refl). cbv zeta.
    change (slice num 0 5) with (firstn 5 num). rewrite X. cbn [bind]. rewrite Y. cbn [bind]. auto.
  - destruct (subentry_found table fs num bs L P (I eq_refl) WF) as (n & X & Z). exists n. rewrite X. cbn [bind map fst snd]. auto.
Qed.

(** ** What is printed *)

Lemma one_value : forall acc n, first_value [(acc, CEntry n)] = Ok (CEntry n) /\ last_value [(acc, CEntry n)] = Ok (CEntry n).
Proof.
  intros acc n. unfold first_value, last_value. cbn [dkeys map fst ssort rev app hd_error of_option bind].
  assert (str_eqb acc acc = true) as Q by (now apply str_eqb_eq). split; cbn; rewrite Q; reflexivity.
Qed.

Lemma from_numbers : forall acc bs (Q : str -> Prop) n, Forall (well_block c) bs -> entry_from c e acc bs Q n ->
  exists raw, well_entry c acc raw /\ X4Entry e raw = Ok n /\ (forall num text, In text raw -> numbered num text -> length num = 8) /\
    (forall num text, last_such (numbered num) raw text -> Q num /\ exists b, text = concat b /\ last_such (fun x => block_number x = num) bs b) /\
    (forall num b, Q num -> last_such (fun x => block_number x = num) bs b -> last_such (numbered num) raw (concat b)).
Proof.
  intros acc bs Q n W (sel & S & WE & X). exists (map (@concat ascii) (filter (fun b => sel (block_number b)) bs)). split; [exact WE|]. split; [exact X|].
  assert (L8 : forall b, In b bs -> length (block_number b) = 8) by (intros b IB; destruct (proj1 (Forall_forall _ _) W b IB) as [_ (l & rest & _ & _ & _ & Z)]; exact Z).
  split; [|split].
  - intros num text I NU. apply in_map_iff in I. destruct I as (b & <- & I). apply filter_In in I. destruct I as (I & _).
    apply (numbers_agree c bs W) in NU; [|exact I]. rewrite <- NU. exact (L8 b I).
  - intros num text L. assert (SN : sel num = true).
    { destruct (last_in _ _ _ _ L) as (I & NU). apply in_map_iff in I. destruct I as (b & <- & I). apply filter_In in I. destruct I as (I & SB).
      apply (numbers_agree c bs W) in NU; [|exact I]. now rewrite <- NU. }
    split; [now apply S|].
    destruct (last_such_back _ _ (@concat ascii) (fun b => sel (block_number b)) (fun b => block_number b = num) _ bs (fun b I => numbers_agree c bs W num b I)
      (fun b _ E => eq_trans (f_equal sel E) SN) text L) as (b & -> & _ & LB). eauto.
  - intros num b QN L. apply (from_block c bs sel num b W); [now apply S|exact L].
Qed.

Lemma data_printed : forall table fs file num bs, available c table fs file num bs -> num <> firstn 5 num ++ tx "001" ->
  let acc := firstn 5 num in
  exists l errs n ds n',
    get_entry e nm (retrieve (X4Entry e) table fs) fs (mkArguments (Some num) None file false false true false false false) =
      ([PText (tx "---------- Data ----------"); PSets l; PText (tx "---------- Errors ----------"); PErrors errs], Ok tt) /\
    (file = false -> db_getitem (X4Entry e) table fs (KStr num) = Ok [(acc, n)]) /\
    getDataSets nm n [] = Ok (ds, errs, n') /\ map fst l = map fst ds /\
    (forall k text, In (k, text) l -> exists x p d b b1 h who, k = (acc, Some x, p) /\ (x = acc ++ tx "001" \/ x = num) /\ dget key_eqb k ds = Some d /\
       last_such (fun y => block_number y = x) bs b /\ last_such (fun y => block_number y = acc ++ tx "001") bs b1 /\
       told_by e acc x (concat b1) (concat b) h who /\ set_listed nm d h who text) /\
    (forall p x line k t, block_written c acc bs num p x line k t ->
       exists d text, In (acc, Some num, p, text) l /\ dget key_eqb (acc, Some num, p) ds = Some d /\ of_reaction x line k d /\ ds_table d = t).
Proof.
  intros table fs file num bs AV NM acc. pose proof AV as [L P _ WF _].
  destruct (found table fs file num bs (mkArguments (Some num) None file false false true false false false) AV eq_refl eq_refl eq_refl (fun _ => eq_refl))
    as (n & CK & SR & U & F). fold acc in SR, U, F, WF.
  pose proof (file_well _ _ _ _ WF) as W. destruct (from_numbers acc bs _ n W F) as (raw & WE & X & L8 & TO & FROM).
  destruct (U []) as (ds & errs & n' & G & K).
  assert (GOOD : NoDup (map fst ds)).
  { pose proof G as G0. apply (getDataSets_iff _ _ _ _ _ _ (entry_good _ _ _ X)) in G0. destruct G0 as (? & ? & ? & _ & _ & _ & _ & _ & -> & _).
    apply dkeys_put. constructor. }
  assert (ML : exists l, map_res (fun kd => t <- dataset_repr nm (snd kd) ;; Ok (fst kd, t)) ds = Ok l /\
      Forall2 (fun kd kt => fst kd = fst kt /\ dataset_repr nm (snd kd) = Ok (snd kt)) ds l).
  { assert (K' : forall kd, In kd ds -> exists t, dataset_repr nm (snd kd) = Ok t).
    { intros [k d] I. apply (In_dget _ key_eqb_eq _ _ _ GOOD) in I. destruct (K k d I) as (_ & _ & T). exact T. }
    clear - K'. induction ds as [|[k d] ds IH]; [exists []; split; [reflexivity|constructor]|].
    destruct IH as (l & E & F); [intros; apply K'; now right|]. destruct (K' (k, d) (or_introl eq_refl)) as (t & T). cbn [snd] in T.
    exists ((k, t) :: l). cbn [map_res fst snd]. rewrite T. cbn [bind]. rewrite E. cbn [bind]. split; [reflexivity|]. constructor; [auto|exact F]. }
  destruct ML as (l & ML & F2). exists l, errs, n, ds, n'. split; [|split; [|split; [exact G|split; [|split]]]].
  - unfold get_entry. rewrite CK. cbn [olift obind fst snd app]. rewrite SR. cbn [olift obind fst snd app a_ent a_subent a_nada a_raw a_rawdoc a_doc a_rawdata a_data owhen oseq].
    unfold print_data. assert (endswith num (lit "001") = false) as ->. { apply not_true_is_false. intro Z. apply (endswith_main num L) in Z. contradiction. }
    rewrite (proj2 (one_value acc n)). cbn [bind]. rewrite G. cbn [bind]. rewrite ML. reflexivity.
  - intros ->. destruct (subentry_found table fs num bs L P (avail_index _ _ _ _ _ _ AV eq_refl) WF) as (n1 & R & _).
    rewrite (proj2 (getitem_dispatch _ (X4Entry e) table fs (KStr num)) L). unfold search_result in SR. cbn [a_getFile a_ent a_subent negb] in SR. rewrite R in SR. cbn [bind map fst snd] in SR.
    rewrite R. congruence.
  - clear - F2. induction F2 as [|kd kt ds l (Q & _) F IH]; [reflexivity|]. cbn [map]. now rewrite <- IH, Q.
  - intros k text I.
    assert (exists d, In (k, d) ds /\ dataset_repr nm d = Ok text) as (d & ID & T).
    { clear - F2 I. induction F2 as [|[k' d] [k'' t] ds l (Q & T) F IH]; [destruct I|]. cbn [fst snd] in Q, T. subst k''. destruct I as [I|I].
      - assert (k' = k /\ t = text) as (-> & ->) by (split; congruence). exists d. split; [now left|exact T].
      - destruct (IH I) as (d' & J & T'). exists d'. split; [now right|exact T']. }
    apply (In_dget _ key_eqb_eq _ _ _ GOOD) in ID.
    destruct (sets_listed c e D nm N acc raw n [] ds errs n' k d WE L8 X G ID) as (x & p & tx0 & tx1 & h & who & t & KE & LX & L1 & TB & RT & SL).
    destruct (TO _ _ LX) as (QX & b & -> & LB). destruct (TO _ _ L1) as (_ & b1 & -> & LB1). assert (t = text) by congruence. subst t.
    exists x, p, d, b, b1, h, who. auto 10.
  - intros p x line k t BW. destruct (from_gives c e nm D N acc bs _ n W (or_introl eq_refl) F U []) as (ds1 & errs1 & n1 & G1 & _ & FULL).
    assert (ds1 = ds) by congruence. subst ds1. destruct (FULL num p x line k t (or_intror eq_refl) BW) as (d & DG & OR & _ & DT).
    assert (exists text, In (acc, Some num, p, text) l) as (text & IT).
    { apply (StrLemmas.dget_In _ key_eqb_eq) in DG. clear - F2 DG. induction F2 as [|[k' d'] [k'' t'] ds l (Q & T) F IH]; [destruct DG|]. cbn [fst snd] in Q, T. subst k''. destruct DG as [I|I].
      - exists t'. left. assert (k' = (acc, Some num, p)) as -> by (change k' with (fst (k', d')); rewrite I; reflexivity). reflexivity.
      - destruct (IH I) as (text & J). exists text. now right. }
    exists d, text. auto.
Qed.

Lemma main_sub : forall acc bs n num b, Forall (well_block c) bs -> length num = 8 -> forall Q : str -> Prop, Q num -> entry_from c e acc bs Q n ->
  last_such (fun x => block_number x = num) bs b ->
  exists s, X4SubEntry e (concat b) = Ok s /\ dget tag_eqb (Some num) (n_subs n) = Some s /\ entry_getitem n (EStr num) = Ok s /\ well_subentry c (concat b) /\ numbered num (concat b).
Proof.
  intros acc bs n num b W L8 Q QN F L. destruct (from_numbers acc bs Q n W F) as (raw & WE & X & _ & _ & FROM). pose proof (FROM num b QN L) as LR.
  destruct (entry_last e raw n num (concat b) X LR) as (s & XS & _ & _ & G). exists s. split; [exact XS|]. split; [exact G|]. split; [now apply getitem_number|].
  destruct (last_in _ _ _ _ L) as (I & BN). pose proof (proj1 (Forall_forall _ _) W b I) as WB. split; [exact (block_well _ _ WB)|]. rewrite <- BN. now apply (block_numbered c).
Qed.

(** The number 1 is subentry 001. *)
Lemma getitem_one : forall n acc, n_accnum n = acc -> length acc = 5 -> entry_getitem n (EInt 1) = entry_getitem n (EStr (acc ++ tx "001")).
Proof.
  intros n acc A L. unfold entry_getitem. change (key_text (EInt 1)) with (tx "1"). cbn [key_text]. cbv zeta. rewrite app_length, L.
  change (length (tx "1") =? 8) with false. change (length (tx "1") <=? 3) with true. change (5 + length (tx "001") =? 8) with true. cbv iota. rewrite A. reflexivity.
Qed.
Lemma from_accnum : forall acc bs (Q : str -> Prop) n, entry_from c e acc bs Q n -> n_accnum n = acc.
Proof.
  intros acc bs Q n (sel & _ & WE & X). destruct (entry_total c e D acc _ WE) as (n1 & _ & _ & X1 & A & _). congruence.
Qed.

Lemma doc_printed : forall table fs file num bs, available c table fs file num bs ->
  let acc := firstn 5 num in
  exists b1 t, last_such (fun x => block_number x = acc ++ tx "001") bs b1 /\ subentry_shown e nm (acc ++ tx "001") (concat b1) t /\
    get_entry e nm (retrieve (X4Entry e) table fs) fs (mkArguments (Some num) None file false false false false true false) =
      ([PText [ascii_of_N 10; ascii_of_N 10]; PText t], Ok tt).
Proof.
  intros table fs file num bs AV acc. pose proof AV as [L P _ WF _].
  destruct (found table fs file num bs (mkArguments (Some num) None file false false false false true false) AV eq_refl eq_refl eq_refl (fun _ => eq_refl))
    as (n & CK & SR & U & F). fold acc in SR, U, F, WF. pose proof (file_well _ _ _ _ WF) as W. pose proof (file_length _ _ _ _ WF) as LA.
  destruct (file_main _ _ _ _ WF) as (b1 & bib & LB & _).
  destruct (main_sub acc bs n (acc ++ tx "001") b1 W ltac:(rewrite app_length, LA; reflexivity) _ (or_introl eq_refl) F LB) as (s & XS & _ & G & WS & NU).
  destruct (subentry_is_shown c e D nm N _ _ s WS NU XS) as (t & T & SH). exists b1, t. split; [exact LB|]. split; [exact SH|].
  unfold get_entry. rewrite CK. cbn [olift obind fst snd app]. rewrite SR. cbn [olift obind fst snd app a_ent a_subent a_nada a_raw a_rawdoc a_doc a_rawdata a_data owhen oseq].
  unfold print_doc. rewrite (proj1 (one_value acc n)). cbn [bind]. rewrite (getitem_one n acc (from_accnum _ _ _ _ F) LA), G. cbn [bind]. rewrite T. reflexivity.
Qed.

Lemma rawdoc_printed : forall table fs file num bs, available c table fs file num bs ->
  let acc := firstn 5 num in
  exists b1, last_such (fun x => block_number x = acc ++ tx "001") bs b1 /\
    let r := get_entry e nm (retrieve (X4Entry e) table fs) fs (mkArguments (Some num) None file false false false true false false) in
    (without_authors (concat b1) -> r = ([PText [ascii_of_N 10; ascii_of_N 10]], Raise AttributeError)) /\
    (~ without_authors (concat b1) -> exists s t, X4SubEntry e (concat b1) = Ok s /\ subentry_repr s = Ok t /\ r = ([PText [ascii_of_N 10; ascii_of_N 10]; PText t], Ok tt)).
Proof.
  intros table fs file num bs AV acc. pose proof AV as [L P _ WF _].
  destruct (found table fs file num bs (mkArguments (Some num) None file false false false true false false) AV eq_refl eq_refl eq_refl (fun _ => eq_refl))
    as (n & CK & SR & U & F). fold acc in SR, U, F, WF. pose proof (file_well _ _ _ _ WF) as W. pose proof (file_length _ _ _ _ WF) as LA.
  destruct (file_main _ _ _ _ WF) as (b1 & bib & LB & _).
  destruct (main_sub acc bs n (acc ++ tx "001") b1 W ltac:(rewrite app_length, LA; reflexivity) _ (or_introl eq_refl) F LB) as (s & XS & _ & G & WS & NU).
  exists b1. split; [exact LB|]. cbv zeta.
  unfold get_entry. rewrite CK. cbn [olift obind fst snd app]. rewrite SR. cbn [olift obind fst snd app a_ent a_subent a_nada a_raw a_rawdoc a_doc a_rawdata a_data owhen oseq].
  unfold print_rawdoc. rewrite (proj1 (one_value acc n)). cbn [bind]. rewrite (getitem_one n acc (from_accnum _ _ _ _ F) LA), G. cbn [bind].
  destruct (subentry_at_most c e _ _ s WS NU XS) as [(Q & R)|(Q & t & R)]; rewrite R; split; intro Z; try contradiction; [reflexivity|].
  exists s, t. auto.
Qed.

Lemma rawdata_printed : forall table fs file num bs, available c table fs file num bs -> num <> firstn 5 num ++ tx "001" ->
  let r := get_entry e nm (retrieve (X4Entry e) table fs) fs (mkArguments (Some num) None file false true false false false false) in
  (forall b section, last_such (fun x => block_number x = num) bs b -> has_section "DATA" (concat b) section ->
     exists d, X4DataSection (tx "DATA") section = Ok d /\
       r = ([PText (tx "---------- Raw Data ----------"); PText (data_str d); PText (tx "---------- Errors ----------"); PErrors []], Ok tt)) /\
  ((~ exists b section, last_such (fun x => block_number x = num) bs b /\ has_section "DATA" (concat b) section) ->
     r = ([PText (tx "---------- Raw Data ----------")], Raise KeyError)).
Proof.
  intros table fs file num bs AV NM r. pose proof AV as [L P _ WF _].
  destruct (found table fs file num bs (mkArguments (Some num) None file false true false false false false) AV eq_refl eq_refl eq_refl (fun _ => eq_refl))
    as (n & CK & SR & U & F). pose proof (file_well _ _ _ _ WF) as W. unfold r. clear r. unfold get_entry. rewrite CK. cbn [olift obind fst snd app]. rewrite SR.
  cbn [olift obind fst snd app a_ent a_subent a_nada a_raw a_rawdoc a_doc a_rawdata a_data owhen oseq]. unfold print_rawdata.
  assert (endswith num (lit "001") = false) as ->. { apply not_true_is_false. intro Z. apply (endswith_main num L) in Z. contradiction. }
  rewrite (proj2 (one_value (firstn 5 num) n)). cbn [bind]. split.
  - intros b section LB HS. destruct (main_sub _ bs n num b W L _ (or_intror eq_refl) F LB) as (s & XS & _ & G & WS & NU). rewrite G. cbn [bind].
    destruct (sub_table e (concat b) s "DATA" section XS (WellLemmas.well_named c _ WS) (or_introl eq_refl) HS) as (d & ED & SD). exists d. split; [exact ED|].
    unfold sub_data, sub_section in SD. change (list_ascii_of_string "DATA") with (lit "DATA") in SD. destruct (dget str_eqb (lit "DATA") (s_dict s)) as [x|]; [|discriminate SD].
    destruct x as [b0|d0]; [discriminate SD|]. assert (d0 = d) as -> by congruence. reflexivity.
  - intros NO. destruct (last_or_none _ (fun x => block_number x = num) bs) as [NB|(b & LB)]; [intro x; destruct (list_eq_dec ascii_dec (block_number x) num); tauto| |].
    + destruct (from_numbers _ bs _ n W F) as (raw & WE & X & _ & TO & _). unfold entry_getitem. cbn [key_text]. cbv zeta. rewrite L. change (8 =? 8) with true. cbv iota.
      destruct (dget tag_eqb (Some num) (n_subs n)) as [s|] eqn:G; [|reflexivity]. exfalso.
      destruct (entry_sorted c e _ raw n WE X) as (nums & _ & _ & _ & KK & KEY). assert (I : In (Some num) (dkeys (n_subs n))) by (apply (dget_Some_keys _ tag_eqb_eq); eauto).
      destruct (KK _ I) as (num' & Q & IN). assert (num' = num) by congruence. subst num'. destruct (KEY num IN) as (text & s' & LT & _). destruct (TO _ _ LT) as (_ & b & _ & LB).
      destruct (last_in _ _ _ _ LB) as (IB & BN). rewrite Forall_forall in NB. exact (NB b IB BN).
    + destruct (main_sub _ bs n num b W L _ (or_intror eq_refl) F LB) as (s & XS & _ & G & WS & NU). rewrite G. cbn [bind].
      assert (ND : dget str_eqb (lit "DATA") (s_dict s) = None); [|rewrite ND; reflexivity].
      destruct (subentry_sections c e num (concat b) s WS NU XS) as (has & _ & SK & HAS & EACH).
      destruct (dget str_eqb (lit "DATA") (s_dict s)) as [x|] eqn:Q; [|reflexivity]. exfalso. apply NO. exists b.
      assert (IK : In (lit "DATA") (subentry_sorted_keys s)). { unfold subentry_sorted_keys. apply ssort_In. apply (dget_Some_keys _ str_eqb_eq). eauto. }
      rewrite SK in IK. apply in_map_iff in IK. destruct IK as (name & E & IN). destruct (EACH name IN) as (section & _ & HS & _). exists section. split; [exact LB|].
      assert (name = "DATA") as <-; [|exact HS]. rewrite <- (string_of_list_ascii_of_string name). unfold tx in E. rewrite E. reflexivity.
Qed.

Lemma main_printed : forall table fs file num bs rd dd, available c table fs file num bs -> num = firstn 5 num ++ tx "001" -> rd || dd = true ->
  get_entry e nm (retrieve (X4Entry e) table fs) fs (mkArguments (Some num) None file false rd dd false false false) = ([], Raise ValueError).
Proof.
  intros table fs file num bs rd dd AV NM H. pose proof AV as [L P _ WF _].
  destruct (found table fs file num bs (mkArguments (Some num) None file false rd dd false false false) AV eq_refl eq_refl eq_refl (fun _ => eq_refl))
    as (n & CK & SR & _). unfold get_entry. rewrite CK. cbn [olift obind fst snd app]. rewrite SR.
  cbn [olift obind fst snd app a_ent a_subent a_nada a_raw a_rawdoc a_doc a_rawdata a_data owhen oseq]. unfold print_rawdata, print_data.
  rewrite (proj2 (endswith_main num L) NM). destruct rd, dd; try discriminate H; reflexivity.
Qed.

(** ** The numbers of an entry *)

Lemma keys_fold : forall bs d0 d, Forall (well_block c) bs ->
  fold_res (fun d x => s <- X4SubEntry e x ;; Ok (dset tag_eqb (s_accnum s) s d)) (map (@concat ascii) bs) d0 = Ok d ->
  NoDup (dkeys d0 ++ map Some (map block_number bs)) -> dkeys d = dkeys d0 ++ map Some (map block_number bs).
Proof.
  induction bs as [|b bs IH]; intros d0 d W F ND.
  - cbn [map fold_res] in F. assert (d0 = d) by congruence. subst. now rewrite app_nil_r.
  - cbn [map fold_res] in F. destruct (X4SubEntry e (concat b)) as [s|] eqn:X; [|discriminate F]. cbn [bind] in F.
    pose proof (block_numbered _ _ (Forall_inv W)) as BN. apply (numbered_accnum _ _ _ _ X) in BN. rewrite BN in F.
    assert (K : dkeys (dset tag_eqb (Some (block_number b)) s d0) = dkeys d0 ++ [Some (block_number b)]).
    { rewrite dkeys_dset. destruct (dhas tag_eqb (Some (block_number b)) d0) eqn:H; [|reflexivity]. exfalso. cbn [map] in ND. apply NoDup_remove_2 in ND. apply ND.
      apply in_or_app. left. unfold dhas in H. destruct (dget tag_eqb (Some (block_number b)) d0) eqn:G; [|discriminate]. apply (dget_Some_keys _ tag_eqb_eq). eauto. }
    apply IH in F; [|exact (Forall_inv_tail W)|].
    + rewrite F, K, <- app_assoc. reflexivity.
    + rewrite K, <- app_assoc. exact ND.
Qed.

Lemma filter_map_eq : forall (A B : Type) (f : A -> B) (q : B -> bool) l, map f (filter (fun x => q (f x)) l) = filter q (map f l).
Proof. intros A B f q. induction l as [|x l IH]; [reflexivity|]. cbn [filter map]. destruct (q (f x)); cbn [map]; now rewrite IH. Qed.

Lemma from_listed : forall acc bs (Q : str -> Prop) n, Forall (well_block c) bs -> entry_from c e acc bs Q n ->
  exists nums, dkeys (n_subs n) = map Some nums /\ listed_numbers bs Q nums.
Proof.
  intros acc bs Q n W (sel & S & WE & X). pose proof (entry_good _ _ _ X) as [ND _ _].
  assert (KEY : forall k, In k (dkeys (n_subs n)) -> exists num, k = Some num /\ sel num = true /\ exists b, In b bs /\ block_number b = num).
  { intros k I. unfold dkeys in I. apply in_map_iff in I. destruct I as ([k' s] & E & I). cbn [fst] in E. subst k'. exact (chosen_numbers c e bs sel W n k s X I). }
  assert (exists nums, dkeys (n_subs n) = map Some nums) as (nums & K).
  { clear - KEY. revert KEY. generalize (dkeys (n_subs n)). induction l as [|k l IH]; intro H; [exists []; reflexivity|].
    destruct IH as (nums & ->); [intros; apply H; now right|]. destruct (H k (or_introl eq_refl)) as (num & -> & _). exists (num :: nums). reflexivity. }
  exists nums. split; [exact K|]. split; [|split].
  - rewrite K in ND. exact (NoDup_map_inv _ _ ND).
  - intros num. split.
    + intro I. destruct (KEY (Some num)) as (num' & E & SN & b & IB & BN). { rewrite K. now apply in_map. }
      assert (num' = num) as Z by congruence. rewrite Z in SN, BN. split; [rewrite <- BN; now apply in_map|exact (proj1 (S num) SN)].
    + intros (I & QN). apply S in QN. apply in_map_iff in I. destruct I as (b & BN & IB).
      destruct (last_or_none _ (fun x => block_number x = num) bs) as [NO|(b' & LB)]; [intro x; destruct (list_eq_dec ascii_dec (block_number x) num); tauto|rewrite Forall_forall in NO; elim (NO b IB BN)|].
      pose proof (from_block c bs sel num b' W QN LB) as LR. destruct (entry_last e _ n num (concat b') X LR) as (s & _ & _ & _ & G).
      assert (IK : In (Some num) (dkeys (n_subs n))) by (apply (dget_Some_keys _ tag_eqb_eq); eauto). rewrite K in IK. apply in_map_iff in IK.
      destruct IK as (num' & E & I'). assert (num' = num) by congruence. now subst.
  - intro NB. exists sel. split; [exact S|]. pose proof (EntryLemmas.entry_ok _ _ _ X) as (_ & _ & F). rewrite <- filter_map_eq.
    assert (W' : Forall (well_block c) (filter (fun b => sel (block_number b)) bs)).
    { apply Forall_forall. intros b I. apply filter_In in I. exact (proj1 (Forall_forall _ _) W b (proj1 I)). }
    pose proof (keys_fold _ [] (n_subs n) W' F) as KF. cbn [dkeys map app] in KF. rewrite K in KF.
    assert (INJ : forall (l l' : list str), map Some l = map Some l' -> l = l').
    { induction l as [|x l IH]; intros [|y l'] E; try discriminate E; [reflexivity|]. cbn [map] in E. assert (x = y) by congruence.
      assert (map Some l = map Some l') by congruence. f_equal; auto. }
    apply INJ. apply KF. clear KF INJ. rewrite (filter_map_eq _ _ block_number sel bs). apply FinFun.Injective_map_NoDup; [intros x y E; congruence|]. now apply NoDup_filter.
Qed.

Lemma numbers_of : forall exn (nums : list str), map_res (of_option exn) (map Some nums) = Ok nums.
Proof. intros exn. induction nums as [|x l IH]; [reflexivity|]. cbn [map map_res of_option bind]. rewrite IH. reflexivity. Qed.

Lemma for_texts : forall (f : str -> str) l, ofor (fun i => oprint (PText (f i))) l = (map (fun i => PText (f i)) l, Ok tt).
Proof. intros f. induction l as [|x l IH]; [reflexivity|]. cbn [ofor map]. rewrite IH. reflexivity. Qed.

Lemma first_line : forall s, ~ In nl s -> hd [] (split_char nl s) = s.
Proof.
  induction s as [|a s IH]; intro H; [reflexivity|]. cbn [split_char]. destruct (Ascii.eqb a nl) eqn:E.
  - apply Ascii.eqb_eq in E. subst a. elim H. now left.
  - specialize (IH (fun I => H (or_intror I))). destruct (split_char nl s) as [|x l]; cbn [hd] in *; now subst.
Qed.

Lemma number_line : forall b, well_block c b -> ~ In nl (block_number b) /\ length (block_number b) = 8.
Proof.
  intros b [_ (l & rest & (_ & _ & F) & _ & -> & L)]. split; [|exact L]. intro I. apply (Forall_inv F). unfold columns in I.
  apply DataLemmas.firstn_In in I. now apply DataLemmas.skipn_In in I.
Qed.

(** ** The subentries of an entry *)

Lemma keys_printed : forall table fs acc bs, plain_text acc -> (exists r, In r table /\ r_entry r = Some acc) ->
  (forall r, In r table -> r_entry r = Some acc -> firstn 5 (r_subent r) = acc) -> well_file c fs acc bs ->
  exists nums, listed_numbers bs (fun x => x = acc ++ tx "001" \/ exists r, In r table /\ r_entry r = Some acc /\ r_subent r = x) nums /\
    get_entry e nm (retrieve (X4Entry e) table fs) fs (mkArguments None (Some acc) false false false false false false false) =
      (PText (tx "This ENTRY:       " ++ acc) :: map (fun num => PText (tx "    " ++ num)) nums, Ok tt).
Proof.
  intros table fs acc bs P (r0 & I0 & E0) A WF. pose proof (file_well _ _ _ _ WF) as W. pose proof (file_length _ _ _ _ WF) as LA.
  destruct (one_entry table fs (by_entry acc) acc bs) as (n & R & U & F); [now apply by_entry_clean|discriminate| | |exact WF|].
  - exists (r_subent r0), r0. split; [exact I0|]. split; [now apply by_entry_matches|reflexivity].
  - intros num (r & I & M & <-). apply A; [exact I|]. now apply by_entry_matches.
  - destruct (from_listed acc bs _ n W F) as (nums & K & LN). exists nums. split.
    + assert (EQ : forall x, (x = acc ++ tx "001" \/ (exists r, In r table /\ row_matches (by_entry acc) r /\ r_subent r = x)) <->
          (x = acc ++ tx "001" \/ (exists r, In r table /\ r_entry r = Some acc /\ r_subent r = x))).
      { intro x. split; (intros [H|(r & I & M & H)]; [now left|right; exists r; split; [exact I|split; [|exact H]]; now apply by_entry_matches]). }
      destruct LN as (N1 & N2 & N3). split; [exact N1|]. split; [intro num; now rewrite N2, EQ|]. intro NB. destruct (N3 NB) as (sel & S & H). exists sel. split; [intro num; now rewrite S, EQ|exact H].
    + unfold get_entry, check_arguments. cbn [a_subent a_ent]. rewrite LA. cbn [Nat.eqb negb olift obind fst snd app]. unfold search_result. cbn [a_getFile a_ent a_subent negb].
      rewrite R. cbn [bind map fst snd olift obind app]. unfold print_keys. cbn [hd_error of_option olift obind fst snd app oprint oseq items]. rewrite K, numbers_of.
      cbn [bind olift obind fst snd app].
      assert (FT : ofor (fun i => oprint (PText (lit "    " ++ firstn 22 (hd [] (split_char nl i))))) nums = (map (fun num => PText (tx "    " ++ num)) nums, Ok tt)).
      { rewrite (for_texts (fun i => lit "    " ++ firstn 22 (hd [] (split_char nl i))) nums). f_equal. apply map_ext_in. intros num I.
        apply LN in I. destruct I as (I & _). apply in_map_iff in I. destruct I as (b & <- & IB). destruct (number_line b (proj1 (Forall_forall _ _) W b IB)) as (NL & L8).
        rewrite (first_line _ NL). rewrite firstn_all2 by lia. reflexivity. }
      rewrite FT. unfold oseq, obind, oprint. cbn [fst snd app]. rewrite app_nil_r. reflexivity.
Qed.

(** ** --raw *)

Lemma own_value : forall acc (x : content), dget str_eqb acc [(acc, x)] = Some x.
Proof. intros acc x. unfold dget. cbn. assert (str_eqb acc acc = true) as -> by (now apply str_eqb_eq). reflexivity. Qed.

Lemma raw_printed : forall table fs num bs, available c table fs false num bs ->
  let acc := firstn 5 num in
  exists nums, listed_numbers bs (fun x => x = acc ++ tx "001" \/ x = num) nums /\
    get_entry e nm (retrieve (X4Entry e) table fs) fs (mkArguments (Some num) None false true false false false false false) =
      ([PText [ascii_of_N 10; ascii_of_N 10]; PText (Names.between [ascii_of_N 10] nums)], Ok tt).
Proof.
  intros table fs num bs AV acc. pose proof AV as [L P _ WF _].
  destruct (found table fs false num bs (mkArguments (Some num) None false true false false false false false) AV eq_refl eq_refl eq_refl (fun H => False_ind _ (diff_false_true H)))
    as (n & CK & SR & U & F). fold acc in SR, U, F, WF. pose proof (file_well _ _ _ _ WF) as W. destruct (from_listed acc bs _ n W F) as (nums & K & LN). exists nums. split; [exact LN|].
  unfold get_entry. rewrite CK. cbn [olift obind fst snd app]. rewrite SR. cbn [olift obind fst snd app a_ent a_subent a_nada a_raw a_rawdoc a_doc a_rawdata a_data owhen oseq].
  unfold print_raw. unfold dkeys. cbn [map fst]. change (ssort [acc]) with [acc]. cbn [ofor]. rewrite own_value. cbn [of_option bind items]. change (map fst (n_subs n)) with (dkeys (n_subs n)). rewrite K, numbers_of. cbn [bind].
  rewrite between_join. reflexivity.
Qed.

Lemma raw_file_printed : forall table fs num bs, length num = 8 -> well_file c fs (firstn 5 num) bs ->
  get_entry e nm (retrieve (X4Entry e) table fs) fs (mkArguments (Some num) None true true false false false false false) =
    ([PText [ascii_of_N 10; ascii_of_N 10]; PText (Names.between [ascii_of_N 10] (map (@concat ascii) bs))], Ok tt).
Proof.
  intros table fs num bs L WF. set (acc := firstn 5 num) in *. pose proof WF as [LA (content & ls & FS & S & B) W M].
  assert (X : x4EntryFactory (@Ok (list str)) fs acc None = Ok (map (@concat ascii) bs)).
  { rewrite (factory_spec _ _ _ _ _ _ _ _ LA FS S B). do 2 f_equal. clear. induction bs as [|b bs IH]; [reflexivity|]. cbn [filter]. now rewrite IH. }
  unfold get_entry, check_arguments. cbn [a_subent a_ent]. rewrite L. cbn [Nat.eqb negb olift obind fst snd app]. unfold search_result. cbn [a_getFile a_ent a_subent a_raw negb].
  change (slice num 0 5) with acc. rewrite X. cbn [bind map fst snd olift obind app a_ent a_subent a_nada a_raw a_rawdoc a_doc a_rawdata a_data owhen oseq].
  unfold print_raw, dkeys. cbn [map fst]. change (ssort [acc]) with [acc]. cbn [ofor]. rewrite own_value. cbn [of_option bind items]. rewrite between_join. reflexivity.
Qed.

(** ** What the index does not have *)

Lemma absent_printed : forall table fs num ad dd rd dc, length num = 8 -> plain_text num -> ~ In num (map r_subent table) ->
  get_entry e nm (retrieve (X4Entry e) table fs) fs (mkArguments (Some num) None false false ad dd rd dc false) =
    (if rd || dc then ([PText [ascii_of_N 10; ascii_of_N 10]], Raise IndexError)
     else if endswith num (tx "001") then ([], if ad || dd then Raise ValueError else Ok tt)
     else if ad then ([PText (tx "---------- Raw Data ----------")], Raise IndexError)
     else if dd then ([PText (tx "---------- Data ----------")], Raise IndexError) else ([], Ok tt)).
Proof.
  intros table fs num ad dd rd dc L P NI.
  assert (R : retrieve (X4Entry e) table fs (by_subent num) = Ok []).
  { unfold retrieve. rewrite (query_no_match table (by_subent num)); [reflexivity|now apply by_subent_clean|discriminate|].
    intros r I M. apply by_subent_matches in M. apply NI. rewrite <- M. now apply in_map. }
  unfold get_entry, check_arguments. cbn [a_subent a_ent]. rewrite L. cbn [Nat.eqb negb olift obind fst snd app]. unfold search_result. cbn [a_getFile a_ent a_subent a_raw negb].
  rewrite R. cbn [bind map fst snd olift obind app a_ent a_subent a_nada a_raw a_rawdoc a_doc a_rawdata a_data owhen oseq].
  unfold print_rawdata, print_data. change (lit "001") with (tx "001"). destruct rd, dc, ad, dd, (endswith num (tx "001")); reflexivity.
Qed.

Lemma absent_entry : forall table fs acc, length acc = 5 -> plain_text acc -> (forall r, In r table -> r_entry r <> Some acc) ->
  get_entry e nm (retrieve (X4Entry e) table fs) fs (mkArguments None (Some acc) false false false false false false false) = ([], Raise IndexError).
Proof.
  intros table fs acc L P NI.
  assert (R : retrieve (X4Entry e) table fs (by_entry acc) = Ok []).
  { unfold retrieve. rewrite (query_no_match table (by_entry acc)); [reflexivity|now apply by_entry_clean|discriminate|].
    intros r I M. apply by_entry_matches in M. exact (NI r I M). }
  unfold get_entry, check_arguments. cbn [a_subent a_ent]. rewrite L. cbn [Nat.eqb negb olift obind fst snd app]. unfold search_result. cbn [a_getFile a_ent a_subent a_raw negb].
  rewrite R. reflexivity.
Qed.
End Client.

(** ** -c *)

Lemma compressed_printed : forall e nm mk table t cache fs num raw rawdata data rawdoc doc nada x ls,
  length num = 8 -> plain_text num -> In num (map r_subent table) -> snd (cache_getitem t (x4_path (firstn 5 num)) cache) = Ok (x :: ls) ->
  get_entry e nm (fun crit => snd (retrieve_cached mk table t crit cache)) fs (mkArguments (Some num) None false raw rawdata data rawdoc doc nada) = ([], Raise TypeError).
Proof.
  intros e nm mk table t cache fs num raw ad dd rd dc na x ls L P I G.
  assert (exists l m, query table (by_subent num) = Ok ((firstn 5 num, l) :: m)) as (l & m & Q).
  { destruct (query_spec table (by_subent num) (by_subent_clean num P) ltac:(discriminate)) as (m & Q & _ & K & _). apply in_map_iff in I. destruct I as (r & E & I).
    assert (KI : In (firstn 5 num) (map fst m)). { apply K. exists num. split; [|reflexivity]. exists r. split; [exact I|]. split; [now apply by_subent_matches|exact E]. }
    destruct m as [|[a l] m]; [destruct KI|]. exists l, m. rewrite Q. do 3 f_equal. assert (IA : In a (map fst ((a, l) :: m))) by now left.
    apply K in IA. destruct IA as (num' & (r' & _ & M & E') & <-). apply by_subent_matches in M. congruence. }
  unfold get_entry, check_arguments. cbn [a_subent a_ent]. rewrite L. cbn [Nat.eqb negb olift obind fst snd app]. unfold search_result. cbn [a_getFile a_ent a_subent a_raw negb].
  rewrite (cached_type_error _ mk table t (by_subent num) cache (firstn 5 num) l m x ls Q); [reflexivity|rewrite firstn_length, L; reflexivity|exact G].
Qed.
