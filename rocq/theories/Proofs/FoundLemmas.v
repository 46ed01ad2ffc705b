(** From a search to the numbers. *)
From Coq Require Import String List Ascii NArith ZArith Bool Arith Lia Sorted.
From Coq Require Import Floats.SpecFloat.
From Verif.Model Require Import Py PyFloat Storage Sql Manager Particle Reaction Field Section Entry Columns Dataset Print Pyparsing Grammars.
From Verif.Spec Require Import Text Exfor Tables DataSets Merging Codes General Balance Known GeneralKnown IsomerMath Query Files Document WellWritten Printable Stored Pointed Found.
From Verif.Spec Require Readings.
From Verif.Proofs Require Import StrLemmas ReactionLemmas ManagerLemmas StorageLemmas EntryLemmas EntryDataLemmas WellLemmas WellSimple PointedLemmas RetrieveLemmas.
Import ListNotations.
Local Open Scope string_scope.
Local Open Scope list_scope.
Local Open Scope nat_scope.

Section Found.
Context (c : codes) (e : env) (nm : names) (D : well_dictionaries c e) (N : naming c e nm).

(** The subentry of a number among the chosen ones is the block of that number in the file. *)
Lemma from_block : forall bs (sel : str -> bool) num b, Forall (well_block c) bs -> sel num = true ->
  last_such (fun x => block_number x = num) bs b -> last_such (numbered num) (map (@concat ascii) (filter (fun b => sel (block_number b)) bs)) (concat b).
Proof.
  intros bs sel num b W S L.
  apply (last_such_split _ _ (@concat ascii) (fun b => sel (block_number b)) (fun x => block_number x = num) _ bs); [|intros b' I E; now rewrite E|exact L].
  intros b' I. now apply (numbers_agree c bs W).
Qed.

Section From.
Context (acc : str) (bs : list (list str)) (Q : str -> Prop) (n : entry).
Context (W : Forall (well_block c) bs) (Q1 : Q (acc ++ tx "001")) (F : entry_from c e acc bs Q n) (U : entry_usable nm acc Q n).

Lemma from_gives : entry_gives c nm acc bs Q n.
Proof.
  intros errs. destruct (U errs) as (ds & errs' & n' & G & K). exists ds, errs', n'. split; [exact G|]. split; [intros key d H; exact (proj1 (K key d H))|].
  destruct F as (sel & S & WE & X). destruct N as [_ NC FQ FM].
  intros num p x line k t Qn (NE & b & b1 & L & L1 & (code & q & SF & CT & CQ & KD) & data & h1 & h2 & r1 & r2 & hd & rows & C1 & C2 & HD & P & ->).
  destruct (pointed_full c e D nm acc _ num _ _ data p code line x q k h1 h2 r1 r2 hd rows NC FQ FM WE
    (from_block bs sel num b W (proj2 (S num) Qn) L) (from_block bs sel _ b1 W (proj2 (S _) Q1) L1) NE SF CT CQ KD C1 C2 HD P errs)
    as (n0 & ds0 & errs0 & n0' & d & E & _ & G0 & H & O & DS & DT).
  assert (n0 = n) by congruence. subst n0. assert (ds0 = ds) by congruence. subst ds0. exists d. auto.
Qed.

Lemma from_simplified : forall acos mk, Forall (fun b => simple_subentry acos (concat b)) bs -> entry_gives_simplified c nm acos mk acc bs Q n.
Proof.
  intros acos mk SB errs s. destruct F as (sel & S & WE & X). destruct N as [_ NC FQ FM].
  assert (SS : Forall (simple_subentry acos) (map (@concat ascii) (filter (fun b => sel (block_number b)) bs))).
  { apply Forall_map, Forall_forall. intros b I. apply filter_In in I. exact (proj1 (Forall_forall _ _) SB b (proj1 I)). }
  destruct (simplified_total c e D acos nm NC FQ FM acc _ mk errs s WE SS) as (n0 & ds & errs' & n' & s' & E & _ & G).
  assert (n0 = n) by congruence. subst n0. exists ds, errs', n', s'. split; [exact G|]. split.
  - intros key d H. destruct (simplifiedDataSets_spec _ _ _ _ _ _ _ _ _ _ _ _ X G) as (ds0 & errs0 & GD & DK & _).
    destruct (U errs) as (ds1 & errs1 & n1 & G1 & K). assert (ds1 = ds0) by congruence. subst ds1.
    assert (I : In key (dkeys ds0)) by (rewrite <- DK; apply (dget_Some_keys _ key_eqb_eq); eauto).
    apply (dget_Some_keys _ key_eqb_eq) in I. destruct I as (d0 & I). exact (proj1 (K key d0 I)).
  - intros num p x line k t Qn (NE & b & b1 & L & L1 & (code & q & SF & CT & CQ & KD) & data & h1 & h2 & r1 & r2 & hd & rows & C1 & C2 & HD & P & ->).
    destruct (pointed_simplified c e D nm acc _ num _ _ data p code line x q k h1 h2 r1 r2 hd rows NC FQ FM WE
      (from_block bs sel num b W (proj2 (S num) Qn) L) (from_block bs sel _ b1 W (proj2 (S _) Q1) L1) NE SF CT CQ KD C1 C2 HD P acos mk errs s SS)
      as (n0 & ds0 & errs0 & n0' & s0' & d & E0 & _ & G0 & H & O & R).
    assert (n0 = n) by congruence. subst n0. rewrite G in G0. injection G0 as <- <- <- <-. exists d. auto.
Qed.

Lemma from_keys : exists ks, map fst (n_subs n) = map Some ks /\ Forall (fun k => length k = 8) ks.
Proof.
  destruct F as (sel & S & WE & X).
  assert (K : Forall (fun k => exists num, k = Some num /\ length num = 8) (map fst (n_subs n))).
  { apply Forall_map, Forall_forall. intros [k s] I. destruct (chosen_numbers c e bs sel W n k s X I) as (num & -> & _ & b & Ib & <-).
    exists (block_number b). split; [reflexivity|]. destruct (proj1 (Forall_forall _ _) W b Ib) as [_ (l & rest & _ & _ & _ & L)]. exact L. }
  clear - K. induction (map fst (n_subs n)) as [|k l IH]; [exists []; split; [reflexivity|constructor]|].
  destruct (Forall_inv K) as (num & -> & L). destruct (IH (Forall_inv_tail K)) as (ks & -> & FK). exists (num :: ks). split; [reflexivity|now constructor].
Qed.
End From.

Lemma search_numbers : forall table fs crit, clean_criteria crit -> used_values crit <> [] ->
  let hit num := exists r, In r table /\ row_matches crit r /\ r_subent r = num in
  (forall num, hit num -> exists bs, well_file c fs (firstn 5 num) bs) ->
  exists r, retrieve (X4Entry e) table fs crit = Ok r /\
    (forall acc, In acc (map fst r) <-> exists num, hit num /\ firstn 5 num = acc) /\
    forall acc n bs, In (acc, n) r -> well_file c fs acc bs ->
      let wanted num := num = acc ++ tx "001" \/ hit num /\ firstn 5 num = acc in
      entry_gives c nm acc bs wanted n /\
      forall acos mk, Forall (fun b => simple_subentry acos (concat b)) bs -> entry_gives_simplified c nm acos mk acc bs wanted n.
Proof.
  intros table fs crit C UV hit H. destruct (search_entries c e nm D N table fs crit C UV H) as (r & R & _ & K & V).
  exists r. split; [exact R|]. split; [exact K|]. intros acc n bs I WF wanted. destruct (V acc n bs I WF) as (_ & U & F).
  split; [|intros acos mk]; [apply from_gives|apply from_simplified]; try assumption; try exact (file_well _ _ _ _ WF); now left.
Qed.

(** The whole file. *)
Lemma file_numbers : forall fs acc bs, well_file c fs acc bs -> Forall (fun b => firstn 5 (block_number b) = acc) bs ->
  exists n, x4EntryFactory (X4Entry e) fs acc None = Ok n /\ entry_gives c nm acc bs (fun _ => True) n /\
    forall acos mk, Forall (fun b => simple_subentry acos (concat b)) bs -> entry_gives_simplified c nm acos mk acc bs (fun _ => True) n.
Proof.
  intros fs acc bs WF P. destruct (file_entry c e nm D N fs acc bs WF P) as (n & X & _ & U). exists n. split; [exact X|].
  assert (F : entry_from c e acc bs (fun _ => True) n).
  { destruct WF as [LA (content & ls & Fs & S & B) W M]. rewrite (factory_spec _ _ _ _ _ _ _ _ LA Fs S B) in X.
    exists (fun _ => true). split; [intros; tauto|]. split; [|exact X].
    apply (chosen_well c acc bs (fun _ => true) LA W M eq_refl). intros b I _. exact (proj1 (Forall_forall _ _) P b I). }
  split; [|intros acos mk]; [apply from_gives|apply from_simplified]; try assumption; try exact (file_well _ _ _ _ WF); exact I.
Qed.

(** One subentry of the database. *)
Lemma subentry_numbers : forall table fs i bs,
  let num := match i with KStr s => s | KInt z => z_to_str z end in
  let acc := firstn 5 num in
  length num = 8 -> plain_text num -> In num (map r_subent table) -> well_file c fs acc bs ->
  exists n, db_getitem (X4Entry e) table fs i = Ok [(acc, n)] /\
    let wanted x := x = acc ++ tx "001" \/ x = num in
    entry_gives c nm acc bs wanted n /\
    forall acos mk, Forall (fun b => simple_subentry acos (concat b)) bs -> entry_gives_simplified c nm acos mk acc bs wanted n.
Proof.
  intros table fs i bs num acc L P I WF.
  rewrite (proj2 (getitem_dispatch _ (X4Entry e) table fs i) L). fold num.
  assert (HT : forall x, (exists r, In r table /\ row_matches (by_subent num) r /\ r_subent r = x) <-> x = num).
  { intros x. split.
    - intros (r & _ & (_ & _ & _ & _ & _ & M & _) & <-). exact (M num eq_refl).
    - intros ->. apply in_map_iff in I. destruct I as (r & E & I). exists r. split; [exact I|]. split; [|exact E].
      repeat split; cbn; try discriminate. intros v H. injection H as <-. exact E. }
  destruct (search_entries c e nm D N table fs (by_subent num)) as (r & R & SO & K & V).
  - split; [|discriminate]. cbn. constructor; [exact P|constructor].
  - discriminate.
  - intros x H. apply HT in H. subst x. eauto.
  - rewrite R. assert (KA : forall a, In a (map fst r) <-> a = acc).
    { intros a. rewrite K. split; [intros (x & H & <-); apply HT in H; now subst x|]. intros ->. exists num. split; [now apply HT|reflexivity]. }
    assert (exists n, r = [(acc, n)]) as (n & ->).
    { destruct r as [|[a n] r]; [exfalso; exact (proj2 (KA acc) eq_refl)|]. exists n.
      assert (a = acc) as -> by (apply KA; now left). destruct r as [|[a n'] r]; [reflexivity|].
      assert (a = acc) as -> by (apply KA; right; now left). exfalso. inversion SO as [|? ? _ FA]; subst. apply Forall_inv in FA. apply str_lt_iff in FA. now destruct FA. }
    exists n. split; [reflexivity|]. intros wanted. destruct (V acc n bs (or_introl eq_refl) WF) as (_ & U & F).
    assert (E : forall x, (x = acc ++ tx "001" \/ (exists r, In r table /\ row_matches (by_subent num) r /\ r_subent r = x) /\ firstn 5 x = acc) <-> wanted x).
    { intros x. unfold wanted. split; [intros [H|[H _]]; [now left|right; now apply HT]|]. intros [H|H]; [now left|right; split; [now apply HT|now subst x]]. }
    apply (from_ext c e acc bs _ _ n E) in F. apply (usable_ext nm acc _ _ n (fun x => proj1 (E x))) in U.
    split; [|intros acos mk]; [apply from_gives|apply from_simplified]; try assumption; try exact (file_well _ _ _ _ WF); now left.
Qed.
End Found.

(** Raw subentries made into entries by hand: the same entries. *)
Lemma raw_entries : forall (E : Type) (mk : list str -> res E) table fs crit r, retrieve mk table fs crit = Ok r ->
  exists rr, retrieve (@Ok (list str)) table fs crit = Ok rr /\ Forall2 (fun kn kt => fst kn = fst kt /\ mk (snd kt) = Ok (snd kn)) r rr.
Proof.
  intros E mk table fs crit r R. destruct (query table crit) as [m|x] eqn:Q; [|unfold retrieve in R; rewrite Q in R; discriminate].
  rewrite (retrieve_eq _ _ _ _ _ _ Q) in R. rewrite (retrieve_eq _ _ _ _ _ _ Q). apply bind_ok in R. destruct R as (ys & Y & R). assert (r = combine (map fst m) ys) as -> by congruence. clear R. apply map_res_Forall2 in Y.
  assert (exists ts, Forall2 (fun kv t => x4EntryFactory (@Ok (list str)) fs (fst kv) (Some (snd kv)) = Ok t) m ts /\
    Forall2 (fun y t => mk t = Ok y) ys ts) as (ts & A & B).
  { clear Q. induction Y as [|kv y m ys H Y IH]; [exists []; split; constructor|]. destruct IH as (ts & A & B). unfold x4EntryFactory in H.
    destruct (negb _) eqn:L; [discriminate|]. destruct (fs _ _) as [content|] eqn:F; [|discriminate]. cbn [of_option bind] in H.
    refine (ex_intro _ (_ :: ts) _). split; constructor; [|exact A|exact H|exact B]. unfold x4EntryFactory. rewrite L, F. reflexivity. }
  apply map_res_Forall2 in A. rewrite A. cbn [bind]. eexists. split; [reflexivity|]. apply map_res_Forall2 in A. clear Q.
  revert ys Y B. induction A as [|kv t m ts H A IH]; intros ys Y B; [constructor|]. inversion Y; subst. inversion B; subst.
  cbn [map combine]. constructor; [split; [reflexivity|assumption]|]. now apply IH.
Qed.

(** An entry is not the text of an entry. *)
Lemma index_short : forall ls, Forall (fun l => length l <= 18) ls -> match extractX4EntryIndex ls with Some a => length a < 5 | None => True end.
Proof.
  intros ls F. induction F as [|l ls H F IH]; [exact I|]. cbn [extractX4EntryIndex]. destruct (str_eqb _ _); [exact IH|].
  assert (S : length (slice l 14 22) < 5) by (unfold slice; rewrite firstn_length, skipn_length; lia).
  destruct (split_ws l) as [|w ws]; [exact IH|]. destruct (str_eqb w (lit "ENTRY")).
  - pose proof (strip_length (slice l 14 22)). lia.
  - destruct (str_eqb w (lit "SUBENT")); [|exact IH]. rewrite firstn_length. lia.
Qed.
Lemma keys_refused : forall e ls, Forall (fun l => length l <= 18) ls -> X4Entry e ls = Raise KeyError.
Proof.
  intros e ls F. unfold X4Entry. pose proof (index_short ls F) as S. destruct (extractX4EntryIndex ls) as [a|]; [|reflexivity].
  replace (length a =? 5) with false by (symmetry; apply Nat.eqb_neq; lia). reflexivity.
Qed.

Lemma search_twice : forall c e nm, well_dictionaries c e -> naming c e nm -> forall table fs crit, clean_criteria crit -> used_values crit <> [] ->
  (forall r, In r table -> row_matches crit r -> exists bs, well_file c fs (firstn 5 (r_subent r)) bs) ->
  exists r, retrieve (X4Entry e) table fs crit = Ok r /\
    forall acc n, In (acc, n) r -> exists keys, map fst (n_subs n) = map Some keys /\ X4Entry e keys = Raise KeyError.
Proof.
  intros c e nm D N table fs crit C UV H. destruct (search_entries c e nm D N table fs crit C UV) as (r & R & _ & K & V).
  - intros num (x & I & M & <-). exact (H x I M).
  - exists r. split; [exact R|]. intros acc n I.
    assert (I' : In acc (map fst r)) by exact (in_map fst _ _ I). apply K in I'. destruct I' as (num & (x & Ix & M & <-) & <-).
    destruct (H x Ix M) as (bs & WF). destruct (V _ n bs I WF) as (_ & _ & F).
    destruct (from_keys c e _ bs _ n (file_well _ _ _ _ WF) F) as (ks & E & L8). exists ks. split; [exact E|].
    apply keys_refused. eapply Forall_impl; [|exact L8]. cbn beta. intros; lia.
Qed.
