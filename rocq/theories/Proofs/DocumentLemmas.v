(** From the text of an entry to its data sets. *)
From Coq Require Import String List Ascii NArith ZArith Bool Arith Lia.
From Coq Require Import Floats.SpecFloat.
From Verif.Model Require Import Py PyFloat Utilities Dicts Particle Reaction Field Section Entry Columns Dataset Pyparsing Grammars.
From Verif.Spec Require Import Text Exfor Tables DataSets Merging Codes Balance Document.
From Verif.Proofs Require Import StrLemmas NumLemmas IntLemmas ReactionLemmas DictLemmas FieldLemmas BibLemmas DataLemmas EntryLemmas UnitLemmas MergeLemmas DatasetLemmas EntryDataLemmas BalanceLemmas SimplifyLemmas CrossLemmas TextTableLemmas.
Import ListNotations.
Local Open Scope string_scope.
Local Open Scope list_scope.
Local Open Scope nat_scope.

(** ** Lines *)

Lemma lines_join : forall lines, lines <> [] -> lines_text lines = join [nl] lines.
Proof.
  induction lines as [|l ls IH]; intros N; [congruence|]. destruct ls as [|l' ls]; [cbn; now rewrite ?app_nil_r|].
  change (lines_text (l :: l' :: ls)) with (l ++ nl :: lines_text (l' :: ls)). rewrite IH by discriminate. reflexivity.
Qed.
Lemma lines_split : forall text lines, lines_of text lines -> split_char nl text = lines.
Proof.
  intros text lines (N & -> & F). rewrite lines_join by exact N. apply split_comma; [exact N|]. rewrite Forall_forall in F. exact F.
Qed.

(** ** Sections *)

Lemma lit_tx : forall s, lit s = tx s.
Proof. reflexivity. Qed.

Definition section_name (name : string) : Prop := In name ["BIB"; "DATA"; "COMMON"].
Lemma named_type : forall name b, section_name name -> field_keyword (tx name) b -> extractX4SectionType b = Some (lit name).
Proof.
  intros name b S (first & rest & -> & K). apply trimmed_unique in K. cbn [extractX4SectionType].
  change (slice first 0 10) with (columns 0 10 first). rewrite K.
  assert (smem (tx name) section_names = true) as ->; [|reflexivity].
  destruct S as [<-|[<-|[<-|[]]]]; reflexivity.
Qed.
Lemma keyword_unique : forall a b k, field_keyword a k -> field_keyword b k -> a = b.
Proof.
  intros a b k (f & r & -> & K) (f' & r' & E & K'). injection E as <- <-. apply trimmed_unique in K, K'. congruence.
Qed.

Definition section_fold (e : env) := fold_res (fun (d : list (str * section)) (b : list str) => s <- make_section e b ;; Ok (dset str_eqb (fst s) (snd s) d)).
Lemma section_other : forall e bs d d' name, Forall (fun b => exists n, section_name n /\ field_keyword (tx n) b) bs ->
  Forall (fun b => ~ field_keyword (tx name) b) bs -> section_fold e bs d = Ok d' -> dget str_eqb (lit name) d' = dget str_eqb (lit name) d.
Proof.
  intros e. induction bs as [|b bs IH]; intros d d' name F N E; [now injection E as <-|].
  inversion F as [|? ? (n & Sn & Kn) F']; subst. inversion N as [|? ? N1 N2]; subst.
  cbn [section_fold fold_res] in E. apply bind_ok in E. destruct E as (d1 & E1 & E). apply bind_ok in E1. destruct E1 as ([k s] & Em & E1).
  injection E1 as <-. rewrite (IH _ _ _ F' N2 E). cbn [fst snd]. rewrite (dget_dset _ _ str_eqb str_eqb_eq).
  destruct (str_eqb (lit name) k) eqn:Q; [|reflexivity]. apply str_eqb_eq in Q. exfalso. unfold make_section in Em.
  rewrite (named_type n b Sn Kn) in Em. apply N1.
  assert (HK : lit n = k).
  { destruct (str_eqb (lit n) (lit "BIB")); apply bind_ok in Em; destruct Em as (? & _ & Em); injection Em as <- _; reflexivity. }
  rewrite <- lit_tx, Q, <- HK. exact Kn.
Qed.
Lemma section_last : forall e bs d d' name b, Forall (fun b => exists n, section_name n /\ field_keyword (tx n) b) bs -> section_name name ->
  last_such (field_keyword (tx name)) bs b -> section_fold e bs d = Ok d' ->
  exists s, make_section e b = Ok (lit name, s) /\ dget str_eqb (lit name) d' = Some s.
Proof.
  intros e bs d d' name b F S (pre & post & -> & K & N) E. unfold section_fold in E. rewrite fold_res_app in E. apply bind_ok in E.
  destruct E as (d1 & E1 & E). cbn [fold_res] in E. apply bind_ok in E. destruct E as (d2 & E2 & E).
  apply bind_ok in E2. destruct E2 as ([k s] & Em & E2). injection E2 as <-. cbn [fst snd] in E.
  assert (k = lit name).
  { unfold make_section in Em. rewrite (named_type name b S K) in Em.
    destruct (str_eqb (lit name) (lit "BIB")); apply bind_ok in Em; destruct Em as (? & _ & Em); injection Em as <- _; reflexivity. }
  subst k. exists s. split; [exact Em|]. apply Forall_app in F. destruct F as [_ F]. inversion F as [|? ? _ F']; subst.
  rewrite (section_other e post _ d' name F' N E). rewrite (dget_dset _ _ str_eqb str_eqb_eq). now rewrite str_eqb_refl.
Qed.

Lemma sections_chunkify : forall lines bs, sections lines bs -> subentry_chunkify lines = bs.
Proof. intros lines bs S. now apply subentry_chunkify_iff. Qed.

Lemma named_blocks : forall text, sections_named text ->
  Forall (fun b => exists n, section_name n /\ field_keyword (tx n) b) (subentry_chunkify (split_char nl text)).
Proof. intros text (lines & bs & L & S & F). rewrite (lines_split _ _ L), (sections_chunkify _ _ S). exact F. Qed.

Lemma sub_fold : forall e text s, X4SubEntry e text = Ok s -> section_fold e (subentry_chunkify (split_char nl text)) [] = Ok (s_dict s).
Proof. intros e text s E. unfold X4SubEntry, X4SubEntry_lines in E. apply bind_ok in E. destruct E as (d & E1 & E). injection E as <-. exact E1. Qed.

Lemma sub_has : forall e text s name b, X4SubEntry e text = Ok s -> sections_named text -> section_name name -> has_section name text b ->
  exists x, make_section e b = Ok (lit name, x) /\ sub_section s name = Some x.
Proof.
  intros e text s name b E N S (lines & bs & L & C & La). apply named_blocks in N. apply sub_fold in E.
  rewrite (lines_split _ _ L), (sections_chunkify _ _ C) in *. exact (section_last e bs [] _ name b N S La E).
Qed.
Lemma sub_none : forall e text s name, X4SubEntry e text = Ok s -> sections_named text -> no_section name text -> sub_section s name = None.
Proof.
  intros e text s name E N (lines & bs & L & C & La). apply named_blocks in N. apply sub_fold in E.
  rewrite (lines_split _ _ L), (sections_chunkify _ _ C) in *. exact (section_other e bs [] _ name N La E).
Qed.

Lemma sub_bib : forall e text s b, X4SubEntry e text = Ok s -> sections_named text -> has_section "BIB" text b ->
  exists x, X4BibSection e b = Ok x /\ bib_of s = Some x.
Proof.
  intros e text s b E N H. destruct (sub_has e text s "BIB" b E N (or_introl eq_refl) H) as (x & M & G).
  unfold make_section in M. destruct (extractX4SectionType b) as [t|]; [|discriminate]. destruct (str_eqb t (lit "BIB")) eqn:Q.
  - apply bind_ok in M. destruct M as (bb & Eb & M). injection M as -> <-. exists bb. split; [exact Eb|]. unfold bib_of, sub_section in *. unfold lit in G. now rewrite G.
  - apply bind_ok in M. destruct M as (bb & Eb & M). injection M as -> _. now rewrite str_eqb_refl in Q.
Qed.
Lemma sub_table : forall e text s name b, X4SubEntry e text = Ok s -> sections_named text -> name = "DATA" \/ name = "COMMON" -> has_section name text b ->
  exists x, X4DataSection (lit name) b = Ok x /\ sub_data s name = Some x.
Proof.
  intros e text s name b E N D H. assert (S : section_name name) by (destruct D as [-> | ->]; [right; now left|right; right; now left]).
  destruct (sub_has e text s name b E N S H) as (x & M & G).
  unfold make_section in M. destruct (extractX4SectionType b) as [t|]; [|discriminate]. destruct (str_eqb t (lit "BIB")) eqn:Q.
  - apply bind_ok in M. destruct M as (bb & Eb & M). injection M as -> _. destruct D as [-> | ->]; discriminate.
  - apply bind_ok in M. destruct M as (bb & Eb & M). injection M as -> <-. exists bb. split; [exact Eb|]. unfold sub_data. now rewrite G.
Qed.

Lemma sub_common : forall e text s i h r, X4SubEntry e text = Ok s -> sections_named text -> common_table text h r -> common_is (common_of i s) h r.
Proof.
  intros e text s i h r E N [(-> & -> & X)|(b & H & W)]; unfold common_of.
  - assert (sub_data s "COMMON" = None) as -> by (unfold sub_data; now rewrite (sub_none _ _ _ _ E N X)). cbn. auto.
  - destruct (sub_table e text s "COMMON" b E N (or_intror eq_refl) H) as (x & Ex & ->). cbn. eauto.
Qed.

(** ** The reaction *)

Lemma marks_blank : forall ls, Forall (fun l => column11 l = " "%char) ls -> marks " " ls = repeat " "%char (length ls).
Proof. induction ls as [|l ls IH]; intros F; [reflexivity|]. inversion F as [|? ? E F']; subst. cbn [marks length repeat]. rewrite E. change (Ascii.eqb " " " ") with true. cbv iota zeta. f_equal. now apply IH. Qed.
Lemma marked_blank : forall (A : Type) (xs : list A), marked " " (repeat " "%char (length xs)) xs = xs.
Proof. induction xs as [|x xs IH]; [reflexivity|]. cbn [length repeat marked]. change (Ascii.eqb " " " ") with true. cbv iota. now rewrite IH. Qed.

Lemma map_res_dget : forall (A B : Type) (f : A -> res B) d rs p x, map_res (fun pl : ascii * A => r <- f (snd pl) ;; Ok (fst pl, r)) d = Ok rs ->
  dget Ascii.eqb p d = Some x -> exists y, f x = Ok y /\ dget Ascii.eqb p rs = Some y.
Proof.
  intros A B f. induction d as [|[q z] d IH]; intros rs p x E G; [discriminate|]. cbn [map_res fst snd] in E.
  apply bind_ok in E. destruct E as (y & Ey & E). apply bind_ok in Ey. destruct Ey as (r & Er & Ey). injection Ey as <-.
  apply bind_ok in E. destruct E as (ys & Eys & E). injection E as <-. cbn [dget] in *. destruct (Ascii.eqb p q).
  - injection G as <-. eauto.
  - now apply (IH ys).
Qed.

Lemma blank_join : forall parts, parts <> [] -> blank_separated parts = join [sp] parts.
Proof.
  induction parts as [|l ls IH]; intros N; [congruence|]. destruct ls as [|l' ls]; [cbn; now rewrite ?app_nil_r|].
  change (blank_separated (l :: l' :: ls)) with (l ++ sp :: blank_separated (l' :: ls)). rewrite IH by discriminate. reflexivity.
Qed.

Lemma right_trimmed_strip : forall s c, right_trimmed s c -> strip c = strip s.
Proof.
  intros s c (b & -> & B & _). symmetry. change (c ++ b) with ([] ++ c ++ b). apply strip_surround; [constructor|exact B].
Qed.


Lemma reaction_read : forall c e bib b r line, X4BibSection e bib = Ok b -> states_reaction bib r line ->
  Forall particle_key (c_particles c) -> Forall compound_key (c_compounds c) -> e_g e = x4grammars c ->
  good_reaction (c_particles c) r -> balances r ->
  exists f rs rx R, bib_field b "REACTION" = Some (Some (FReaction f rs)) /\ dget Ascii.eqb " "%char rs = Some (MRxn rx, PTok line) /\ tells r rx R.
Proof.
  intros c e bib b r line E (fs & fld & text & (first & rest & -> & O & KF & Om) & La & C11 & (parts & P & ->) & InF) HP HC HG GR BA.
  pose proof (bib_chunkify_fields _ _ _ O KF Om) as CH. rewrite bib_section_fold, CH in E.
  destruct (fold_bib_spec _ _ _ _ E) as (_ & FM & G & _).
  assert (I : In fld (first :: rest)) by (destruct La as (a & z & -> & _); apply in_or_app; right; now left).
  rewrite Forall_forall in FM. destruct (FM fld I) as (kw & f & K & M).
  assert (kw = tx "REACTION") as -> by (destruct La as (a & z & _ & K' & _); exact (field_keyword_fun _ _ _ K K')).
  assert (GF : bib_field b "REACTION" = Some (Some f)).
  { apply (G (tx "REACTION")). left. exists fld, f. auto. }
  change (key_of (tx "REACTION")) with (Some (lit "REACTION")) in M. unfold make_field in M. cbv zeta in M.
  change (tag_eqb (Some (lit "REACTION")) (Some (lit "REACTION"))) with true in M. cbv iota in M.
  apply bind_ok in M. destruct M as ([pf rs] & X & M). injection M as <-. cbn [fst snd] in GF.
  unfold X4ReactionField in X. apply bind_ok in X. destruct X as (pf' & PF & X). apply bind_ok in X. destruct X as (rs' & MR & X).
  injection X as -> ->.
  destruct (plain_field_spec _ _ PF) as (_ & (texts & T & D) & _).
  assert (LT : length fld = length texts) by (apply Forall2_len in T; now rewrite map_length in T).
  assert (NE : texts <> []).
  { intros ->. destruct fld; [|discriminate LT]. destruct K as (l & ls & Q & _). discriminate. }
  specialize (D " "%char). rewrite (marks_blank _ C11), LT, marked_blank in D.
  assert (D' : dget Ascii.eqb " "%char (f_dict pf) = Some texts) by (rewrite D; now destruct texts).
  destruct (map_res_dget _ _ (fun l => reaction_of_text e (subfield_str l)) _ _ _ _ MR D') as (y & Y & GY).
  assert (ST : subfield_str texts = blank_separated parts).
  { unfold subfield_str. assert (map strip texts = parts) as ->.
    - clear - T P. revert texts T. induction P as [|l p fld parts Hp P IH]; intros texts T; inversion T; subst; [reflexivity|].
      cbn [map]. f_equal; [|now apply IH]. rewrite (right_trimmed_strip _ _ H1). now apply trimmed_unique.
    - symmetry. apply blank_join. intros ->. inversion P; subst. destruct K as (l & ls & Q & _). discriminate. }
  rewrite ST in Y. destruct BA as (z & a & LV & RES). exists pf, rs.
  destruct (rc_residual r) as [n|] eqn:RR.
  - destruct (written_residual c e r n line (blank_separated parts) z a HP HC HG GR InF LV RR RES) as (rx & R & RT & TL & _).
    rewrite Y in RT. injection RT as ->. exists rx, R. auto.
  - destruct RES as [Z0 NZ].
    destruct (computed_residual_text c e r line (blank_separated parts) z a HP HC HG GR InF LV RR Z0 NZ) as (rx & R & RT & TL & _).
    rewrite Y in RT. injection RT as ->. exists rx, R. auto.
Qed.

(** ** The entry *)

Lemma split_lines : forall text, lines_of text (split_char nl text).
Proof.
  intros text. unfold lines_of. induction text as [|c s (N & J & F)].
  - cbn. repeat split; [discriminate|]. constructor; [intros []|constructor].
  - cbn [split_char]. destruct (Ascii.eqb c nl) eqn:Q.
    + apply Ascii.eqb_eq in Q. subst c. split; [discriminate|]. split.
      * rewrite J at 1. destruct (split_char nl s) as [|w ws]; [congruence|]. reflexivity.
      * constructor; [intros []|exact F].
    + apply Ascii.eqb_neq in Q. destruct (split_char nl s) as [|w ws]; [congruence|]. split; [discriminate|].
      inversion F as [|? ? F1 F2]; subst. split.
      * destruct ws; reflexivity.
      * constructor; [|exact F2]. intros [E|I]; [now elim Q|now elim F1].
Qed.

Lemma numbered_accnum : forall e text s num, X4SubEntry e text = Ok s -> (numbered num text <-> s_accnum s = Some num).
Proof.
  intros e text s num E. rewrite (subentry_accnum _ _ _ E), subentry_index. split.
  - intros (lines & pre & l & post & L & Q & A & B & C). rewrite (lines_split _ _ L). eauto 10.
  - intros (pre & l & post & Q & A & B & C). exists (split_char nl text), pre, l, post. split; [apply split_lines|auto].
Qed.

Lemma entry_last : forall e raw n num text, X4Entry e raw = Ok n -> last_such (numbered num) raw text ->
  exists s, X4SubEntry e text = Ok s /\ s_accnum s = Some num /\ In (Some num, s) (n_subs n) /\ dget tag_eqb (Some num) (n_subs n) = Some s.
Proof.
  intros e raw n num text E (pre & post & -> & N & F).
  destruct (entry_all_parsed _ _ _ text E) as (s & S); [apply in_or_app; right; now left|].
  assert (A : s_accnum s = Some num) by (now apply (numbered_accnum e text s num S)).
  exists s. split; [exact S|]. split; [exact A|].
  assert (G : dget tag_eqb (Some num) (n_subs n) = Some s).
  { pose proof (EntryLemmas.entry_ok _ _ _ E) as (_ & _ & FE). apply (fold_entry_spec _ _ _ _ FE). left. exists text. split; [|exact S].
    exists pre, post. split; [reflexivity|]. split; [eauto|]. rewrite Forall_forall in F |- *. intros x Ix (s' & Sx & Ax).
    apply (F x Ix). now apply (numbered_accnum e x s' num Sx). }
  split; [|exact G]. exact (dget_In _ tag_eqb_eq _ _ _ G).
Qed.

Lemma entry_same : forall e raw n k s s', X4Entry e raw = Ok n -> dget tag_eqb k (n_subs n) = Some s -> In (k, s') (n_subs n) -> s' = s.
Proof.
  intros e raw n k s s' E G I. apply entry_good in E. destruct E as [ND _ _].
  pose proof (In_dget _ tag_eqb_eq _ _ _ ND I) as G'. congruence.
Qed.

(** ** Data sets *)

Section Doc.
Variables (c : codes) (e : env) (nm : names) (raw : list str) (n : entry).
Variables (num text text1 : list ascii) (bib data : list (list ascii)) (r : rcode) (line : list ascii).
Variables (h1 h2 hd : list heading) (r1 r2 : list (option float)) (rows : list (list (option float))).
Variable k : ds_class.
Hypothesis HP : Forall particle_key (c_particles c).
Hypothesis HC : Forall compound_key (c_compounds c).
Hypothesis HG : e_g e = x4grammars c.
Hypothesis HE : X4Entry e raw = Ok n.
Hypothesis Ht : last_such (numbered num) raw text.
Hypothesis Ht1 : last_such (numbered (n_accnum n ++ tx "001")) raw text1.
Hypothesis Hn : num <> n_accnum n ++ tx "001".
Hypothesis Hs : sections_named text.
Hypothesis Hs1 : sections_named text1.
Hypothesis Hb : has_section "BIB" text bib.
Hypothesis Hr : states_reaction bib r line.
Hypothesis Hg : good_reaction (c_particles c) r.
Hypothesis Hbal : balances r.
Hypothesis Hk : kind (map PTok (quantities r)) k.
Hypothesis Hc1 : common_table text1 h1 r1.
Hypothesis Hc2 : common_table text h2 r2.
Hypothesis Hd : has_section "DATA" text data.
Hypothesis Hw : written_table data hd rows.

Lemma doc_data_set : forall errs ds errs' n', getDataSets nm n errs = Ok (ds, errs', n') ->
  exists d rx R, dget key_eqb (n_accnum n, Some num, " "%char) ds = Some d /\
    ds_reaction d = Some (MRxn rx, PTok line) /\ tells r rx R /\ ds_class_of d = k /\ ds_simplified d = false /\
    ds_table d = merged_table (h1 ++ h2 ++ hd) (map (fun row => r1 ++ r2 ++ row) rows).
Proof.
  intros errs ds errs' n' GD.
  destruct (entry_last _ _ _ _ _ HE Ht) as (s & S & A & I & _).
  destruct (entry_last _ _ _ _ _ HE Ht1) as (s1 & S1 & A1 & I1 & G1).
  destruct (dataSets_values _ _ _ _ _ _ _ _ HE GD) as (s1' & I1' & V & _).
  assert (s1' = s1) as -> by exact (entry_same _ _ _ _ _ _ HE G1 I1').
  destruct (V _ s " "%char I) as [V1 _]. clear V.
  destruct (sub_bib _ _ _ _ S Hs Hb) as (b & Eb & B).
  destruct (reaction_read c e bib b r line Eb Hr HP HC HG Hg Hbal) as (f & rs & rx & R & BF & DR & TL).
  destruct (sub_table _ _ _ "DATA" _ S Hs (or_introl eq_refl) Hd) as (dd & Ed & D).
  assert (CI : common_id n s = 1).
  { unfold common_id. rewrite A. destruct (tag_eqb (Some num) _) eqn:Q; [|reflexivity]. apply tag_eqb_eq in Q. injection Q as Q. now elim Hn. }
  pose proof (sub_common e text1 s1 0 h1 r1 S1 Hs1 Hc1) as K1. pose proof (sub_common e text s 1 h2 r2 S Hs Hc2) as K2.
  assert (DF : different (common_of 0 s1) (common_of 1 s)).
  { intros i x j y E1 E2. unfold common_of in E1, E2. destruct (sub_data s1 "COMMON"); [|discriminate]. destruct (sub_data s "COMMON"); [|discriminate].
    cbn in E1, E2. congruence. }
  pose proof (table_merged _ _ _ _ _ _ _ _ _ _ _ (Some " "%char) Ed Hw K1 K2 DF) as TM.
  set (T := tried nm n s1 s s " "%char) in V1.
  assert (ET : T = Some (Ok (mkDS k (fold_left merge_meta [metadata_of s1; metadata_of s] no_meta) (Some (MRxn rx, PTok line))
     (dget Ascii.eqb " "%char (monitors_of s)) (full_table (h1 ++ h2 ++ hd) (map (fun row => r1 ++ r2 ++ row) rows)) false false
     (match k with AngularDist | EnergyDist => Some (frame_of (t_labels (full_table (h1 ++ h2 ++ hd) (map (fun row => r1 ++ r2 ++ row) rows)))) | _ => None end)))).
  { unfold T, tried. rewrite D. unfold reactions_of. rewrite B, BF, DR, CI. cbn [fst m_quantity]. unfold X4DataSetFactory. cbn [settle_quantity bind].
    unfold make_dataset. rewrite TM. cbn [bind is_combination].
    assert (class_of_quantity (PGroup (r_quant rx)) = k) as ->; [|reflexivity].
    pose proof (tells_quantities _ _ _ TL) as TQ. rewrite TQ. exact (kind_unique _ _ _ (kind_of_class _) Hk). }
  rewrite ET in V1. cbn [ok_of last_some] in V1. eexists _, rx, R. split; [exact V1|].
  split; [reflexivity|]. split; [exact TL|]. split; [reflexivity|]. split; reflexivity.
Qed.

Lemma doc_cross : forall acos errs s ds errs' n' s' a f b g w, k = CrossSection ->
  getSimplifiedDataSets nm acos false n errs s = Ok (ds, errs', n', s') ->
  cross_section_columns (h1 ++ h2 ++ hd) a f b g w ->
  (exists row, In row rows /\ at_column (r1 ++ r2 ++ row) a <> None) ->
  (exists row, In row rows /\ at_column (r1 ++ r2 ++ row) b <> None) ->
  exists d rx R, dget key_eqb (n_accnum n, Some num, " "%char) ds = Some d /\
    ds_reaction d = Some (MRxn rx, PTok line) /\ tells r rx R /\ ds_class_of d = CrossSection /\ ds_simplified d = true /\
    ds_table d = simplified_table (map (fun row => r1 ++ r2 ++ row) rows) a f b g w.
Proof.
  intros acos errs s ds errs' n' s' a f b g w EK GS CS (ra & Ia & Na) (rb & Ib & Nb).
  destruct (simplifiedDataSets_spec _ _ _ _ _ _ _ _ _ _ _ _ HE GS) as (ds0 & errs0 & GD & _ & V & _).
  destruct (doc_data_set _ _ _ _ GD) as (d & rx & R & G & DR & TL & DC & DS & DT).
  assert (SM : simplified acos false false d = Ok (set_table d (simplified_table (map (fun row => r1 ++ r2 ++ row) rows) a f b g w) true)).
  { apply (cross_simplified acos d (h1 ++ h2 ++ hd) (map (fun row => r1 ++ r2 ++ row) rows)); auto.
    - assert (L1 : length r1 = length h1).
      { destruct Hc1 as [(-> & -> & _)|(sec & _ & _ & _ & _ & _ & _ & F & _)]; [reflexivity|]. now inversion F. }
      assert (L2 : length r2 = length h2).
      { destruct Hc2 as [(-> & -> & _)|(sec & _ & _ & _ & _ & _ & _ & F & _)]; [reflexivity|]. now inversion F. }
      destruct Hw as (_ & _ & _ & _ & _ & F & _). rewrite Forall_forall in F |- *. intros x Ix. apply in_map_iff in Ix.
      destruct Ix as (row & <- & Ix). rewrite !app_length, L1, L2, (F row Ix). reflexivity.
    - exists (r1 ++ r2 ++ ra). split; [exact (in_map (fun row => r1 ++ r2 ++ row) _ _ Ia)|exact Na].
    - exists (r1 ++ r2 ++ rb). split; [exact (in_map (fun row => r1 ++ r2 ++ row) _ _ Ib)|exact Nb].
    - now rewrite DC. }
  destruct (V _ _ G) as [(d' & Q & G' & _)|(x & Q & _)]; rewrite run_getSimplified, SM in Q; [|discriminate].
  injection Q as <-. exists (set_table d (simplified_table (map (fun row => r1 ++ r2 ++ row) rows) a f b g w) true), rx, R.
  split; [exact G'|]. split; [exact DR|]. split; [exact TL|].
  split; [cbn; now rewrite DC|]. split; reflexivity.
Qed.
End Doc.
